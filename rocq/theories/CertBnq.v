(** A Pocklington certificate for the base field of BN256. *)

From Coq Require Import ZArith Znumtheory List.
From Verif Require Import Zp Primality PointData.
Import ListNotations.
Open Scope Z_scope.

Lemma prime_3557 : prime 3557.
Proof. apply trial_prime. vm_compute. reflexivity. Qed.

Lemma prime_911 : prime 911.
Proof. apply trial_prime. vm_compute. reflexivity. Qed.

Lemma prime_1263766531 : prime 1263766531.
Proof.
  apply (pocklington_shared 1263766531 2 [(3557, 1); (911, 1)]).
  - constructor; [exact prime_3557|]. constructor; [exact prime_911|]. constructor.
  - vm_compute. reflexivity.
Qed.

Lemma prime_35385462869 : prime 35385462869.
Proof.
  apply (pocklington_shared 35385462869 2 [(1263766531, 1)]).
  - constructor; [exact prime_1263766531|]. constructor.
  - vm_compute. reflexivity.
Qed.

Lemma prime_2480874801745591 : prime 2480874801745591.
Proof.
  apply (pocklington_shared 2480874801745591 2 [(35385462869, 1)]).
  - constructor; [exact prime_35385462869|]. constructor.
  - vm_compute. reflexivity.
Qed.

Lemma prime_13327 : prime 13327.
Proof. apply trial_prime. vm_compute. reflexivity. Qed.

Lemma prime_173171039 : prime 173171039.
Proof.
  apply (pocklington_shared 173171039 2 [(13327, 1)]).
  - constructor; [exact prime_13327|]. constructor.
  - vm_compute. reflexivity.
Qed.

Lemma prime_13427688667394608761327070753331941386769 : prime 13427688667394608761327070753331941386769.
Proof.
  apply (pocklington_shared 13427688667394608761327070753331941386769 2 [(2480874801745591, 1); (173171039, 1)]).
  - constructor; [exact prime_2480874801745591|]. constructor; [exact prime_173171039|]. constructor.
  - vm_compute. reflexivity.
Qed.

Lemma prime_21888242871839275222246405745257275088696311157297823662689037894645226208583 : prime 21888242871839275222246405745257275088696311157297823662689037894645226208583.
Proof.
  apply (pocklington_shared 21888242871839275222246405745257275088696311157297823662689037894645226208583 2 [(13427688667394608761327070753331941386769, 1)]).
  - constructor; [exact prime_13427688667394608761327070753331941386769|]. constructor.
  - vm_compute. reflexivity.
Qed.

Lemma prime_bn_q : prime (Zpos bn_q).
Proof. exact prime_21888242871839275222246405745257275088696311157297823662689037894645226208583. Qed.
