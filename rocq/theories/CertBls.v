(** Primality certificate (generated) for the base field of BLS12-381 (pairing crate,
    bls12_381::Fq; [bls_q] of PointData.v). *)

From Coq Require Import Znumtheory.
From Verif Require Import Zp Primality PointData.
Open Scope Z_scope.

Lemma prime_421987 : prime 421987.
Proof. apply trial_prime. vm_compute. reflexivity. Qed.

Lemma prime_13090036741 : prime 13090036741.
Proof.
  apply (pocklington_shared 13090036741 2 [(421987, 1)]).
  - constructor; [exact prime_421987|]. constructor.
  - vm_compute. reflexivity.
Qed.

Lemma prime_755057 : prime 755057.
Proof. apply trial_prime. vm_compute. reflexivity. Qed.

Lemma prime_3819663927398918131021 : prime 3819663927398918131021.
Proof.
  apply (pocklington_shared 3819663927398918131021 2 [(13090036741, 1); (755057, 1)]).
  - constructor; [exact prime_13090036741|]. constructor; [exact prime_755057|]. constructor.
  - vm_compute. reflexivity.
Qed.

Lemma prime_1125266252156850182658904441386709967 : prime 1125266252156850182658904441386709967.
Proof.
  apply (pocklington_shared 1125266252156850182658904441386709967 2 [(3819663927398918131021, 1)]).
  - constructor; [exact prime_3819663927398918131021|]. constructor.
  - vm_compute. reflexivity.
Qed.

Lemma prime_15778400344354997994418419698270088123916926905054652752758194827714659 : prime 15778400344354997994418419698270088123916926905054652752758194827714659.
Proof.
  apply (pocklington_shared 15778400344354997994418419698270088123916926905054652752758194827714659 2 [(1125266252156850182658904441386709967, 1)]).
  - constructor; [exact prime_1125266252156850182658904441386709967|]. constructor.
  - vm_compute. reflexivity.
Qed.

Lemma prime_4002409555221667393417789825735904156556882819939007885332058136124031650490837864442687629129015664037894272559787 : prime 4002409555221667393417789825735904156556882819939007885332058136124031650490837864442687629129015664037894272559787.
Proof.
  apply (pocklington_shared 4002409555221667393417789825735904156556882819939007885332058136124031650490837864442687629129015664037894272559787 2 [(15778400344354997994418419698270088123916926905054652752758194827714659, 1)]).
  - constructor; [exact prime_15778400344354997994418419698270088123916926905054652752758194827714659|]. constructor.
  - vm_compute. reflexivity.
Qed.

Lemma prime_bls_q : prime (Zpos bls_q).
Proof. exact prime_4002409555221667393417789825735904156556882819939007885332058136124031650490837864442687629129015664037894272559787. Qed.
