(** Primality certificates (generated) for the moduli of /repo: the BN256 and BLS12-381
    scalar fields (pairing crate, used as Fr in src/native/bn256.rs:10 and
    src/native/bls12_381.rs:10) and the JubJub subgroup orders
    (src/native/bn256.rs:13, src/native/bls12_381.rs:13). *)

From Coq Require Import Znumtheory.
From Verif Require Import Zp Primality.
Open Scope Z_scope.

Lemma prime_1637 : prime 1637.
Proof. apply trial_prime. vm_compute. reflexivity. Qed.

Lemma prime_853 : prime 853.
Proof. apply trial_prime. vm_compute. reflexivity. Qed.

Lemma prime_639533339 : prime 639533339.
Proof.
  apply (pocklington_shared 639533339 2 [(1637, 1); (853, 1)]).
  - constructor; [exact prime_1637|]. constructor; [exact prime_853|]. constructor.
  - vm_compute. reflexivity.
Qed.

Lemma prime_65865678001877903 : prime 65865678001877903.
Proof.
  apply (pocklington_shared 65865678001877903 2 [(639533339, 1)]).
  - constructor; [exact prime_639533339|]. constructor.
  - vm_compute. reflexivity.
Qed.

Lemma prime_13818364434197438864469338081 : prime 13818364434197438864469338081.
Proof.
  apply (pocklington_shared 13818364434197438864469338081 2 [(65865678001877903, 1)]).
  - constructor; [exact prime_65865678001877903|]. constructor.
  - vm_compute. reflexivity.
Qed.

Lemma prime_93001 : prime 93001.
Proof. apply trial_prime. vm_compute. reflexivity. Qed.

Lemma prime_661 : prime 661.
Proof. apply trial_prime. vm_compute. reflexivity. Qed.

Lemma prime_12048837557 : prime 12048837557.
Proof.
  apply (pocklington_shared 12048837557 2 [(93001, 1); (661, 1)]).
  - constructor; [exact prime_93001|]. constructor; [exact prime_661|]. constructor.
  - vm_compute. reflexivity.
Qed.

Lemma prime_5156902474397 : prime 5156902474397.
Proof.
  apply (pocklington_shared 5156902474397 2 [(12048837557, 1)]).
  - constructor; [exact prime_12048837557|]. constructor.
  - vm_compute. reflexivity.
Qed.

Lemma prime_1670836401704629 : prime 1670836401704629.
Proof.
  apply (pocklington_shared 1670836401704629 2 [(5156902474397, 1)]).
  - constructor; [exact prime_5156902474397|]. constructor.
  - vm_compute. reflexivity.
Qed.

Lemma prime_21888242871839275222246405745257275088548364400416034343698204186575808495617 : prime 21888242871839275222246405745257275088548364400416034343698204186575808495617.
Proof.
  apply (pocklington_shared 21888242871839275222246405745257275088548364400416034343698204186575808495617 2 [(13818364434197438864469338081, 1); (1670836401704629, 1)]).
  - constructor; [exact prime_13818364434197438864469338081|]. constructor; [exact prime_1670836401704629|]. constructor.
  - vm_compute. reflexivity.
Qed.

Lemma prime_1061 : prime 1061.
Proof. apply trial_prime. vm_compute. reflexivity. Qed.

Lemma prime_37 : prime 37.
Proof. apply trial_prime. vm_compute. reflexivity. Qed.

Lemma prime_10206821 : prime 10206821.
Proof.
  apply (pocklington_shared 10206821 2 [(1061, 1); (37, 1)]).
  - constructor; [exact prime_1061|]. constructor; [exact prime_37|]. constructor.
  - vm_compute. reflexivity.
Qed.

Lemma prime_81654569 : prime 81654569.
Proof.
  apply (pocklington_shared 81654569 2 [(10206821, 1)]).
  - constructor; [exact prime_10206821|]. constructor.
  - vm_compute. reflexivity.
Qed.

Lemma prime_513749 : prime 513749.
Proof. apply trial_prime. vm_compute. reflexivity. Qed.

Lemma prime_27892051421815855583579 : prime 27892051421815855583579.
Proof.
  apply (pocklington_shared 27892051421815855583579 2 [(81654569, 1); (513749, 1)]).
  - constructor; [exact prime_81654569|]. constructor; [exact prime_513749|]. constructor.
  - vm_compute. reflexivity.
Qed.

Lemma prime_1863691091902891838383581623 : prime 1863691091902891838383581623.
Proof.
  apply (pocklington_shared 1863691091902891838383581623 2 [(27892051421815855583579, 1)]).
  - constructor; [exact prime_27892051421815855583579|]. constructor.
  - vm_compute. reflexivity.
Qed.

Lemma prime_178259130663561045147472537592047227885001 : prime 178259130663561045147472537592047227885001.
Proof.
  apply (pocklington_shared 178259130663561045147472537592047227885001 2 [(1863691091902891838383581623, 1)]).
  - constructor; [exact prime_1863691091902891838383581623|]. constructor.
  - vm_compute. reflexivity.
Qed.

Lemma prime_2736030358979909402780800718157159386076813972158567259200215660948447373041 : prime 2736030358979909402780800718157159386076813972158567259200215660948447373041.
Proof.
  apply (pocklington_shared 2736030358979909402780800718157159386076813972158567259200215660948447373041 2 [(178259130663561045147472537592047227885001, 1)]).
  - constructor; [exact prime_178259130663561045147472537592047227885001|]. constructor.
  - vm_compute. reflexivity.
Qed.

Lemma prime_110573 : prime 110573.
Proof. apply trial_prime. vm_compute. reflexivity. Qed.

Lemma prime_2653753 : prime 2653753.
Proof.
  apply (pocklington_shared 2653753 2 [(110573, 1)]).
  - constructor; [exact prime_110573|]. constructor.
  - vm_compute. reflexivity.
Qed.

Lemma prime_63690073 : prime 63690073.
Proof.
  apply (pocklington_shared 63690073 2 [(2653753, 1)]).
  - constructor; [exact prime_2653753|]. constructor.
  - vm_compute. reflexivity.
Qed.

Lemma prime_254760293 : prime 254760293.
Proof.
  apply (pocklington_shared 254760293 2 [(63690073, 1)]).
  - constructor; [exact prime_63690073|]. constructor.
  - vm_compute. reflexivity.
Qed.

Lemma prime_906349 : prime 906349.
Proof. apply trial_prime. vm_compute. reflexivity. Qed.

Lemma prime_2 : prime 2.
Proof. apply trial_prime. vm_compute. reflexivity. Qed.

Lemma prime_52435875175126190479447740508185965837690552500527637822603658699938581184513 : prime 52435875175126190479447740508185965837690552500527637822603658699938581184513.
Proof.
  apply (pocklington_shared 52435875175126190479447740508185965837690552500527637822603658699938581184513 5 [(254760293, 2); (906349, 2); (2, 32)]).
  - constructor; [exact prime_254760293|]. constructor; [exact prime_906349|]. constructor; [exact prime_2|]. constructor.
  - vm_compute. reflexivity.
Qed.

Lemma prime_567097 : prime 567097.
Proof. apply trial_prime. vm_compute. reflexivity. Qed.

Lemma prime_62701 : prime 62701.
Proof. apply trial_prime. vm_compute. reflexivity. Qed.

Lemma prime_16356472538621 : prime 16356472538621.
Proof.
  apply (pocklington_shared 16356472538621 2 [(567097, 1); (62701, 1)]).
  - constructor; [exact prime_567097|]. constructor; [exact prime_62701|]. constructor.
  - vm_compute. reflexivity.
Qed.

Lemma prime_623312455501769069 : prime 623312455501769069.
Proof.
  apply (pocklington_shared 623312455501769069 2 [(16356472538621, 1)]).
  - constructor; [exact prime_16356472538621|]. constructor.
  - vm_compute. reflexivity.
Qed.

Lemma prime_255074062430788457494141376149 : prime 255074062430788457494141376149.
Proof.
  apply (pocklington_shared 255074062430788457494141376149 2 [(623312455501769069, 1)]).
  - constructor; [exact prime_623312455501769069|]. constructor.
  - vm_compute. reflexivity.
Qed.

Lemma prime_1571 : prime 1571.
Proof. apply trial_prime. vm_compute. reflexivity. Qed.

Lemma prime_43 : prime 43.
Proof. apply trial_prime. vm_compute. reflexivity. Qed.

Lemma prime_2837227 : prime 2837227.
Proof.
  apply (pocklington_shared 2837227 2 [(1571, 1); (43, 1)]).
  - constructor; [exact prime_1571|]. constructor; [exact prime_43|]. constructor.
  - vm_compute. reflexivity.
Qed.

Lemma prime_187256983 : prime 187256983.
Proof.
  apply (pocklington_shared 187256983 2 [(2837227, 1)]).
  - constructor; [exact prime_2837227|]. constructor.
  - vm_compute. reflexivity.
Qed.

Lemma prime_2567293236931 : prime 2567293236931.
Proof.
  apply (pocklington_shared 2567293236931 2 [(187256983, 1)]).
  - constructor; [exact prime_187256983|]. constructor.
  - vm_compute. reflexivity.
Qed.

Lemma prime_431305263804409 : prime 431305263804409.
Proof.
  apply (pocklington_shared 431305263804409 2 [(2567293236931, 1)]).
  - constructor; [exact prime_2567293236931|]. constructor.
  - vm_compute. reflexivity.
Qed.

Lemma prime_203928654140967434528233 : prime 203928654140967434528233.
Proof.
  apply (pocklington_shared 203928654140967434528233 2 [(431305263804409, 1)]).
  - constructor; [exact prime_431305263804409|]. constructor.
  - vm_compute. reflexivity.
Qed.

Lemma prime_6554484396890773809930967563523245729705921265872317281365359162392183254199 : prime 6554484396890773809930967563523245729705921265872317281365359162392183254199.
Proof.
  apply (pocklington_shared 6554484396890773809930967563523245729705921265872317281365359162392183254199 2 [(255074062430788457494141376149, 1); (203928654140967434528233, 1)]).
  - constructor; [exact prime_255074062430788457494141376149|]. constructor; [exact prime_203928654140967434528233|]. constructor.
  - vm_compute. reflexivity.
Qed.
