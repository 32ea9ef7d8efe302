(** Primality of the order of the ristretto255 group.
    The number is libsodium's crypto_core_ristretto255 group order L; in /repo it is
    implicit in every crypto_core_ristretto255_scalar_* call (src/oprf.c, src/toprf.c,
    src/dkg.c, src/mpmult.c). *)
From Coq Require Import ZArith Znumtheory Lia.
From Verif Require Import Prime.
Open Scope Z_scope.

Definition L : Z := 2 ^ 252 + 27742317777372353535851937790883648493.

Lemma prime_531581 : prime 531581.
Proof. apply (trial_prime _ 800); [lia|vm_compute; reflexivity|vm_compute; reflexivity]. Qed.

Lemma prime_1224481 : prime 1224481.
Proof. apply (trial_prime _ 1200); [lia|vm_compute; reflexivity|vm_compute; reflexivity]. Qed.

Ltac pock := try lia; try (vm_compute; reflexivity); try (vm_compute; discriminate).

Lemma prime_p1 : prime 1257559732178653.
Proof.
  apply (pocklington2 _ 531581 1224481 (1257559732178652 / 531581) (1257559732178652 / 1224481) 2 2);
    [exact prime_531581|exact prime_1224481|..]; pock.
Qed.

Lemma prime_p2 : prime 4434155615661930479.
Proof. apply (pocklington1 _ _ (4434155615661930478 / 1257559732178653) 2 prime_p1); pock. Qed.

Lemma prime_p3 : prime 172054593956031949258510691.
Proof. apply (pocklington1 _ _ (172054593956031949258510690 / 4434155615661930479) 2 prime_p2); pock. Qed.

Lemma prime_p4 : prime 19757330305831588566944191468367130476339.
Proof. apply (pocklington1 _ _ (19757330305831588566944191468367130476338 / 172054593956031949258510691) 2 prime_p3); pock. Qed.

Lemma prime_p5 : prime 276602624281642239937218680557139826668747.
Proof. apply (pocklington1 _ _ (276602624281642239937218680557139826668746 / 19757330305831588566944191468367130476339) 2 prime_p4); pock. Qed.

Theorem prime_L : prime L.
Proof.
  apply (pocklington1 _ _ ((L - 1) / 276602624281642239937218680557139826668747) 2 prime_p5); pock.
Qed.
