(* The order of the base point is prime (Pocklington certificates). *)
From Verif Require Import NumTheory SpecScalar.
Local Open Scope Z_scope.
(* 2^252 is -27742317777372353535851937790883648493 modulo l *)
Definition fold_ell (n : Z) : Z :=
  Z.land n 7237005577332262213973186563042994240829374041602535252466099000494570602495 - 27742317777372353535851937790883648493 * Z.shiftr n 252.
Lemma fold_ell_ok n : fold_ell n mod ell = n mod ell.
Proof.
  unfold fold_ell. change 7237005577332262213973186563042994240829374041602535252466099000494570602495 with (Z.ones 252).
  rewrite Z.land_ones, Z.shiftr_div_pow2 by lia. pose proof (Z.div_mod n (2 ^ 252) ltac:(lia)) as D.
  replace (n mod 2 ^ 252 - 27742317777372353535851937790883648493 * (n / 2 ^ 252)) with (n + (- (n / 2 ^ 252)) * ell) by (unfold ell; lia). apply Z.mod_add. discriminate.
Qed.
Lemma prime_1224481 : prime 1224481.
Proof. apply (small_prime _ 1200). vm_compute. reflexivity. Qed.
Lemma prime_531581 : prime 531581.
Proof. apply (small_prime _ 800). vm_compute. reflexivity. Qed.
Lemma prime_L4 : prime 1257559732178653.
Proof. apply (check2_ok _ 2 1224481 531581); [vm_compute; reflexivity|exact prime_1224481|exact prime_531581]. Qed.
Lemma prime_L3 : prime 4434155615661930479.
Proof. apply (check1_ok _ 2 1257559732178653); [vm_compute; reflexivity|exact prime_L4]. Qed.
Lemma prime_L2 : prime 172054593956031949258510691.
Proof. apply (check1_ok _ 2 4434155615661930479); [vm_compute; reflexivity|exact prime_L3]. Qed.
Lemma prime_L1 : prime 19757330305831588566944191468367130476339.
Proof. apply (check1_ok _ 2 172054593956031949258510691); [vm_compute; reflexivity|exact prime_L2]. Qed.
Lemma prime_L0 : prime 276602624281642239937218680557139826668747.
Proof. apply (check1_ok _ 2 19757330305831588566944191468367130476339); [vm_compute; reflexivity|exact prime_L1]. Qed.
Lemma prime_ell : prime ell.
Proof.
  apply (check1r_ok (fun n => fold_ell (fold_ell (fold_ell n))) _ 2 276602624281642239937218680557139826668747).
  - intro x. rewrite !fold_ell_ok. reflexivity.
  - vm_compute. reflexivity.
  - exact prime_L0.
Qed.
