(* The external libraries as the primitives they implement: an instance of [Crypto]
   that meets every law the theorems take as a premise. *)
From Verif Require Export PrimFacts EdSigFacts BoxKeys.
Local Open Scope Z_scope.

Definition real : Crypto := {|
  sha512 := SHA512;
  pbkdf := bcrypt_pbkdf;
  ed_public := lib_Public SHA512;
  ed_sign := lib_Sign SHA512;
  ed_verify := lib_Verify SHA512;
  x25519_base := fun k => X25519 k u_base;
  box_precompute := box_shared;
  box_seal := secretbox_seal;
  box_open := secretbox_open;
  auth_sum := nacl_auth |}.

Lemma real_ed : conforms_ed25519 real.
Proof. intros seed _. exact (lib_Public_ok SHA512 SHA512_length seed). Qed.
Lemma real_signatures : conforms_signatures real.
Proof.
  split.
  - intros seed m L. unfold ed_private. rewrite (real_ed seed L). exact (lib_Sign_ok SHA512 SHA512_length seed m L).
  - intros pub m s L. exact (lib_Verify_ok SHA512 SHA512_length pub m s L).
Qed.
Lemma real_x25519 : conforms_x25519 real.
Proof. split; [intros k _; reflexivity|]. exists (fun x => HSalsa20 x (repeat x00 16)). intros p k _ _. reflexivity. Qed.
Lemma real_lengths : LengthLaws real.
Proof.
  constructor.
  - exact SHA512_length.
  - exact bcrypt_pbkdf_length.
  - intros seed L. rewrite (real_ed seed L). apply point_bytes_length.
  - intros k m _. change (ed_sign real k m) with (lib_Sign SHA512 k m). unfold lib_Sign. cbv zeta.
    rewrite app_length, (mult_reduced _ SHA512_length), point_bytes_length, ScMulAdd_length. reflexivity.
  - intro k. apply length_le_bytes.
  - intros p k. apply HSalsa20_length.
  - exact secretbox_length.
  - exact nacl_auth_length.
Qed.
Lemma real_box : BoxCorrect real. Proof. exact secretbox_opens. Qed.
Lemma real_tidy : BoxTidy real. Proof. exact secretbox_tidy. Qed.
Lemma real_correct : EdCorrect real.
Proof. exact (conform_correct real SHA512_length real_ed real_signatures). Qed.
Lemma real_dh : DHCorrect real. Proof. exact (conform_dh real real_x25519). Qed.
Lemma real_agree : ToBoxAgree real. Proof. exact (conform_agree real SHA512_length real_ed real_x25519). Qed.

Lemma real_laws : LengthLaws real /\ EdCorrect real /\ BoxCorrect real /\ BoxTidy real /\ DHCorrect real /\ ToBoxAgree real /\
  conforms_ed25519 real /\ conforms_x25519 real /\ conforms_signatures real.
Proof.
  exact (conj real_lengths (conj real_correct (conj real_box (conj real_tidy (conj real_dh (conj real_agree (conj real_ed (conj real_x25519 real_signatures)))))))).
Qed.
