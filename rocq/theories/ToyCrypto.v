(* A concrete instance of [Crypto] meeting the laws, used to show that the
   premises of the theorems can be met.  It is of course not secure. *)
From Verif Require Export Crypto.

Definition toy_tag (n : bytes) : bytes := fit 16 (skipn 8 n).
Definition toy_open (c n k : bytes) : option bytes :=
  if (length c <? 16)%nat then None
  else if bytes_eqb (skipn (length c - 16) c) (toy_tag n)
  then Some (firstn (length c - 16) c) else None.

Definition toy : Crypto := {|
  sha512 := fun m => fit 64 m;
  pbkdf := fun p s r n => fit n (p ++ s);
  ed_public := fun _ => x01 :: repeat x00 31;
  ed_sign := fun k m => fit 64 m;
  ed_verify := fun p m s => bytes_eqb s (fit 64 m);
  x25519_base := fun _ => repeat x00 32;
  box_precompute := fun _ _ => repeat x07 32;
  box_seal := fun m n k => m ++ toy_tag n;
  box_open := toy_open;
  auth_sum := fun m k => fit 32 (rev m)
|}.

Lemma toy_lengths : LengthLaws toy.
Proof.
  constructor; intros; cbn [toy sha512 pbkdf ed_public ed_sign x25519_base box_precompute box_seal auth_sum];
    rewrite ?app_length; unfold toy_tag; rewrite ?length_fit; reflexivity.
Qed.

Lemma toy_ed : EdCorrect toy.
Proof. intros seed m _. apply bytes_eqb_refl. Qed.

Lemma toy_box : BoxCorrect toy.
Proof.
  intros m n k. cbn [toy box_open box_seal]. unfold toy_open.
  assert (L : length (toy_tag n) = 16%nat) by apply length_fit.
  rewrite app_length, L. destruct (Nat.ltb_spec (length m + 16) 16) as [H|_]; [lia|].
  rewrite Nat.add_sub, skipn_app, skipn_all, Nat.sub_diag. cbn [app skipn].
  rewrite bytes_eqb_refl, firstn_app, firstn_all, Nat.sub_diag. cbn [firstn]. rewrite app_nil_r. reflexivity.
Qed.

Lemma toy_tidy : BoxTidy toy.
Proof.
  intros c m n k. cbn [toy box_open box_seal]. unfold toy_open.
  destruct (length c <? 16)%nat; [discriminate|].
  destruct (bytes_eqb _ _) eqn:E; [|discriminate]. intro H. injection H as <-.
  apply bytes_eqb_eq in E. rewrite <- E. symmetry. apply firstn_skipn.
Qed.

Lemma toy_dh : DHCorrect toy.
Proof. intros a b _ _. reflexivity. Qed.
