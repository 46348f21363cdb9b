(* Facts about the primitives: lengths, and that opening a box inverts sealing it. *)
From Verif Require Export Bcrypt PointBytes.
Local Open Scope Z_scope.

Lemma SHA512_length m : length (SHA512 m) = 64%nat.
Proof.
  unfold SHA512. generalize (fold_left sha512_block (chunks 128 (sha512_pad m)) sha512_init).
  intros [[[[[[[a b] c] d] e] f] g] h]. rewrite !app_length, !length_be_encode. reflexivity.
Qed.
Lemma HMAC512_length k m : length (HMAC512 k m) = 64%nat.
Proof. unfold HMAC512. cbv zeta. apply SHA512_length. Qed.
Lemma nacl_auth_length m k : length (nacl_auth m k) = 32%nat.
Proof. unfold nacl_auth. rewrite firstn_length, HMAC512_length. reflexivity. Qed.

Lemma flat_map_length {A B} (f : A -> list B) n l : (forall x, length (f x) = n) -> length (flat_map f l) = (length l * n)%nat.
Proof. intro H. induction l as [|x l IH]; cbn [flat_map length]; [reflexivity|]. rewrite app_length, H, IH. lia. Qed.
Lemma words_list_length x : length (words_list x) = 16%nat.
Proof. destruct x as [[[[[[? ?] ?] ?] [[[? ?] ?] ?]] [[[? ?] ?] ?]] [[[? ?] ?] ?]]. reflexivity. Qed.
Lemma Salsa20_length k n : length (Salsa20 k n) = 64%nat.
Proof.
  unfold Salsa20. cbv zeta. rewrite (flat_map_length _ 4) by (intro; apply length_le_bytes).
  rewrite combine_length, !words_list_length. reflexivity.
Qed.
Lemma HSalsa20_length k n : length (HSalsa20 k n) = 32%nat.
Proof.
  unfold HSalsa20. generalize (salsa_rounds (salsa_input k n)). intro x.
  destruct x as [[[[[[? ?] ?] ?] [[[? ?] ?] ?]] [[[? ?] ?] ?]] [[[? ?] ?] ?]].
  rewrite (flat_map_length _ 4) by (intro; apply length_le_bytes). reflexivity.
Qed.
Lemma xsalsa_length k n c : length (xsalsa k n c) = c.
Proof.
  unfold xsalsa, xsalsa_blocks. cbv zeta. rewrite firstn_length, (flat_map_length _ 64) by (intro; apply Salsa20_length).
  rewrite seq_length. pose proof (Nat.div_mod c 64 ltac:(discriminate)). pose proof (Nat.mod_upper_bound c 64 ltac:(discriminate)). lia.
Qed.
Lemma Poly1305_length k m : length (Poly1305 k m) = 16%nat.
Proof. apply length_le_bytes. Qed.

Lemma secretbox_length m n k : length (secretbox_seal m n k) = (length m + 16)%nat.
Proof. unfold secretbox_seal. cbv zeta. rewrite app_length, Poly1305_length, length_xor_bytes. lia. Qed.
Lemma secretbox_opens m n k : secretbox_open (secretbox_seal m n k) n k = Some m.
Proof.
  unfold secretbox_open. rewrite secretbox_length. destruct (Nat.ltb_spec (length m + 16) 16) as [H|_]; [lia|].
  unfold secretbox_seal. cbv zeta. set (s := xsalsa k n (32 + length m)). set (c := xor_bytes m (skipn 32 s)).
  set (t := Poly1305 (firstn 32 s) c). assert (T : length t = 16%nat) by apply Poly1305_length.
  rewrite firstn_app, skipn_app, T, Nat.sub_diag, skipn_O, firstn_O, app_nil_r, firstn_all2, skipn_all2 by lia. cbn [app].
  replace (xsalsa k n (32 + length c)) with s by (unfold s, c; rewrite length_xor_bytes; reflexivity).
  fold t. rewrite bytes_eqb_refl. unfold c. rewrite xor_bytes_invol. reflexivity.
Qed.
Lemma secretbox_tidy c m n k : secretbox_open c n k = Some m -> c = secretbox_seal m n k.
Proof.
  unfold secretbox_open. destruct (Nat.ltb_spec (length c) 16) as [_|H]; [discriminate|]. cbv zeta.
  set (d := skipn 16 c). set (s := xsalsa k n (32 + length d)).
  destruct (bytes_eqb _ _) eqn:E; [|discriminate]. intro Q. injection Q as <-. apply bytes_eqb_eq in E.
  unfold secretbox_seal. cbv zeta. rewrite length_xor_bytes. fold s. rewrite xor_bytes_invol, <- E. symmetry. apply firstn_skipn.
Qed.

Lemma bcrypt_pbkdf_length p s r n : length (bcrypt_pbkdf p s r n) = n.
Proof. unfold bcrypt_pbkdf. cbv zeta. rewrite map_length, seq_length. reflexivity. Qed.
