(* Property theorems: what the tests of the repository assert, for all inputs, C86. *)
From Verif Require Import HoldersFacts B64Stream.
Local Open Scope Z_scope.

(* TestEncryption (key_test.go:70-104), for every passphrase, ephemeral secret, message and nonce *)
Theorem C86_one_holder : forall pass opts w priv pub w0 v,
  GenerateKeypair real pass opts w = (Ok (priv, pub), w0) -> not_mistaken real pass opts (w_rng w) ->
  (pass <> [] -> exists tl, w_tty v = Ok pass :: tl) ->
  exists s p v' b, priv_ToBox real priv v = ((Ok s, p), v') /\ pub_ToBox pub = Ok b /\
    length s = 32%nat /\ b = X25519 s u_base /\
    (forall u, priv_ToBox real p u = ((Ok s, p), u)) /\
    forall e m n, length e = 32%nat ->
      box_from real (box_to real m n b e) n (X25519 e u_base) s = Some m /\
      box_from real (box_to real m n (X25519 e u_base) s) n b e = Some m.
Proof. exact (to_holder real real_lengths real_box real_dh real_agree). Qed.
Print Assumptions C86_one_holder.

(* TestEncryption2 (key_test.go:106-154) up to its last check *)
Theorem C86_two_holders : forall pass1 pass2 o1 o2 w1 w2 v1 v2 w1' w2' priv1 priv2 pub1 pub2,
  GenerateKeypair real pass1 o1 w1 = (Ok (priv1, pub1), w1') -> GenerateKeypair real pass2 o2 w2 = (Ok (priv2, pub2), w2') ->
  not_mistaken real pass1 o1 (w_rng w1) -> not_mistaken real pass2 o2 (w_rng w2) ->
  (pass1 <> [] -> exists tl, w_tty v1 = Ok pass1 :: tl) -> (pass2 <> [] -> exists tl, w_tty v2 = Ok pass2 :: tl) ->
  exists s1 p1 v1' b1 s2 p2 v2' b2,
  priv_ToBox real priv1 v1 = ((Ok s1, p1), v1') /\ pub_ToBox pub1 = Ok b1 /\
  priv_ToBox real priv2 v2 = ((Ok s2, p2), v2') /\ pub_ToBox pub2 = Ok b2 /\
  forall m n, box_from real (box_to real m n b2 s1) n b1 s2 = Some m /\
              box_from real (box_to real m n b2 s1) n b2 s1 = Some m.
Proof. exact (between_holders real real_lengths real_box real_dh real_agree). Qed.
Print Assumptions C86_two_holders.

(* its last check fails when the random source repeats itself *)
Theorem C86_own_keys_refuted : exists w1 w2 priv1 pub1 priv2 pub2 u1 u2 s1 s2 b1 b2,
  GenerateKeypair real [] None w1 = (Ok (priv1, pub1), u1) /\ GenerateKeypair real [] None w2 = (Ok (priv2, pub2), u2) /\
  fst (fst (priv_ToBox real priv1 u1)) = Ok s1 /\ fst (fst (priv_ToBox real priv2 u2)) = Ok s2 /\
  pub_ToBox pub1 = Ok b1 /\ pub_ToBox pub2 = Ok b2 /\
  forall m n, box_from real (box_to real m n b2 s1) n b1 s1 = Some m.
Proof. exact (own_keys_refuted real real_lengths real_box real_agree). Qed.
Print Assumptions C86_own_keys_refuted.

(* TestEncodeDecode (coding_test.go:8-40): the encoder is read back without Close *)
Theorem C86_unclosed : forall segs e t n, write_all buffer_write segs (NewEncoder, []) = (None, (e, t)) ->
  (3 * (length (concat segs) / 3) <= n)%nat ->
  fst (dec_read_script n (map RByte t)) = RRet (firstn (3 * (length (concat segs) / 3)) (concat segs)) None.
Proof. exact unclosed. Qed.
Print Assumptions C86_unclosed.

Theorem C86_unclosed_same : forall segs e t, write_all buffer_write segs (NewEncoder, []) = (None, (e, t)) ->
  (fst (dec_read_script (length (concat segs)) (map RByte t)) = RRet (concat segs) None <-> (length (concat segs) mod 3 = 0)%nat).
Proof. exact unclosed_same. Qed.
Print Assumptions C86_unclosed_same.

(* two generated pairs without passphrases *)
Example C86_instance : exists priv1 pub1 priv2 pub2 u1 u2,
  GenerateKeypair real [] None (start [] [] (repeat x07 56)) = (Ok (priv1, pub1), u1) /\
  GenerateKeypair real [] None (start [] [] (repeat x08 56)) = (Ok (priv2, pub2), u2) /\
  not_mistaken real [] None (repeat x07 56) /\ not_mistaken real [] None (repeat x08 56).
Proof.
  do 6 eexists.
  split; [exact (generate_eq real [] None (start [] [] (repeat x07 56)) real_lengths (le_n 56) (or_introl eq_refl))|].
  split; [exact (generate_eq real [] None (start [] [] (repeat x08 56)) real_lengths (le_n 56) (or_introl eq_refl))|].
  split; intro H; exfalso; apply H; reflexivity.
Qed.
(* the test itself, and an array of 70 bytes, of which 69 come back *)
Example C86_header :
  (let t := snd (snd (write_all buffer_write [test_header 72%nat] (NewEncoder, []))) in
   fst (dec_read_script 72%nat (map RByte t)) = RRet (test_header 72%nat) None) /\
  (let t := snd (snd (write_all buffer_write [test_header 70%nat] (NewEncoder, []))) in
   fst (dec_read_script 70%nat (map RByte t)) = RRet (test_header 69%nat) None).
Proof. split; vm_compute; reflexivity. Qed.
