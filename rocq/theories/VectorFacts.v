(* The test data of the repository and published vectors, checked against the model
   with the real primitives.  Scalar multiples are checked by addition chains of the
   points of the tables. *)
From Verif Require Export Vectors RealCrypto.
From Verif Require Import TableFacts SignWitness.
Local Open Scope Z_scope.

Definition chain : Type := list (Z * (Z * Z)) * list (Z * Z) * list (Z * (Z * Z)).
Definition chain_mid (c : chain) : Z * Z := last (snd (fst c)) (sum_end (0, 1) (fst (fst c))).
Definition chain_end (c : chain) : Z * Z := sum_end (chain_mid c) (snd c).
Definition chain_val (c : chain) : Z := 2 ^ Z.of_nat (length (snd (fst c))) * (0 + sum_val 0 (fst (fst c))) + sum_val 0 (snd c).
Definition chain_check (c : chain) (n : Z) : bool :=
  sum_check 0 (0, 1) (fst (fst c)) && dbls_check (sum_end (0, 1) (fst (fst c))) (snd (fst c)) && sum_check 0 (chain_mid c) (snd c) &&
  (chain_val c =? n).
Lemma chain_ok c n : chain_check c n = true -> zmul n pB = toP (chain_end c).
Proof.
  unfold chain_check. rewrite !andb_true_iff. intros [[[H1 H2] H3] H4]. apply Z.eqb_eq in H4. subst n.
  assert (Z0 : toP (0, 1) = zmul 0 pB) by reflexivity.
  pose proof (sum_check_ok _ _ _ _ H1 Z0) as A.
  pose proof (dbls_check_ok _ _ _ _ on_pB H2 A) as D.
  symmetry. exact (sum_check_ok _ _ _ _ H3 D).
Qed.
Definition encoded (P : Z * Z) : bytes := le_bytes 32 (snd P + 2 ^ 255 * (fst P mod 2)).
Definition in_range (P : Z * Z) : bool := (0 <=? fst P) && (fst P <? p25519) && (0 <=? snd P) && (snd P <? p25519).
Lemma encoded_ok P : in_range P = true -> point_bytes (toP P) = encoded P.
Proof.
  unfold in_range. rewrite !andb_true_iff, !Z.leb_le, !Z.ltb_lt. intros [[[H1 H2] H3] H4].
  unfold point_bytes, encoded, toP, parity. cbn [fst snd]. rewrite !rep_toF, (Z.mod_small (fst P) p25519), (Z.mod_small (snd P) p25519) by (split; assumption). reflexivity.
Qed.
Lemma public_check hash seed h c key : hash seed = h -> chain_check c (rfc_scalar (firstn 32 h)) = true ->
  in_range (chain_end c) = true -> encoded (chain_end c) = key -> Ed25519_public hash seed = key.
Proof.
  intros <- C R <-. unfold Ed25519_public. destruct (rfc_scalar_range (firstn 32 (hash seed))) as [Hr _].
  rewrite <- zmul_pos by lia. rewrite (chain_ok _ _ C). apply encoded_ok. exact R.
Qed.

(* ---- signify/testdata ---- *)
Definition hash_sig_seed : bytes := Eval vm_compute in SHA512 sig_test_seed.
Definition nonce_sig : Z := Eval vm_compute in le_val (SHA512 (skipn 32 hash_sig_seed ++ sig_test_msg)).
Definition challenge_sig : Z := Eval vm_compute in le_val (SHA512 (sig_test_R ++ sig_test_key ++ sig_test_msg)).
Lemma hash_sig_seed_ok : SHA512 sig_test_seed = hash_sig_seed.
Proof. vm_cast_no_check (eq_refl hash_sig_seed). Qed.
Lemma nonce_sig_ok : le_val (SHA512 (skipn 32 hash_sig_seed ++ sig_test_msg)) = nonce_sig.
Proof. vm_cast_no_check (eq_refl nonce_sig). Qed.
Lemma challenge_sig_ok : le_val (SHA512 (sig_test_R ++ sig_test_key ++ sig_test_msg)) = challenge_sig.
Proof. vm_cast_no_check (eq_refl challenge_sig). Qed.
Lemma chain_sig_a_ok : chain_check chain_sig_a (rfc_scalar (firstn 32 hash_sig_seed)) = true.
Proof. vm_cast_no_check (eq_refl true). Qed.
Lemma chain_sig_r_ok : chain_check chain_sig_r (nonce_sig mod ell) = true.
Proof. vm_cast_no_check (eq_refl true). Qed.
Lemma sig_public : Ed25519_public SHA512 sig_test_seed = sig_test_key.
Proof.
  apply (public_check _ _ _ _ _ hash_sig_seed_ok chain_sig_a_ok); vm_compute; reflexivity.
Qed.
Lemma sig_S_ok : le_bytes 32 ((nonce_sig + challenge_sig * rfc_scalar (firstn 32 hash_sig_seed)) mod ell) = sig_test_S.
Proof. vm_compute. reflexivity. Qed.
Lemma sig_R_ok : point_bytes (zmul nonce_sig pB) = sig_test_R.
Proof.
  rewrite <- zmul_B_mod, (chain_ok _ _ chain_sig_r_ok), encoded_ok by (vm_compute; reflexivity). vm_compute. reflexivity.
Qed.
Lemma sig_signature : Ed25519_sign SHA512 sig_test_seed sig_test_msg = sig_test_R ++ sig_test_S.
Proof.
  unfold Ed25519_sign. cbv zeta. rewrite sig_public, hash_sig_seed_ok, nonce_sig_ok, sig_R_ok, challenge_sig_ok, sig_S_ok. reflexivity.
Qed.
Lemma sig_accepted : Ed25519_accepts SHA512 sig_test_key sig_test_msg (sig_test_R ++ sig_test_S).
Proof. rewrite <- sig_signature, <- sig_public. apply sign_accepted. Qed.

(* ---- crypto/testdata ---- *)
Definition hash_box_seed : bytes := Eval vm_compute in SHA512 box_test_seed.
Lemma hash_box_seed_ok : SHA512 box_test_seed = hash_box_seed.
Proof. vm_cast_no_check (eq_refl hash_box_seed). Qed.
Lemma chain_box_a_ok : chain_check chain_box_a (rfc_scalar (firstn 32 hash_box_seed)) = true.
Proof. vm_cast_no_check (eq_refl true). Qed.
Lemma box_public : Ed25519_public SHA512 box_test_seed = box_test_key.
Proof.
  apply (public_check _ _ _ _ _ hash_box_seed_ok chain_box_a_ok); vm_compute; reflexivity.
Qed.

(* ---- RFC 7748 and NaCl ---- *)
Definition u_check (P : Z * Z) (u : Z) : bool :=
  (u * (1 - snd P) mod p25519 =? (1 + snd P) mod p25519) && negb ((1 - snd P) mod p25519 =? 0) && (0 <=? u) && (u <? p25519).
Lemma u_check_ok P u : u_check P u = true -> F_bytes (umap (toP P)) = le_bytes 32 u.
Proof.
  unfold u_check. rewrite !andb_true_iff, negb_true_iff, !Z.eqb_eq, Z.eqb_neq, Z.leb_le, Z.ltb_lt. intros [[[E N] L] H].
  assert (N' : (F1 - snd (toP P))%F <> F0).
  { unfold toP, F1, F0. cbn [snd]. rewrite <- toF_sub. intro Q. apply N. apply toF_eq in Q. exact Q. }
  assert (Q : umap (toP P) = toF u).
  { apply (F_mul_cancel _ _ _ N'). unfold umap. transitivity (F1 + snd (toP P))%F; [field; exact N'|].
    unfold toP, F1. cbn [snd]. rewrite <- toF_sub, <- toF_add, <- toF_mul. apply toF_eq. unfold eqp. congruence. }
  unfold F_bytes. rewrite Q, rep_toF, Z.mod_small by lia. reflexivity.
Qed.
Lemma chain_alice_ok : chain_check chain_alice (rfc_scalar nacl_alice) = true.
Proof. vm_cast_no_check (eq_refl true). Qed.
Lemma chain_shared_ok : chain_check chain_shared (rfc_scalar nacl_alice * rfc_scalar nacl_bob mod ell) = true.
Proof. vm_cast_no_check (eq_refl true). Qed.
Lemma x25519_by_chain a c u : chain_check c (rfc_scalar a) = true -> u_check (chain_end c) u = true -> X25519 a u_base = le_bytes 32 u.
Proof.
  intros Hc Hu. rewrite X25519_base. destruct (rfc_scalar_range a) as [H _]. rewrite <- zmul_pos by lia.
  rewrite (chain_ok _ _ Hc). apply u_check_ok. exact Hu.
Qed.
Lemma shared_by_chain a b c u : chain_check c (rfc_scalar a * rfc_scalar b mod ell) = true -> u_check (chain_end c) u = true ->
  X25519 a (X25519 b u_base) = le_bytes 32 u.
Proof.
  intros Hc Hu. rewrite (X25519_base b), X25519_on by (apply on_pmul; exact on_pB).
  destruct (rfc_scalar_range a) as [H _]. destruct (rfc_scalar_range b) as [H' _]. rewrite <- !zmul_pos by lia.
  rewrite zmul_mul, <- zmul_B_mod, (chain_ok _ _ Hc) by exact on_pB. apply u_check_ok. exact Hu.
Qed.
Definition u_alice : Z := Eval vm_compute in le_val nacl_alice_public.
Definition u_shared : Z := Eval vm_compute in le_val nacl_shared.
Lemma u_alice_ok : u_check (chain_end chain_alice) u_alice = true. Proof. vm_cast_no_check (eq_refl true). Qed.
Lemma u_shared_ok : u_check (chain_end chain_shared) u_shared = true. Proof. vm_cast_no_check (eq_refl true). Qed.
Lemma u_alice_bytes : le_bytes 32 u_alice = nacl_alice_public. Proof. vm_cast_no_check (eq_refl nacl_alice_public). Qed.
Lemma u_shared_bytes : le_bytes 32 u_shared = nacl_shared. Proof. vm_cast_no_check (eq_refl nacl_shared). Qed.
Lemma x25519_alice : X25519 nacl_alice u_base = nacl_alice_public.
Proof. exact (eq_trans (x25519_by_chain _ _ _ chain_alice_ok u_alice_ok) u_alice_bytes). Qed.
Lemma x25519_shared : X25519 nacl_alice (X25519 nacl_bob u_base) = nacl_shared.
Proof. exact (eq_trans (shared_by_chain _ _ _ _ chain_shared_ok u_shared_ok) u_shared_bytes). Qed.
Lemma nacl_hsalsa : HSalsa20 nacl_shared (repeat x00 16) = nacl_firstkey.
Proof. vm_cast_no_check (eq_refl nacl_firstkey). Qed.
Lemma nacl_precomputed : box_shared (X25519 nacl_bob u_base) nacl_alice = nacl_firstkey.
Proof.
  exact (eq_trans (f_equal (fun x => HSalsa20 x (repeat x00 16)) x25519_shared) nacl_hsalsa).
Qed.
Lemma nacl_sealed : secretbox_seal nacl_message nacl_nonce nacl_firstkey = nacl_box.
Proof. vm_cast_no_check (eq_refl nacl_box). Qed.

(* ---- the files of the repository, read by the code ---- *)
Definition key_number : bytes := [x98; xce; x92; xfb; x7e; x8c; x04; xd1].
Lemma reads_sig_pub : readPublicKeyFile sig_test_pub = Ok (Pub (str "Ed") key_number sig_test_key).
Proof. vm_compute. reflexivity. Qed.
Lemma reads_sig_sig : readSignatureFile sig_test_sig = Ok (Sig (str "Ed") key_number (sig_test_R ++ sig_test_S)).
Proof. vm_compute. reflexivity. Qed.
Definition w_repo : world :=
  start [(str "test.pub", sig_test_pub); (str "message.txt", sig_test_msg); (str "message.txt.sig", sig_test_sig)] [] [].
Lemma repo_verifies : exists w', Verify real (str "test.pub") (str "message.txt") [] w_repo = (Ok tt, w').
Proof.
  apply (Verify_rfc_iff real _ _ _ _ real_signatures). split; [apply undisturbed_nil; reflexivity|].
  do 5 eexists. split; [exists 420; reflexivity|]. split; [exists 420; reflexivity|]. split; [exists 420; reflexivity|].
  split; [exact reads_sig_pub|]. split; [exact reads_sig_sig|]. do 3 (split; [reflexivity|]). exact sig_accepted.
Qed.

Definition box_number : bytes := [x06; xdc; xd1; xbf; x1d; x55; x21; xf5].
Definition box_private : Private := Eval vm_compute in
  match readPrivateKeyFile box_test_sec with Ok p => p | _ => Priv [] [] 0 [] [] [] [] end.
Lemma reads_box_sec : readPrivateKeyFile box_test_sec = Ok box_private.
Proof. vm_compute. reflexivity. Qed.
Lemma reads_box_pub : readPublicKeyFile box_test_pub = Ok (Pub (str "Ed") box_number box_test_key).
Proof. vm_compute. reflexivity. Qed.
Lemma box_private_fields : keyNum box_private = box_number /\ key box_private = box_test_seed ++ box_test_key /\
  kdfRounds box_private = 0 /\ kdfAlgo box_private = str "BK".
Proof. repeat split; reflexivity. Qed.
Lemma box_checksum : checksum box_private = firstn 8 (SHA512 (key box_private)).
Proof. vm_compute. reflexivity. Qed.
