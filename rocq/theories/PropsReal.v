(* Property theorems: the API with the primitives the external libraries implement,
   C71.  No premise about a library is left. *)
From Verif Require Import RealCrypto VectorFacts EdSigFacts SignWitness BoxKeys.
Local Open Scope Z_scope.

(* the laws taken as premises elsewhere hold for SHA-512, bcrypt_pbkdf, Ed25519,
   X25519, XSalsa20-Poly1305 and HMAC-SHA-512-256 *)
Theorem C71_laws : LengthLaws real /\ EdCorrect real /\ BoxCorrect real /\ BoxTidy real /\ DHCorrect real /\ ToBoxAgree real /\
  conforms_ed25519 real /\ conforms_x25519 real /\ conforms_signatures real.
Proof. exact real_laws. Qed.
Print Assumptions C71_laws.

Theorem C71_sign_then_verify : forall k pass opts w w1 v m mp s n,
  GenerateKey real k pass opts w = (Ok tt, w1) ->
  w_fs v (sec_path k) = w_fs w1 (sec_path k) -> w_fs v (pub_path k) = w_fs w1 (pub_path k) ->
  contents v mp m -> w_faults v = [] ->
  (pass <> [] -> exists tl, w_tty v = Ok pass :: tl) ->
  last_component (pub_path k) n -> lf_free n -> Z.of_nat (length n) <= 65000 ->
  sigPathOf mp s <> [] -> sigPathOf mp s <> pub_path k -> sigPathOf mp s <> mp ->
  exists v1 v2, Sign real (sec_path k) mp s v = (Ok tt, v1) /\
    w_tty v1 = (match pass with [] => w_tty v | _ => tl (w_tty v) end) /\
    Verify real (pub_path k) mp s v1 = (Ok tt, v2).
Proof. exact (fun k pass opts w w1 v m mp s n => sign_then_verify_rfc real k pass opts w w1 v m mp s n real_lengths real_ed real_signatures). Qed.
Print Assumptions C71_sign_then_verify.

(* without a passphrase the condition not_mistaken holds trivially *)
Theorem C71_seal_then_open : forall k pass opts w w1 v m mp ep out,
  GenerateKey real k pass opts w = (Ok tt, w1) -> not_mistaken real pass opts (w_rng w) ->
  w_fs v (sec_path k) = w_fs w1 (sec_path k) -> w_fs v (pub_path k) = w_fs w1 (pub_path k) ->
  contents v mp m -> m <> [] -> Z.of_nat (length m) < 2 ^ 63 -> no_faults v -> (32 <= length (w_rng v))%nat ->
  (pass <> [] -> exists tl, w_tty v = Ok pass :: tl) ->
  let q := enc_path mp ep in
  q <> mp -> q <> sec_path k -> out <> [] -> out <> q ->
  exists v1 v2, Seal real (pub_path k) mp ep v = (Ok tt, v1) /\ Open real (sec_path k) q out v1 = (Ok tt, v2) /\
    contents v2 out m /\ (forall x, x <> q -> x <> out -> w_fs v2 x = w_fs v x).
Proof. exact (fun k pass opts w w1 v m mp ep out => seal_then_open_rfc real k pass opts w w1 v m mp ep out real_lengths real_tidy real_box real_ed real_x25519). Qed.
Print Assumptions C71_seal_then_open.

Theorem C71_verify : forall a b c w,
  (exists w', Verify real a b c w = (Ok tt, w')) <->
  undisturbed 3 w /\
  exists pf m sf pk sg, contents w a pf /\ contents w b m /\ contents w (sigPathOf b c) sf /\
    readPublicKeyFile pf = Ok pk /\ readSignatureFile sf = Ok sg /\
    p_keyAlgo pk = str "Ed" /\ pkAlgo sg = str "Ed" /\ p_keyNum pk = s_keyNum sg /\
    Ed25519_accepts SHA512 (p_key pk) m (sig sg).
Proof. exact (fun a b c w => Verify_rfc_iff real a b c w real_signatures). Qed.
Print Assumptions C71_verify.

(* a whole session: generate; then, in a later process, sign and verify, seal and open *)
Example C71_session : exists w1 v v1 v2 v3 v4,
  GenerateKey real (str "dir/k") [] None w_run = (Ok tt, w1) /\ w_fs v = w_fs w1 /\
  Sign real (str "dir/k.sec") (str "m") [] v = (Ok tt, v1) /\
  Verify real (str "dir/k.pub") (str "m") [] v1 = (Ok tt, v2) /\
  Seal real (str "dir/k.pub") (str "m") [] v = (Ok tt, v3) /\
  Open real (str "dir/k.sec") (str "m.enc") (str "m2") v3 = (Ok tt, v4) /\
  contents v4 (str "m2") (str "attack at dawn").
Proof.
  destruct (GenerateKey_runs real (str "dir/k") [] None w_run real_lengths) as (w1 & G & _).
  { vm_compute. repeat constructor. } { left. reflexivity. } { reflexivity. }
  assert (Hm : w_fs w1 (str "m") = w_fs w_run (str "m")) by (apply (GenerateKey_other _ _ _ _ _ _ _ _ G); discriminate).
  set (v := World (w_fs w1) [] (repeat x07 32) [] [] [] []).
  assert (Cm : contents v (str "m") (str "attack at dawn")) by (exists 420; exact Hm).
  destruct (C71_sign_then_verify _ _ _ _ _ v (str "attack at dawn") (str "m") [] (str "k.pub") G) as (v1 & v2 & A & _ & B);
    try reflexivity; try discriminate; try exact Cm.
  { intro H. exfalso. apply H. reflexivity. }
  { split; [vm_compute; intuition discriminate|]. exists (str "dir/"). split; [reflexivity|]. right. exists (str "dir"). reflexivity. }
  { vm_compute. intuition discriminate. }
  assert (NM : not_mistaken real [] None (w_rng w_run)) by (intro H; exfalso; apply H; reflexivity).
  destruct (C71_seal_then_open _ _ _ _ _ v (str "attack at dawn") (str "m") [] (str "m2") G NM eq_refl eq_refl Cm) as (v3 & v4 & S & O & M & _);
    try reflexivity; try discriminate.
  { intro H. exfalso. apply H. reflexivity. }
  exists w1, v, v1, v2, v3, v4. split; [exact G|]. split; [reflexivity|]. split; [exact A|]. split; [exact B|]. split; [exact S|]. split; [exact O|exact M].
Qed.

(* the signature in signify/testdata is what RFC 8032 prescribes for the seed and the
   message, and the code accepts the files as they are in the repository *)
Example C71_test_data :
  Ed25519_public SHA512 sig_test_seed = sig_test_key /\
  Ed25519_sign SHA512 sig_test_seed sig_test_msg = sig_test_R ++ sig_test_S /\
  (exists w', Verify real (str "test.pub") (str "message.txt") []
    (start [(str "test.pub", sig_test_pub); (str "message.txt", sig_test_msg); (str "message.txt.sig", sig_test_sig)] [] []) = (Ok tt, w')).
Proof. exact (conj sig_public (conj sig_signature repo_verifies)). Qed.

(* crypto/testdata: a key pair without passphrase *)
Example C71_test_keys : exists p, readPrivateKeyFile box_test_sec = Ok p /\
  readPublicKeyFile box_test_pub = Ok (Pub (str "Ed") (keyNum p) (skipn 32 (key p))) /\
  checksum p = firstn 8 (SHA512 (key p)) /\ skipn 32 (key p) = Ed25519_public SHA512 (firstn 32 (key p)).
Proof.
  exists box_private. split; [exact reads_box_sec|]. split; [exact reads_box_pub|]. split; [exact box_checksum|].
  symmetry. exact box_public.
Qed.

(* published vectors: RFC 7748, 6.1, and NaCl's crypto_box *)
Example C71_vectors :
  X25519 nacl_alice u_base = nacl_alice_public /\
  X25519 nacl_alice (X25519 nacl_bob u_base) = nacl_shared /\
  box_precompute real (X25519 nacl_bob u_base) nacl_alice = nacl_firstkey /\
  box_seal real nacl_message nacl_nonce nacl_firstkey = nacl_box.
Proof. exact (conj x25519_alice (conj x25519_shared (conj nacl_precomputed nacl_sealed))). Qed.
