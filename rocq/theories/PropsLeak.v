(* Property theorems: what a key file cut short gives away (C76). *)
From Verif Require Import SpecLeak LeakFacts LeakWitness.
Local Open Scope Z_scope.

(* C76.  An unencrypted key whose file has lost its end, but none of the seed, signs with the nonce of the
   complete key but another challenge.  From the public key, the message and the two signature files one
   number can be computed that makes signatures of any message, for any r, that Verify accepts. *)
Theorem C76_forgery : forall k opts w w1 v K mp s v1 v' K' mp' s' v1' m kf pf sf sf' pk sg sg' j,
  GenerateKey real k [] opts w = (Ok tt, w1) -> contents w1 (sec_path k) kf -> contents w1 (pub_path k) pf -> readPublicKeyFile pf = Ok pk ->
  (* the message signed with the key *)
  plain_pub_name K -> contents v K kf -> contents v mp m -> Sign real K mp s v = (Ok tt, v1) ->
  contents v1 (sigPathOf mp s) sf -> readSignatureFile sf = Ok sg ->
  (* the same message signed with the first 39 + 4 j bytes of the key file *)
  plain_pub_name K' -> (24 <= j <= 34)%nat -> contents v' K' (firstn (39 + 4 * j) kf) -> contents v' mp' m ->
  Sign real K' mp' s' v' = (Ok tt, v1') -> contents v1' (sigPathOf mp' s') sf' -> readSignatureFile sf' = Ok sg' ->
  forall r name m' a b c u,
  challenge SHA512 (firstn 32 (sig sg)) (p_key pk) m mod ell <> challenge SHA512 (firstn 32 (sig sg)) (rest_of j (p_key pk)) m mod ell ->
  lf_free name -> Z.of_nat (length name) <= 65000 ->
  contents u a pf -> contents u b m' ->
  contents u (sigPathOf b c) (signature_file name (str "Ed") (p_keyNum pk)
    (forged SHA512 (p_key pk) (recovered SHA512 (p_key pk) (rest_of j (p_key pk)) m (sig sg) (sig sg')) r m')) ->
  undisturbed 3 u -> exists u', Verify real a b c u = (Ok tt, u').
Proof. exact real_forges. Qed.
Print Assumptions C76_forgery.

(* the test key of the repository, cut by its last group, and the test message *)
Example C76_run : exists w1 kf pf pk v1 v' v1' sf sf' sg sg',
  GenerateKey real (str "k") [] None w_leak = (Ok tt, w1) /\
  contents w1 (str "k.sec") kf /\ contents w1 (str "k.pub") pf /\ readPublicKeyFile pf = Ok pk /\ plain_pub_name (str "k.sec") /\
  contents w1 (str "m") sig_test_msg /\ Sign real (str "k.sec") (str "m") [] w1 = (Ok tt, v1) /\
  contents v1 (str "m.sig") sf /\ readSignatureFile sf = Ok sg /\
  contents v' (str "k.sec") (firstn (39 + 4 * 34) kf) /\ contents v' (str "m") sig_test_msg /\
  Sign real (str "k.sec") (str "m") [] v' = (Ok tt, v1') /\
  contents v1' (str "m.sig") sf' /\ readSignatureFile sf' = Ok sg' /\
  challenge SHA512 (firstn 32 (sig sg)) (p_key pk) sig_test_msg mod ell <>
  challenge SHA512 (firstn 32 (sig sg)) (rest_of 34 (p_key pk)) sig_test_msg mod ell.
Proof. exact leak_run. Qed.

(* the signature made with the cut key is accepted only if the two challenges agree modulo the order *)
Theorem C76_worthless : forall k opts w w1 v K mp s v1 v' K' mp' s' v1' m kf pf sf sf' pk sg sg' j,
  GenerateKey real k [] opts w = (Ok tt, w1) -> contents w1 (sec_path k) kf -> contents w1 (pub_path k) pf -> readPublicKeyFile pf = Ok pk ->
  plain_pub_name K -> contents v K kf -> contents v mp m -> Sign real K mp s v = (Ok tt, v1) ->
  contents v1 (sigPathOf mp s) sf -> readSignatureFile sf = Ok sg ->
  plain_pub_name K' -> (24 <= j <= 34)%nat -> contents v' K' (firstn (39 + 4 * j) kf) -> contents v' mp' m ->
  Sign real K' mp' s' v' = (Ok tt, v1') -> contents v1' (sigPathOf mp' s') sf' -> readSignatureFile sf' = Ok sg' ->
  Ed25519_accepts SHA512 (p_key pk) m (sig sg') <->
  challenge SHA512 (firstn 32 (sig sg')) (rest_of j (p_key pk)) m mod ell = challenge SHA512 (firstn 32 (sig sg')) (p_key pk) m mod ell.
Proof. exact real_worthless. Qed.
Print Assumptions C76_worthless.

(* the same for any hash function and any two second halves of the key *)
Theorem C76_recovered : forall hash seed X X' m, let sg := Ed25519_sign_with hash seed X m in
  challenge hash (firstn 32 sg) X m mod ell <> challenge hash (firstn 32 sg) X' m mod ell ->
  recovered hash X X' m sg (Ed25519_sign_with hash seed X' m) = rfc_scalar (firstn 32 (hash seed)) mod ell.
Proof. exact recovered_ok. Qed.
Print Assumptions C76_recovered.

Theorem C76_forged : forall hash seed a r m, a mod ell = rfc_scalar (firstn 32 (hash seed)) mod ell ->
  Ed25519_accepts hash (Ed25519_public hash seed) m (forged hash (Ed25519_public hash seed) a r m).
Proof. exact forged_ok. Qed.
Print Assumptions C76_forged.

Theorem C76_sign_with : forall hash, (forall m, length (hash m) = 64%nat) ->
  forall seed X m, length seed = 32%nat -> lib_Sign hash (seed ++ X) m = Ed25519_sign_with hash seed X m.
Proof. exact lib_Sign_with. Qed.
Print Assumptions C76_sign_with.

(* C75: a signature cut in its second half is not accepted, unless only zeros were lost *)
Theorem C75_cut_signature : forall pk m sg j, length (p_key pk) = 32%nat -> (14 <= j)%nat ->
  acceptable real pk m sg -> acceptable real pk m (cut_signature sg (3 * j - 10)) -> cut_signature sg (3 * j - 10) = sg.
Proof. exact (fun pk m sg j => cut_acceptable real pk m sg j real_signatures). Qed.
Print Assumptions C75_cut_signature.

Example C75_cut_instance : acceptable real (Pub (str "Ed") key_number sig_test_key) sig_test_msg (Sig (str "Ed") key_number (sig_test_R ++ sig_test_S)) /\
  cut_signature (Sig (str "Ed") key_number (sig_test_R ++ sig_test_S)) (3 * 24 - 10) <> Sig (str "Ed") key_number (sig_test_R ++ sig_test_S).
Proof. exact cut_test_signature. Qed.

Example C76_vector : challenge SHA512 sig_test_R sig_test_key sig_test_msg mod ell <>
    challenge SHA512 sig_test_R (rest_of 34 sig_test_key) sig_test_msg mod ell /\
  firstn 32 (Ed25519_sign_with SHA512 sig_test_seed sig_test_key sig_test_msg) = sig_test_R /\ length sig_test_seed = 32%nat.
Proof. exact (conj cut_signature_leaks (conj cut_signature_R eq_refl)). Qed.
