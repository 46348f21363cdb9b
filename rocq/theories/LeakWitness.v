(* The primitives of RealCrypto and the test key of the repository: a key file cut short that leaks the key. *)
From Verif Require Export LeakFacts VectorFacts SignWitness.
Local Open Scope Z_scope.

Lemma real_composed : composed real.
Proof. split; intros; reflexivity. Qed.

Definition challenge_cut : Z := Eval vm_compute in le_val (SHA512 (sig_test_R ++ rest_of 34 sig_test_key ++ sig_test_msg)).
Lemma challenge_cut_ok : le_val (SHA512 (sig_test_R ++ rest_of 34 sig_test_key ++ sig_test_msg)) = challenge_cut.
Proof. vm_cast_no_check (eq_refl challenge_cut). Qed.
Lemma cut_signature_leaks : challenge SHA512 sig_test_R sig_test_key sig_test_msg mod ell <>
  challenge SHA512 sig_test_R (rest_of 34 sig_test_key) sig_test_msg mod ell.
Proof. unfold challenge. rewrite challenge_sig_ok, challenge_cut_ok. vm_compute. discriminate. Qed.

Lemma cut_signature_R : firstn 32 (Ed25519_sign_with SHA512 sig_test_seed sig_test_key sig_test_msg) = sig_test_R.
Proof.
  unfold Ed25519_sign_with. cbv zeta. rewrite hash_sig_seed_ok, nonce_sig_ok, sig_R_ok.
  rewrite firstn_app, firstn_all2 by (vm_compute; repeat constructor). change (32 - length sig_test_R)%nat with 0%nat. cbn [firstn]. apply app_nil_r.
Qed.

Definition w_leak : world := start [(str "m", sig_test_msg)] [] (sig_test_seed ++ repeat x02 16 ++ repeat x03 8).

Lemma leak_run : exists w1 kf pf pk v1 v' v1' sf sf' sg sg',
  GenerateKey real (str "k") [] None w_leak = (Ok tt, w1) /\
  contents w1 (str "k.sec") kf /\ contents w1 (str "k.pub") pf /\ readPublicKeyFile pf = Ok pk /\ plain_pub_name (str "k.sec") /\
  contents w1 (str "m") sig_test_msg /\ Sign real (str "k.sec") (str "m") [] w1 = (Ok tt, v1) /\
  contents v1 (str "m.sig") sf /\ readSignatureFile sf = Ok sg /\
  contents v' (str "k.sec") (firstn (39 + 4 * 34) kf) /\ contents v' (str "m") sig_test_msg /\
  Sign real (str "k.sec") (str "m") [] v' = (Ok tt, v1') /\
  contents v1' (str "m.sig") sf' /\ readSignatureFile sf' = Ok sg' /\
  challenge SHA512 (firstn 32 (sig sg)) (p_key pk) sig_test_msg mod ell <>
  challenge SHA512 (firstn 32 (sig sg)) (rest_of 34 (p_key pk)) sig_test_msg mod ell.
Proof.
  destruct (GenerateKey_runs real (str "k") [] None w_leak real_lengths) as (w1 & G & F1).
  { vm_compute. repeat constructor. } { left. reflexivity. } { reflexivity. }
  destruct (GenerateKey_success _ _ _ _ _ _ real_lengths G) as (priv & pub & w0 & GK & Fs & Fp & Rs & Rq).
  destruct (generate_rounds _ _ _ _ _ _ _ real_lengths GK) as [_ Rd2]. destruct (Rd2 eq_refl) as [_ Rd].
  destruct (generate_wf _ _ _ _ _ _ _ real_lengths GK) as [Wp Wq].
  assert (PN : plain_pub_name (str "k.sec")).
  { exists (str "k.pub"). split; [exists (str "k"); split; [left; reflexivity|]|split; [vm_compute; intuition discriminate|vm_compute; discriminate]].
    split; [vm_compute; intuition discriminate|]. exists []. auto. }
  destruct PN as (n & Hn & Hf & Hl).
  assert (Cm : contents w1 (str "m") sig_test_msg).
  { exists 420. rewrite (GenerateKey_other _ _ _ _ _ _ _ _ G) by discriminate. reflexivity. }
  assert (Ck : contents w1 (str "k.sec") (sec_file priv)) by (eexists; exact Fs).
  assert (Cp : contents w1 (str "k.pub") (pub_file pub)) by (eexists; exact Fp).
  assert (Hr : sign_ready real (str "k.sec") (str "m") w1 priv sig_test_msg).
  { exists (sec_file priv), priv. auto 10. }
  destruct (Sign_runs real (str "k.sec") (str "m") [] w1 priv sig_test_msg Hr F1 ltac:(discriminate)) as (v1 & S1 & _).
  set (v' := start [(str "m", sig_test_msg); (str "k.sec", firstn (39 + 4 * 34) (sec_file priv))] [] []).
  assert (Cm' : contents v' (str "m") sig_test_msg) by (exists 420; reflexivity).
  assert (Ck' : contents v' (str "k.sec") (firstn (39 + 4 * 34) (sec_file priv))) by (exists 420; reflexivity).
  assert (T : readPrivateKeyFile (firstn (39 + 4 * 34) (sec_file priv)) = Ok (cut_private priv 62)).
  { apply torn_secret; [exact Wp|]. exists 34%nat. split; [lia|]. split; [|reflexivity]. unfold groups_left. change ((104 + 2) / 3)%nat with 35%nat. split; [lia|]. left. reflexivity. }
  assert (Hr' : sign_ready real (str "k.sec") (str "m") v' (cut_private priv 62) sig_test_msg).
  { exists (firstn (39 + 4 * 34) (sec_file priv)), (cut_private priv 62). auto 10. }
  destruct (Sign_runs real (str "k.sec") (str "m") [] v' (cut_private priv 62) sig_test_msg Hr' eq_refl ltac:(discriminate)) as (v1' & S1' & _).
  assert (RS : forall v v2, Sign real (str "k.sec") (str "m") [] v = (Ok tt, v2) -> exists sf sg, contents v2 (str "m.sig") sf /\ readSignatureFile sf = Ok sg).
  { intros v v2 S. destruct (Sign_success real _ _ _ _ _ n real_lengths Hn S) as (p & m & R & Fsig).
    pose proof (sign_ready_wf _ _ _ _ _ _ R) as (B1 & B2 & B3 & B4 & B5 & B6 & B7).
    do 2 eexists. split; [eexists; exact Fsig|]. apply signature_file_reads; try assumption. apply (len_ed_sign real real_lengths); assumption. }
  destruct (RS _ _ S1) as (sf & sg & Csf & Rsf). destruct (RS _ _ S1') as (sf' & sg' & Csf' & Rsf').
  assert (PN : plain_pub_name (str "k.sec")) by (exists n; auto).
  exists w1, (sec_file priv), (pub_file pub), pub, v1, v', v1', sf, sf', sg, sg'.
  do 14 (split; [assumption|]).
  destruct (two_signatures real (str "k") None w_leak w1 w1 (str "k.sec") (str "m") [] v1 v' (str "k.sec") (str "m") [] v1' sig_test_msg
    (sec_file priv) (pub_file pub) sf sf' pub sg sg' 34 real_lengths real_composed SHA512_length G Ck Cp Rq PN Ck Cm S1 Csf Rsf PN ltac:(lia) Ck' Cm' S1' Csf' Rsf')
    as (_ & EA & _ & _ & ES & _).
  change (slice 0 32 (w_rng w_leak)) with sig_test_seed in EA, ES.
  change (sha512 real) with SHA512 in EA, ES.
  assert (EA' : p_key pub = sig_test_key) by exact (eq_trans EA sig_public). rewrite EA' in ES |- *.
  rewrite ES, cut_signature_R. exact cut_signature_leaks.
Qed.

Lemma real_forges k opts w w1 v K mp s v1 v' K' mp' s' v1' m kf pf sf sf' pk sg sg' j :
  GenerateKey real k [] opts w = (Ok tt, w1) -> contents w1 (sec_path k) kf -> contents w1 (pub_path k) pf -> readPublicKeyFile pf = Ok pk ->
  plain_pub_name K -> contents v K kf -> contents v mp m -> Sign real K mp s v = (Ok tt, v1) ->
  contents v1 (sigPathOf mp s) sf -> readSignatureFile sf = Ok sg ->
  plain_pub_name K' -> (24 <= j <= 34)%nat -> contents v' K' (firstn (39 + 4 * j) kf) -> contents v' mp' m ->
  Sign real K' mp' s' v' = (Ok tt, v1') -> contents v1' (sigPathOf mp' s') sf' -> readSignatureFile sf' = Ok sg' ->
  forall r name m' a b c u,
  challenge SHA512 (firstn 32 (sig sg)) (p_key pk) m mod ell <> challenge SHA512 (firstn 32 (sig sg)) (rest_of j (p_key pk)) m mod ell ->
  lf_free name -> Z.of_nat (length name) <= 65000 ->
  contents u a pf -> contents u b m' ->
  contents u (sigPathOf b c) (signature_file name (str "Ed") (p_keyNum pk)
    (forged SHA512 (p_key pk) (recovered SHA512 (p_key pk) (rest_of j (p_key pk)) m (sig sg) (sig sg')) r m')) ->
  undisturbed 3 u -> exists u', Verify real a b c u = (Ok tt, u').
Proof.
  intros G A1 A2 A3 A4 A5 A6 A7 A8 A9 B1 B2 B3 B4 B5 B6 B7 r name m' a b c u N L1 L2 C1 C2 C3 U.
  exact (torn_forges real k opts w w1 v K mp s v1 v' K' mp' s' v1' m kf pf sf sf' pk sg sg' j real_lengths real_composed SHA512_length
    G A1 A2 A3 A4 A5 A6 A7 A8 A9 B1 B2 B3 B4 B5 B6 B7 r name m' a b c u N real_signatures L1 L2 C1 C2 C3 U).
Qed.
Lemma real_worthless k opts w w1 v K mp s v1 v' K' mp' s' v1' m kf pf sf sf' pk sg sg' j :
  GenerateKey real k [] opts w = (Ok tt, w1) -> contents w1 (sec_path k) kf -> contents w1 (pub_path k) pf -> readPublicKeyFile pf = Ok pk ->
  plain_pub_name K -> contents v K kf -> contents v mp m -> Sign real K mp s v = (Ok tt, v1) ->
  contents v1 (sigPathOf mp s) sf -> readSignatureFile sf = Ok sg ->
  plain_pub_name K' -> (24 <= j <= 34)%nat -> contents v' K' (firstn (39 + 4 * j) kf) -> contents v' mp' m ->
  Sign real K' mp' s' v' = (Ok tt, v1') -> contents v1' (sigPathOf mp' s') sf' -> readSignatureFile sf' = Ok sg' ->
  Ed25519_accepts SHA512 (p_key pk) m (sig sg') <->
  challenge SHA512 (firstn 32 (sig sg')) (rest_of j (p_key pk)) m mod ell = challenge SHA512 (firstn 32 (sig sg')) (p_key pk) m mod ell.
Proof.
  intros G A1 A2 A3 A4 A5 A6 A7 A8 A9 B1 B2 B3 B4 B5 B6 B7.
  exact (torn_worthless real k opts w w1 v K mp s v1 v' K' mp' s' v1' m kf pf sf sf' pk sg sg' j real_lengths real_composed SHA512_length
    G A1 A2 A3 A4 A5 A6 A7 A8 A9 B1 B2 B3 B4 B5 B6 B7).
Qed.

Lemma cut_test_signature : acceptable real (Pub (str "Ed") key_number sig_test_key) sig_test_msg (Sig (str "Ed") key_number (sig_test_R ++ sig_test_S)) /\
  cut_signature (Sig (str "Ed") key_number (sig_test_R ++ sig_test_S)) (3 * 24 - 10) <> Sig (str "Ed") key_number (sig_test_R ++ sig_test_S).
Proof.
  split; [|vm_compute; discriminate]. split; [reflexivity|]. split; [reflexivity|]. split; [reflexivity|].
  apply (proj2 real_signatures); [reflexivity|exact sig_accepted].
Qed.
