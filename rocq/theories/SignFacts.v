(* Facts about Sign and Verify (signify/key.go:198-244, 378-404). *)
From Verif Require Export WorldFacts.

(* ---- paths ---- *)
Lemma TrimSuffix_app x s : TrimSuffix (x ++ s) s = x.
Proof.
  unfold TrimSuffix. rewrite rev_app_distr.
  assert (E : has_prefix (rev s) (rev s ++ rev x) = true) by (apply has_prefix_iff; eexists; reflexivity).
  rewrite E, app_length, Nat.add_sub. apply firstn_app_exact. reflexivity.
Qed.
Lemma TrimSuffix_none k s : (forall y, k <> y ++ s) -> TrimSuffix k s = k.
Proof.
  intro H. unfold TrimSuffix. destruct (has_prefix (rev s) (rev k)) eqn:E; [|reflexivity].
  apply has_prefix_iff in E. destruct E as (t & E). apply (f_equal (@rev byte)) in E.
  rewrite rev_involutive, rev_app_distr, rev_involutive in E. exfalso. exact (H _ E).
Qed.
Lemma suffix_dec (k s : bytes) : (exists y, k = y ++ s) \/ (forall y, k <> y ++ s).
Proof.
  destruct (has_prefix (rev s) (rev k)) eqn:E.
  - left. apply has_prefix_iff in E. destruct E as (t & E). apply (f_equal (@rev byte)) in E.
    rewrite rev_involutive, rev_app_distr, rev_involutive in E. exists (rev t). exact E.
  - right. intros y ->. rewrite rev_app_distr in E.
    assert (has_prefix (rev s) (rev s ++ rev y) = true) by (apply has_prefix_iff; eexists; reflexivity). congruence.
Qed.

Lemma take_nonslash_spec l : ~ In slash (take_nonslash l) /\
  exists r, l = take_nonslash l ++ r /\ (r = [] \/ exists r', r = slash :: r').
Proof.
  induction l as [|c l IH]; [split; [auto|exists []; auto]|]. cbn [take_nonslash].
  destruct (beqb c slash) eqn:E.
  - split; [auto|]. apply beqb_eq in E. subst c. exists (slash :: l). split; [reflexivity|]. right. exists l. reflexivity.
  - destruct IH as [H1 (r & H2 & H3)]. split.
    + intros [->|H]; [rewrite beqb_refl in E; discriminate|exact (H1 H)].
    + exists r. split; [cbn [app]; rewrite <- H2; reflexivity|exact H3].
Qed.

Lemma Base_last p c : c <> slash -> last_component (p ++ [c]) (Base (p ++ [c])).
Proof.
  intro Hc. unfold Base. destruct (p ++ [c]) as [|x q] eqn:E; [destruct p; discriminate|]. rewrite <- E. clear E.
  rewrite rev_app_distr. cbn [rev app drop_slashes].
  assert (Ec : beqb c slash = false) by (apply beqb_neq; exact Hc). rewrite Ec. cbn [take_nonslash]. rewrite Ec.
  destruct (take_nonslash_spec (rev p)) as [H1 (r & H2 & H3)]. split.
  - intro H. apply in_rev in H. destruct H as [H|H]; [contradiction|exact (H1 H)].
  - exists (rev r). split.
    + apply (f_equal (@rev byte)) in H2. rewrite rev_involutive, rev_app_distr in H2. rewrite H2 at 1.
      cbn [rev]. rewrite app_assoc. reflexivity.
    + destruct H3 as [->|(r' & ->)]; [left; reflexivity|right]. exists (rev r'). reflexivity.
Qed.

Definition sig_base (k : path) : bytes := Base (TrimSuffix k (str ".sec") ++ str ".pub").
Definition sig_comment (k : path) : bytes := str "untrusted comment: verify with " ++ sig_base k.

Lemma Base_pub x : last_component (x ++ str ".pub") (Base (x ++ str ".pub")).
Proof.
  change (str ".pub") with (str ".pu" ++ [x62]). rewrite app_assoc. apply Base_last. discriminate.
Qed.

Lemma sig_base_name k : pub_name k (sig_base k).
Proof.
  unfold pub_name, sig_base. destruct (suffix_dec k (str ".sec")) as [(y & ->)|H].
  - exists y. split; [left; reflexivity|]. rewrite TrimSuffix_app. apply Base_pub.
  - exists k. split; [right; auto|]. rewrite TrimSuffix_none by exact H. apply Base_pub.
Qed.

Lemma last_component_unique p a b : last_component p a -> last_component p b -> a = b.
Proof.
  intros (Ha & da & Ea & Da) (Hb & db & Eb & Db). subst p.
  assert (Key : forall a b da db, ~ In x2f b -> da ++ a = db ++ b ->
     (da = [] \/ exists d', da = d' ++ [x2f]) -> (length a <= length b)%nat -> ~ In x2f a ->
     (db = [] \/ exists d', db = d' ++ [x2f]) -> (length a < length b)%nat -> False).
  { clear. intros a b da db Hb E Da _ Ha Db L.
    assert (length da + length a = length db + length b)%nat by (apply (f_equal (@length byte)) in E; rewrite !app_length in E; lia).
    destruct Da as [->|(d' & ->)]; [cbn in *; lia|].
    apply Hb. rewrite app_length in H. cbn in H.
    assert (Hin : nth_error (db ++ b) (length d') = Some x2f).
    { rewrite <- E, <- app_assoc, nth_error_app2, Nat.sub_diag by lia. reflexivity. }
    rewrite nth_error_app2 in Hin by lia. eapply nth_error_In. exact Hin. }
  destruct (Nat.lt_trichotomy (length a) (length b)) as [L|[L|L]].
  - exfalso. apply (Key a b da db); auto; lia.
  - apply (f_equal (@rev byte)) in Eb. rewrite !rev_app_distr in Eb.
    apply app_inj_len in Eb; [|rewrite !rev_length; exact L]. destruct Eb as [Eb _].
    apply (f_equal (@rev byte)) in Eb. rewrite !rev_involutive in Eb. exact Eb.
  - exfalso. apply (Key b a db da); auto; try lia.
Qed.

Lemma pub_name_unique k a b : pub_name k a -> pub_name k b -> a = b.
Proof.
  intros (x & [->|[Hx ->]] & A) (y & [Ey|[Hy ->]] & B).
  - apply (f_equal (@rev byte)) in Ey. rewrite !rev_app_distr in Ey. apply app_inj_len in Ey; [|reflexivity].
    destruct Ey as [_ Ey]. apply (f_equal (@rev byte)) in Ey. rewrite !rev_involutive in Ey. subst y.
    exact (last_component_unique _ _ _ A B).
  - exfalso. exact (Hy x eq_refl).
  - exfalso. exact (Hx y Ey).
  - exact (last_component_unique _ _ _ A B).
Qed.

(* ---- Verify ---- *)
Lemma LoadPublicKey_eq p w : LoadPublicKey p w =
  match ReadFile p w with
  | (Ok d, w') => (readPublicKeyFile d, w')
  | (Err e, w') => (Err e, w')
  | (Panic, w') => (Panic, w')
  end.
Proof. reflexivity. Qed.
Lemma LoadPrivateKey_eq p w : LoadPrivateKey p w =
  match ReadFile p w with
  | (Ok d, w') => (readPrivateKeyFile d, w')
  | (Err e, w') => (Err e, w')
  | (Panic, w') => (Panic, w')
  end.
Proof. reflexivity. Qed.

Lemma readPublicKeyFile_no_panic d : readPublicKeyFile d <> Panic.
Proof.
  unfold readPublicKeyFile. pose proof (data_file_total d). destruct (readDataFileBytes d) as [x|e|]; cbn [rbind]; try discriminate; [|contradiction].
  apply read_public_no_panic.
Qed.
Lemma readPrivateKeyFile_no_panic d : readPrivateKeyFile d <> Panic.
Proof.
  unfold readPrivateKeyFile. pose proof (data_file_total d). destruct (readDataFileBytes d) as [x|e|]; cbn [rbind]; try discriminate; [|contradiction].
  apply read_private_no_panic.
Qed.
Lemma readPrivateKeyFile_wf d p : readPrivateKeyFile d = Ok p -> priv_wf p.
Proof.
  unfold readPrivateKeyFile. destruct (readDataFileBytes d) as [x|e|]; cbn [rbind]; try discriminate.
  intro H. apply read_private_bytes in H. apply H.
Qed.

Lemma Verify_world C a b c w r w' : Verify C a b c w = (r, w') -> exists fl, w' = set_faults w fl.
Proof.
  unfold Verify, bind. rewrite LoadPublicKey_eq, ReadFile_eq.
  assert (E0 : forall r0, (r0 : res unit, next w) = (r, w') -> exists fl, w' = set_faults w fl)
    by (intros r0 H; apply pair_equal_spec in H; destruct H as [_ <-]; eexists; reflexivity).
  destruct (match hd FOk (w_faults w) with FFail _ => _ | _ => _ end) as [d|e|]; try exact (E0 _).
  destruct (readPublicKeyFile d) as [pub|e|]; try exact (E0 _).
  rewrite ReadFile_eq.
  assert (E1 : forall r0, (r0 : res unit, next (next w)) = (r, w') -> exists fl, w' = set_faults w fl)
    by (intros r0 H; apply pair_equal_spec in H; destruct H as [_ <-]; eexists; reflexivity).
  destruct (match hd FOk (w_faults (next w)) with FFail _ => _ | _ => _ end) as [m|e|]; try exact (E1 _).
  unfold readSignaturePath, bind. rewrite ReadFile_eq.
  assert (E2 : forall r0, (r0 : res unit, next (next (next w))) = (r, w') -> exists fl, w' = set_faults w fl)
    by (intros r0 H; apply pair_equal_spec in H; destruct H as [_ <-]; eexists; reflexivity).
  destruct (match hd FOk (w_faults (next (next w))) with FFail _ => _ | _ => _ end) as [sd|e|]; try exact (E2 _).
  unfold lift. destruct (readSignatureFile sd) as [sg|e|]; exact (E2 _).
Qed.

Definition acceptable (C : Crypto) (pk : Public) (m : bytes) (sg : Signature) : Prop :=
  p_keyAlgo pk = str "Ed" /\ pkAlgo sg = str "Ed" /\ p_keyNum pk = s_keyNum sg /\
  ed_verify C (p_key pk) m (sig sg) = true.

Lemma pub_verify_iff C pk m sg : pub_verify C pk m sg = Ok tt <-> acceptable C pk m sg.
Proof.
  unfold pub_verify, verifyEd25519, acceptable. destruct (bytes_eqb (p_keyAlgo pk) (str "Ed")) eqn:E1.
  - apply bytes_eqb_eq in E1. cbn [negb]. destruct (bytes_eqb (pkAlgo sg) (str "Ed")) eqn:E2.
    + apply bytes_eqb_eq in E2. cbn [negb]. destruct (bytes_eqb (p_keyNum pk) (s_keyNum sg)) eqn:E3.
      * apply bytes_eqb_eq in E3. cbn [negb]. destruct (ed_verify _ _ _ _); cbn [negb]; intuition discriminate.
      * apply bytes_eqb_neq in E3. cbn [negb]. split; [discriminate|]. intros (_ & _ & H & _). contradiction.
    + apply bytes_eqb_neq in E2. cbn [negb]. split; [discriminate|]. intros (_ & H & _). contradiction.
  - apply bytes_eqb_neq in E1. split; [discriminate|]. intros (H & _). contradiction.
Qed.
Lemma pub_verify_no_panic C pk m sg : pub_verify C pk m sg <> Panic.
Proof.
  unfold pub_verify, verifyEd25519. destruct (bytes_eqb _ _); [|discriminate]. cbn [negb].
  destruct (bytes_eqb _ _); [|discriminate]. cbn [negb]. destruct (bytes_eqb _ _); [|discriminate]. cbn [negb].
  destruct (ed_verify _ _ _ _); discriminate.
Qed.

(* contents of a file, if it can be read *)
Definition contents (w : world) (p : path) (d : bytes) : Prop := exists m, w_fs w p = Some (File d m).

Lemma contents_fun w p a b : contents w p a -> contents w p b -> a = b.
Proof. intros (m & A) (n & B). congruence. Qed.
Lemma contents_dec w p : (exists d, contents w p d) \/ w_fs w p = None.
Proof. destruct (w_fs w p) as [[d m]|] eqn:E; [left; exists d, m; exact E|right; reflexivity]. Qed.

Lemma ReadFile_contents p w d : undisturbed 1 w -> contents w p d -> ReadFile p w = (Ok d, next w).
Proof.
  intros U (m & H). apply undisturbed_S in U. apply ReadFile_ok. split; [apply U|]. split; [exists m; exact H|reflexivity].
Qed.

Lemma Verify_ok_iff C a b c w :
  (exists w', Verify C a b c w = (Ok tt, w')) <->
  undisturbed 3 w /\
  exists pf m sf pk sg, contents w a pf /\ contents w b m /\ contents w (sigPathOf b c) sf /\
    readPublicKeyFile pf = Ok pk /\ readSignatureFile sf = Ok sg /\ acceptable C pk m sg.
Proof.
  split.
  - intros (w' & H). unfold Verify, bind in H. rewrite LoadPublicKey_eq in H.
    destruct (ReadFile a w) as [[pf|e|] w1] eqn:E1; try discriminate.
    destruct (readPublicKeyFile pf) as [pk|e|] eqn:E2; try discriminate.
    destruct (ReadFile b w1) as [[m|e|] w2] eqn:E3; try discriminate.
    unfold readSignaturePath, bind in H. destruct (ReadFile (sigPathOf b c) w2) as [[sf|e|] w3] eqn:E4; try discriminate.
    unfold lift in H. destruct (readSignatureFile sf) as [sg|e|] eqn:E5; try discriminate.
    apply ReadFile_ok in E1. apply ReadFile_ok in E3. apply ReadFile_ok in E4.
    destruct E1 as (F1 & C1 & ->). destruct E3 as (F2 & C2 & ->). destruct E4 as (F3 & C3 & _).
    apply pair_equal_spec in H. destruct H as [H _]. apply pub_verify_iff in H.
    split.
    + apply undisturbed_S. split; [exact F1|]. apply undisturbed_S. split; [exact F2|].
      apply undisturbed_S. split; [exact F3|]. constructor.
    + exists pf, m, sf, pk, sg. auto 10.
  - intros (U & pf & m & sf & pk & sg & C1 & C2 & C3 & R1 & R2 & V).
    apply undisturbed_S in U. destruct U as [F1 U]. apply undisturbed_S in U. destruct U as [F2 U].
    apply undisturbed_S in U. destruct U as [F3 _].
    exists (next (next (next w))). unfold Verify, bind. rewrite LoadPublicKey_eq.
    assert (E1 : ReadFile a w = (Ok pf, next w)) by (apply ReadFile_ok; auto).
    assert (E2 : ReadFile b (next w) = (Ok m, next (next w))) by (apply ReadFile_ok; auto).
    assert (E3 : ReadFile (sigPathOf b c) (next (next w)) = (Ok sf, next (next (next w)))) by (apply ReadFile_ok; auto).
    rewrite E1, R1, E2. unfold readSignaturePath, bind. rewrite E3. unfold lift. rewrite R2.
    apply pair_equal_spec. split; [apply pub_verify_iff; exact V|reflexivity].
Qed.

Lemma readSignatureFile_panic sf : readSignatureFile sf = Panic <->
  exists com d, readDataFileBytes sf = Ok (DataFile com d) /\ (length d < 10)%nat.
Proof.
  unfold readSignatureFile. pose proof (data_file_total sf). destruct (readDataFileBytes sf) as [[com d]|e|] eqn:E; cbn [rbind df_data].
  - rewrite read_sig_panics. split; [intro L; exists com, d; auto|]. intros (com' & d' & Q & L). injection Q as <- <-. exact L.
  - split; [discriminate|]. intros (? & ? & Q & _). discriminate.
  - contradiction.
Qed.

Lemma Verify_panic_iff C a b c w :
  fst (Verify C a b c w) = Panic <->
  undisturbed 3 w /\
  exists pf m sf pk com d, contents w a pf /\ contents w b m /\ contents w (sigPathOf b c) sf /\
    readPublicKeyFile pf = Ok pk /\ readDataFileBytes sf = Ok (DataFile com d) /\ (length d < 10)%nat.
Proof.
  split.
  - intro H. unfold Verify, bind in H. rewrite LoadPublicKey_eq in H.
    pose proof (ReadFile_no_panic a w) as P1.
    destruct (ReadFile a w) as [[pf|e|] w1] eqn:E1; [|discriminate|cbn in P1; contradiction].
    pose proof (readPublicKeyFile_no_panic pf) as P2.
    destruct (readPublicKeyFile pf) as [pk|e|] eqn:E2; [|discriminate|contradiction].
    pose proof (ReadFile_no_panic b w1) as P3.
    destruct (ReadFile b w1) as [[m|e|] w2] eqn:E3; [|discriminate|cbn in P3; contradiction].
    unfold readSignaturePath, bind in H.
    pose proof (ReadFile_no_panic (sigPathOf b c) w2) as P4.
    destruct (ReadFile (sigPathOf b c) w2) as [[sf|e|] w3] eqn:E4; [|discriminate|cbn in P4; contradiction].
    unfold lift in H. destruct (readSignatureFile sf) as [sg|e|] eqn:E5; [|discriminate|].
    { cbn [fst] in H. exfalso. exact (pub_verify_no_panic _ _ _ _ H). }
    apply ReadFile_ok in E1. apply ReadFile_ok in E3. apply ReadFile_ok in E4.
    destruct E1 as (F1 & C1 & ->). destruct E3 as (F2 & C2 & ->). destruct E4 as (F3 & C3 & _).
    apply readSignatureFile_panic in E5. destruct E5 as (com & d & E5 & L).
    split.
    + apply undisturbed_S. split; [exact F1|]. apply undisturbed_S. split; [exact F2|].
      apply undisturbed_S. split; [exact F3|]. constructor.
    + exists pf, m, sf, pk, com, d. auto 10.
  - intros (U & pf & m & sf & pk & com & d & C1 & C2 & C3 & R1 & R2 & V).
    apply undisturbed_S in U. destruct U as [F1 U]. apply undisturbed_S in U. destruct U as [F2 U].
    apply undisturbed_S in U. destruct U as [F3 _].
    unfold Verify, bind. rewrite LoadPublicKey_eq.
    assert (E1 : ReadFile a w = (Ok pf, next w)) by (apply ReadFile_ok; auto).
    assert (E2 : ReadFile b (next w) = (Ok m, next (next w))) by (apply ReadFile_ok; auto).
    assert (E3 : ReadFile (sigPathOf b c) (next (next w)) = (Ok sf, next (next (next w)))) by (apply ReadFile_ok; auto).
    rewrite E1, R1, E2. unfold readSignaturePath, bind. rewrite E3. unfold lift.
    assert (E5 : readSignatureFile sf = Panic) by (apply readSignatureFile_panic; exists com, d; auto).
    rewrite E5. reflexivity.
Qed.

(* ---- Sign ---- *)
Definition signed_file (C : Crypto) (k : path) (p : Private) (m : bytes) : bytes :=
  dataFileBytes (sig_comment k) (sig_encode (priv_sign C p m)).

Lemma signFinish_eq C k mp sp p w : signFinish C k mp sp p w =
  match ReadFile mp w with
  | (Ok m, w') => WriteFile sp (signed_file C k p m) 420 w'
  | (Err e, w') => (Err e, w')
  | (Panic, w') => (Panic, w')
  end.
Proof. reflexivity. Qed.

Lemma Sign_eq C k mp s w : Sign C k mp s w =
  let sp := sigPathOf mp s in
  match LoadPrivateKey k w with
  | (Ok p, w1) =>
      if IsEncrypted p then
        match w_tty w1 with
        | [] => (Err ETty, emit w1 (EvOut (str "Password: ")))
        | Ok b :: tl =>
            let w2 := ask_world w1 b tl in
            match decrypt C p b with
            | (Ok _, p') => let '(r, w3) := signFinish C k mp sp p' w2 in (r, zero_buf (length (w_bufs w1)) w3)
            | (Err e, _) => (Err e, zero_buf (length (w_bufs w1)) w2)
            | (Panic, _) => (Panic, zero_buf (length (w_bufs w1)) w2)
            end
        | Err e :: tl => (Err e, set_tty (emit w1 (EvOut (str "Password: "))) tl)
        | Panic :: tl => (Panic, set_tty (emit w1 (EvOut (str "Password: "))) tl)
        end
      else signFinish C k mp sp p w1
  | (Err e, w1) => (Err e, w1)
  | (Panic, w1) => (Panic, w1)
  end.
Proof.
  unfold Sign. cbv zeta. unfold bind at 1. destruct (LoadPrivateKey k w) as [[p|e|] w1]; try reflexivity.
  destruct (IsEncrypted p); [|reflexivity]. unfold bind at 1. rewrite prompt_false.
  destruct (w_tty w1) as [|[b|e|] tl]; try reflexivity.
  unfold defer. cbv zeta. unfold bind. unfold buf_get. cbn [w_bufs emit set_bufs]. rewrite nth_error_last.
  destruct (decrypt C p b) as [[u|e|] p']; reflexivity.
Qed.

(* the situation in which Sign gets as far as writing *)
Definition sign_ready (C : Crypto) (k mp : path) (w : world) (p : Private) (m : bytes) : Prop :=
  exists kf p0, contents w k kf /\ readPrivateKeyFile kf = Ok p0 /\ contents w mp m /\
    ((IsEncrypted p0 = false /\ p = p0) \/
     (IsEncrypted p0 = true /\ exists pass tl, w_tty w = Ok pass :: tl /\ decrypt C p0 pass = (Ok tt, p))).

Lemma zero_buf_fs i w : w_fs (zero_buf i w) = w_fs w.
Proof. unfold zero_buf. destruct (nth_error _ _); reflexivity. Qed.
Lemma zero_buf_log i w : w_log (zero_buf i w) = w_log w.
Proof. unfold zero_buf. destruct (nth_error _ _); reflexivity. Qed.
Lemma zero_buf_faults i w : w_faults (zero_buf i w) = w_faults w.
Proof. unfold zero_buf. destruct (nth_error _ _); reflexivity. Qed.
Lemma zero_buf_tty i w : w_tty (zero_buf i w) = w_tty w.
Proof. unfold zero_buf. destruct (nth_error _ _); reflexivity. Qed.

Lemma unit_tt (u : unit) : u = tt.
Proof. destruct u. reflexivity. Qed.

Lemma LoadPrivateKey_inv k w r w' : LoadPrivateKey k w = (r, w') ->
  w' = next w /\ r <> Panic /\
  forall p, r = Ok p -> exists kf, contents w k kf /\ readPrivateKeyFile kf = Ok p.
Proof.
  rewrite LoadPrivateKey_eq, ReadFile_eq. pose proof (ReadFile_no_panic k w) as NP. rewrite ReadFile_eq in NP. cbn [fst] in NP.
  destruct (match hd FOk (w_faults w) with FFail _ => _ | _ => _ end) as [d|e|] eqn:E; [| |contradiction].
  - intro H. apply pair_equal_spec in H. destruct H as [<- <-]. split; [reflexivity|].
    split; [apply readPrivateKeyFile_no_panic|]. intros p Hp. exists d. split; [|exact Hp].
    destruct (hd FOk (w_faults w)); try discriminate; (destruct (w_fs w k) as [[d0 m0]|] eqn:F; [|discriminate]);
      injection E as <-; exists m0; exact F.
  - intro H. apply pair_equal_spec in H. destruct H as [<- <-]. split; [reflexivity|]. split; [discriminate|]. intros p Hp. discriminate.
Qed.

Lemma signFinish_spec C k mp sp p w r w' : signFinish C k mp sp p w = (r, w') ->
  r <> Panic /\ same_rest w w' /\
  ((w_fs w' = w_fs w /\ w_log w' = w_log w /\ exists e, r = Err e) \/
   exists m evs, contents w mp m /\
     write_events sp (signed_file C k p m) 420 evs (match r with Ok _ => true | _ => false end) /\
     w_log w' = w_log w ++ evs /\ w_fs w' = replay (w_fs w) evs).
Proof.
  rewrite signFinish_eq. intro H. pose proof (ReadFile_no_panic mp w) as NP.
  destruct (ReadFile mp w) as [[m|e|] w1] eqn:E; [| |cbn in NP; contradiction].
  - apply ReadFile_ok in E. destruct E as (F & Cm & ->). apply WriteFile_spec in H.
    destruct H as (N & evs & W & L & S & R). split; [exact N|]. split; [exact R|].
    right. exists m, evs. split; [exact Cm|]. split; [exact W|]. split; [exact L|exact S].
  - rewrite ReadFile_eq in E. apply pair_equal_spec in E. destruct E as [_ E].
    apply pair_equal_spec in H. destruct H as [<- <-]. subst w1. split; [discriminate|]. split; [repeat split|].
    left. repeat split. eexists. reflexivity.
Qed.

Lemma replay_out fs l p b : replay fs (EvOut b :: l) p = replay fs l p.
Proof. reflexivity. Qed.

(* Everything Sign does to files *)
Lemma Sign_files C k mp s w r w' : Sign C k mp s w = (r, w') ->
  (w_fs w' = w_fs w /\ r <> Ok tt) \/
  exists p m evs, sign_ready C k mp w p m /\
    write_events (sigPathOf mp s) (signed_file C k p m) 420 evs (match r with Ok _ => true | _ => false end) /\
    w_fs w' = replay (w_fs w) evs.
Proof.
  rewrite Sign_eq. cbv zeta. destruct (LoadPrivateKey k w) as [r1 w1] eqn:E1.
  apply LoadPrivateKey_inv in E1. destruct E1 as (-> & N1 & P1).
  assert (Q : forall r0 w0, w_fs w0 = w_fs w -> (r0 : res unit) <> Ok tt -> (r0, w0) = (r, w') ->
     (w_fs w' = w_fs w /\ r <> Ok tt) \/
     exists p m evs, sign_ready C k mp w p m /\
      write_events (sigPathOf mp s) (signed_file C k p m) 420 evs (match r with Ok _ => true | _ => false end) /\
      w_fs w' = replay (w_fs w) evs).
  { intros r0 w0 F N H. apply pair_equal_spec in H. destruct H as [<- <-]. left. auto. }
  destruct r1 as [p|e|]; [| |contradiction].
  2: { apply Q; [reflexivity|discriminate]. }
  destruct (P1 p eq_refl) as (kf & Ck & Rk).
  destruct (IsEncrypted p) eqn:Ee.
  - change (w_tty (next w)) with (w_tty w). change (w_bufs (next w)) with (w_bufs w).
    destruct (w_tty w) as [|[b|e|] tl] eqn:Et; try (apply Q; [reflexivity|discriminate]).
    destruct (decrypt C p b) as [[u|e|] p'] eqn:Ed; try (apply Q; [rewrite zero_buf_fs; reflexivity|discriminate]).
    destruct (signFinish C k mp (sigPathOf mp s) p' (ask_world (next w) b tl)) as [r3 w3] eqn:Es.
    apply signFinish_spec in Es. destruct Es as (N & R & [(F & L & e & ->)|(m & evs & Cm & W & L & F)]).
    + apply Q; [rewrite zero_buf_fs; exact F|discriminate].
    + intro H. apply pair_equal_spec in H. destruct H as [<- <-]. right.
      exists p', m, evs. split; [|split; [exact W|rewrite zero_buf_fs; exact F]].
      exists kf, p. split; [exact Ck|]. split; [exact Rk|]. split; [exact Cm|].
      right. split; [exact Ee|]. exists b, tl. rewrite Ed, (unit_tt u). auto.
  - destruct (signFinish C k mp (sigPathOf mp s) p (next w)) as [r3 w3] eqn:Es.
    apply signFinish_spec in Es. destruct Es as (N & R & [(F & L & e & ->)|(m & evs & Cm & W & L & F)]).
    + apply Q; [exact F|discriminate].
    + intro H. apply pair_equal_spec in H. destruct H as [<- <-]. right.
      exists p, m, evs. split; [|split; [exact W|exact F]].
      exists kf, p. auto 10.
Qed.

Lemma Sign_other_files C k mp s w r w' q : Sign C k mp s w = (r, w') -> q <> sigPathOf mp s ->
  w_fs w' q = w_fs w q.
Proof.
  intros H Hq. destruct (Sign_files _ _ _ _ _ _ _ H) as [[F _]|(p & m & evs & _ & W & F)].
  - rewrite F. reflexivity.
  - rewrite F. apply (write_events_other _ _ _ _ _ _ _ W Hq).
Qed.

Lemma Sign_untouched C k mp s w r w' : Sign C k mp s w = (r, w') ->
  (~ exists p m, sign_ready C k mp w p m) -> w_fs w' = w_fs w /\ r <> Ok tt.
Proof.
  intros H N. destruct (Sign_files _ _ _ _ _ _ _ H) as [F|(p & m & evs & R & _)]; [exact F|].
  exfalso. apply N. exists p, m. exact R.
Qed.

(* the file written on success, spelled out *)
Definition signature_file (name algo num sg : bytes) : bytes :=
  str "untrusted comment: verify with " ++ name ++ [x0a] ++ StdEncode (algo ++ num ++ sg) ++ [x0a].

Lemma sign_ready_wf C k mp w p m : sign_ready C k mp w p m -> priv_wf p.
Proof.
  intros (kf & p0 & _ & R & _ & [[_ ->]|(E & pass & tl & _ & D)]).
  - exact (readPrivateKeyFile_wf _ _ R).
  - apply readPrivateKeyFile_wf in R. pose proof (decrypt_enc C p0 pass E R) as Q. rewrite D in Q.
    destruct (bytes_eqb _ _); [|discriminate]. destruct pass; [discriminate|]. cbv zeta in Q.
    apply pair_equal_spec in Q. destruct Q as [_ ->]. apply set_key_wf; [exact R|]. rewrite length_xor_bytes. apply R.
Qed.

Lemma signed_file_eq C k p m : LengthLaws C -> priv_wf p -> forall n, pub_name k n ->
  signed_file C k p m = signature_file n (keyAlgo p) (keyNum p) (ed_sign C (key p) m).
Proof.
  intros LL (A1 & A2 & A3 & A4 & A5 & A6 & A7) n Hn. unfold signed_file, signature_file, dataFileBytes, df_Encode, sig_comment.
  cbn [df_comment df_data]. rewrite (pub_name_unique _ _ _ Hn (sig_base_name k)).
  unfold priv_sign, sig_encode. cbn [pkAlgo s_keyNum sig].
  rewrite !(fit_exact _ (key p)), (fit_exact 2), (fit_exact 8) by assumption.
  rewrite (fit_exact 64) by (apply len_ed_sign; assumption). rewrite <- !app_assoc. reflexivity.
Qed.

Lemma Sign_success C k mp s w w' n : LengthLaws C -> pub_name k n -> Sign C k mp s w = (Ok tt, w') ->
  exists p m, sign_ready C k mp w p m /\
    w_fs w' (sigPathOf mp s) =
      Some (File (signature_file n (keyAlgo p) (keyNum p) (ed_sign C (key p) m)) (file_mode (w_fs w) (sigPathOf mp s) 420)).
Proof.
  intros LL Hn H. destruct (Sign_files _ _ _ _ _ _ _ H) as [[_ N]|(p & m & evs & R & W & F)]; [contradiction N; reflexivity|].
  exists p, m. split; [exact R|]. rewrite F, (write_events_done _ _ _ _ _ W).
  rewrite (signed_file_eq C k p m LL (sign_ready_wf _ _ _ _ _ _ R) n Hn). reflexivity.
Qed.

(* C23: signatures made with encrypted keys *)
Lemma Sign_checked C k mp s w r w' kf p0 : Sign C k mp s w = (r, w') ->
  contents w k kf -> readPrivateKeyFile kf = Ok p0 -> IsEncrypted p0 = true ->
  w_fs w' <> w_fs w ->
  exists pass tl p, w_tty w = Ok pass :: tl /\ key p = xor_bytes (key p0) (pbkdf C pass (salt p0) (kdfRounds p0) 64) /\
    checksum p0 = firstn 8 (sha512 C (key p)).
Proof.
  intros H Ck Rk Ee Hf. destruct (Sign_files _ _ _ _ _ _ _ H) as [[F _]|(p & m & evs & R & W & F)]; [contradiction|].
  destruct R as (kf' & p0' & Ck' & Rk' & _ & D). rewrite (contents_fun _ _ _ _ Ck' Ck) in Rk'.
  rewrite Rk in Rk'. injection Rk' as <-.
  destruct D as [[E _]|(_ & pass & tl & Ht & D)]; [congruence|].
  pose proof (readPrivateKeyFile_wf _ _ Rk) as Wp.
  pose proof (decrypt_enc C p0 pass Ee Wp) as Q. rewrite D in Q. destruct (bytes_eqb _ _); [|discriminate].
  destruct pass as [|c pass]; [discriminate|]. cbv zeta in Q. apply pair_equal_spec in Q. destruct Q as [Qc Qp].
  exists (c :: pass), tl, p. split; [exact Ht|]. split; [rewrite Qp; reflexivity|].
  symmetry in Qc. apply Check_iff in Qc. rewrite <- Qp in Qc. rewrite <- Qc. rewrite Qp. reflexivity.
Qed.

(* C28 *)
Definition all_zero (b : bytes) : Prop := Forall (fun c => c = x00) b.
Lemma zero_bytes_zero b : all_zero (zero_bytes b).
Proof. apply Forall_forall. intros x H. apply in_map_iff in H. destruct H as (y & <- & _). apply bxor_self. Qed.

Lemma set_nth_last {A} (l : list A) x y : set_nth (length l) y (l ++ [x]) = l ++ [y].
Proof. induction l as [|a l IH]; [reflexivity|]. cbn [length app set_nth]. rewrite IH. reflexivity. Qed.

Lemma zero_buf_last w l b : w_bufs w = l ++ [b] -> w_bufs (zero_buf (length l) w) = l ++ [zero_bytes b].
Proof. intro H. unfold zero_buf. rewrite H, nth_error_last. cbn [w_bufs set_bufs]. apply set_nth_last. Qed.

Lemma Sign_wipes C k mp s w r w' : Sign C k mp s w = (r, w') ->
  exists zs, w_bufs w' = w_bufs w ++ zs /\ Forall all_zero zs.
Proof.
  rewrite Sign_eq. cbv zeta. destruct (LoadPrivateKey k w) as [r1 w1] eqn:E1.
  apply LoadPrivateKey_inv in E1. destruct E1 as (-> & N1 & P1).
  assert (Q : forall (r0 : res unit) w0, w_bufs w0 = w_bufs w -> (r0, w0) = (r, w') ->
     exists zs, w_bufs w' = w_bufs w ++ zs /\ Forall all_zero zs).
  { intros r0 w0 F H. apply pair_equal_spec in H. destruct H as [_ <-]. exists []. rewrite app_nil_r. auto. }
  assert (Q2 : forall (r0 : res unit) w0 b, w_bufs w0 = w_bufs w ++ [b] -> (r0, zero_buf (length (w_bufs w)) w0) = (r, w') ->
     exists zs, w_bufs w' = w_bufs w ++ zs /\ Forall all_zero zs).
  { intros r0 w0 b F H. apply pair_equal_spec in H. destruct H as [_ <-]. exists [zero_bytes b].
    split; [apply zero_buf_last; exact F|]. constructor; [apply zero_bytes_zero|constructor]. }
  destruct r1 as [p|e|]; [| |contradiction].
  2: { apply Q. reflexivity. }
  destruct (IsEncrypted p) eqn:Ee.
  - change (w_tty (next w)) with (w_tty w). change (w_bufs (next w)) with (w_bufs w).
    destruct (w_tty w) as [|[b|e|] tl] eqn:Et; try (apply Q; reflexivity).
    destruct (decrypt C p b) as [[u|e|] p'] eqn:Ed; try (apply (Q2 _ _ b); reflexivity).
    destruct (signFinish C k mp (sigPathOf mp s) p' (ask_world (next w) b tl)) as [r3 w3] eqn:Es.
    apply signFinish_spec in Es. destruct Es as (N & (R1 & R2 & R3 & R4) & _).
    apply (Q2 _ _ b). rewrite R3. reflexivity.
  - destruct (signFinish C k mp (sigPathOf mp s) p (next w)) as [r3 w3] eqn:Es.
    apply signFinish_spec in Es. destruct Es as (N & (R1 & R2 & R3 & R4) & _).
    apply Q. exact R3.
Qed.

(* C29 *)
Lemma signature_file_reads name algo num sg : lf_free name -> Z.of_nat (length name) <= 65000 ->
  length algo = 2%nat -> length num = 8%nat -> length sg = 64%nat ->
  readSignatureFile (signature_file name algo num sg) = Ok (Sig algo num sg).
Proof.
  intros Hn Hl La Ln Ls. unfold readSignatureFile.
  assert (E : signature_file name algo num sg = dataFileBytes (str "untrusted comment: verify with " ++ name) (algo ++ num ++ sg)).
  { unfold signature_file, dataFileBytes, df_Encode. cbn [df_comment df_data]. rewrite <- app_assoc. reflexivity. }
  rewrite E. destruct (data_file_round_trip (str "untrusted comment: verify with " ++ name) (algo ++ num ++ sg)) as (com & H).
  - apply has_prefix_iff. exists (str "verify with " ++ name). reflexivity.
  - intro H. apply in_app_or in H. destruct H as [H|H]; [|exact (Hn H)]. revert H. vm_compute. intuition discriminate.
  - rewrite app_length. change (length (str "untrusted comment: verify with ")) with 31%nat. lia.
  - rewrite !app_length. lia.
  - rewrite H. cbn [rbind df_data]. apply (sig_round_trip (Sig algo num sg)). repeat split; assumption.
Qed.

Lemma Sign_reads_back C k mp s w w' n : LengthLaws C -> pub_name k n -> lf_free n -> Z.of_nat (length n) <= 65000 ->
  Sign C k mp s w = (Ok tt, w') ->
  exists p m d, sign_ready C k mp w p m /\ contents w' (sigPathOf mp s) d /\
    readSignatureFile d = Ok (Sig (keyAlgo p) (keyNum p) (ed_sign C (key p) m)).
Proof.
  intros LL Hn Hf Hl H. destruct (Sign_success C k mp s w w' n LL Hn H) as (p & m & R & F).
  pose proof (sign_ready_wf _ _ _ _ _ _ R) as (A1 & A2 & A3 & A4 & A5 & A6 & A7).
  exists p, m. eexists. split; [exact R|]. split; [eexists; exact F|].
  apply signature_file_reads; try assumption. apply len_ed_sign; assumption.
Qed.

(* ---- Sign succeeds when nothing goes wrong ---- *)
Lemma Sign_runs C k mp s w p m : sign_ready C k mp w p m -> w_faults w = [] -> sigPathOf mp s <> [] ->
  exists w', Sign C k mp s w = (Ok tt, w') /\ w_faults w' = [] /\
    ((exists kf p0, contents w k kf /\ readPrivateKeyFile kf = Ok p0 /\
        w_tty w' = if IsEncrypted p0 then tl (w_tty w) else w_tty w)).
Proof.
  intros (kf & p0 & Ck & Rk & Cm & D) Hf Hs.
  assert (EL : LoadPrivateKey k w = (Ok p0, w)).
  { rewrite LoadPrivateKey_eq, (ReadFile_contents k w kf) by (try apply undisturbed_nil; assumption).
    rewrite next_id, Rk by exact Hf. reflexivity. }
  assert (EF : forall q v, w_fs v = w_fs w -> w_faults v = [] ->
     exists v', signFinish C k mp (sigPathOf mp s) q v = (Ok tt, v') /\ w_faults v' = [] /\ w_tty v' = w_tty v /\ w_bufs v' = w_bufs v).
  { intros q v Fv Hv. rewrite signFinish_eq.
    assert (Cv : contents v mp m) by (unfold contents; rewrite Fv; exact Cm).
    rewrite (ReadFile_contents mp v m) by (try apply undisturbed_nil; assumption). rewrite next_id by exact Hv.
    destruct (WriteFile_no_fault (sigPathOf mp s) (signed_file C k q m) 420 v Hs Hv) as (v' & Ev & Fv').
    exists v'. rewrite Ev. apply WriteFile_spec in Ev. destruct Ev as (_ & evs & _ & _ & _ & (_ & R2 & R3 & _)). auto. }
  rewrite Sign_eq, EL. cbv zeta. destruct D as [[E ->]|(E & pass & tl & Ht & Hd)].
  - rewrite E. destruct (EF p0 w eq_refl Hf) as (v' & Ev & Fv & Tv & _). exists v'. split; [exact Ev|].
    split; [exact Fv|]. exists kf, p0. rewrite E. auto.
  - rewrite E, Ht, Hd. destruct (EF p (ask_world w pass tl) eq_refl Hf) as (v' & Ev & Fv & Tv & Bv). rewrite Ev.
    eexists. split; [reflexivity|]. rewrite zero_buf_faults, zero_buf_tty. split; [exact Fv|].
    exists kf, p0. rewrite E, Tv. auto.
Qed.
