(* Facts about GenerateKey and the passphrase prompt (signify/key.go:34-59, 414-487). *)
From Verif Require Export SignFacts SpecCrash.

Definition sec_path (k : path) : path := k ++ str ".sec".
Definition pub_path (k : path) : path := k ++ str ".pub".
Definition sec_file (p : Private) : bytes :=
  str "untrusted comment: signify private key" ++ [x0a] ++ StdEncode (priv_encode p) ++ [x0a].
Definition pub_file (p : Public) : bytes :=
  str "untrusted comment: signify public key" ++ [x0a] ++ StdEncode (pub_encode p) ++ [x0a].

Lemma sec_pub_neq k : sec_path k <> pub_path k.
Proof. unfold sec_path, pub_path. intro H. apply app_inv_head in H. discriminate. Qed.
Lemma sec_path_nonempty k : sec_path k <> [].
Proof. unfold sec_path. intro H. apply app_eq_nil in H. destruct H. discriminate. Qed.
Lemma pub_path_nonempty k : pub_path k <> [].
Proof. unfold pub_path. intro H. apply app_eq_nil in H. destruct H. discriminate. Qed.

Lemma GenerateKey_eq C k pass opts w : GenerateKey C k pass opts w =
  match GenerateKeypair C pass opts w with
  | (Ok (priv, pub), w1) =>
      match WriteFile (sec_path k) (sec_file priv) 420 w1 with
      | (Ok _, w2) => WriteFile (pub_path k) (pub_file pub) 420 w2
      | (r, w2) => (r, w2)
      end
  | (Err e, w1) => (Err e, w1)
  | (Panic, w1) => (Panic, w1)
  end.
Proof.
  unfold GenerateKey, bind. destruct (GenerateKeypair C pass opts w) as [[[priv pub]|e|] w1]; try reflexivity.
  unfold writeDataFile. cbn [fst snd].
  change (dataFileBytes (str "untrusted comment: signify private key") (priv_encode priv)) with (sec_file priv).
  change (dataFileBytes (str "untrusted comment: signify public key") (pub_encode pub)) with (pub_file pub).
  fold (sec_path k) (pub_path k).
  destruct (WriteFile (sec_path k) (sec_file priv) 420 w1) as [[u|e|] w2]; reflexivity.
Qed.

Definition is_ok {A} (r : res A) : bool := match r with Ok _ => true | _ => false end.

Lemma GenerateKey_spec C k pass opts w r w' : GenerateKey C k pass opts w = (r, w') ->
  r <> Panic /\
  ((exists e, r = Err e /\ fst (GenerateKeypair C pass opts w) = Err e /\ w_fs w' = w_fs w /\ w_log w' = w_log w) \/
   exists priv pub w1 evs1 evs2 ok1,
     GenerateKeypair C pass opts w = (Ok (priv, pub), w1) /\
     write_events (sec_path k) (sec_file priv) 420 evs1 ok1 /\
     ((ok1 = false /\ evs2 = [] /\ is_ok r = false) \/
      (ok1 = true /\ write_events (pub_path k) (pub_file pub) 420 evs2 (is_ok r))) /\
     w_log w' = w_log w ++ evs1 ++ evs2 /\ w_fs w' = replay (w_fs w) (evs1 ++ evs2)).
Proof.
  rewrite GenerateKey_eq. destruct (GenerateKeypair C pass opts w) as [r1 w1] eqn:E1.
  destruct (generate_world _ _ _ _ _ _ E1) as (N1 & g & ->).
  destruct r1 as [[priv pub]|e|]; [| |contradiction].
  2: { intro H. apply pair_equal_spec in H. destruct H as [<- <-]. split; [discriminate|]. left. exists e. repeat split. }
  destruct (WriteFile (sec_path k) (sec_file priv) 420 (set_rng w g)) as [r2 w2] eqn:E2.
  apply WriteFile_spec in E2. destruct E2 as (N2 & evs1 & W1 & L1 & F1 & S1).
  destruct r2 as [u|e|]; [| |contradiction].
  - intro H. apply WriteFile_spec in H. destruct H as (N3 & evs2 & W2 & L2 & F2 & S2).
    split; [exact N3|]. right. exists priv, pub, (set_rng w g), evs1, evs2, true.
    split; [reflexivity|]. split; [exact W1|]. split; [right; split; [reflexivity|exact W2]|].
    rewrite L2, L1, F2, F1, replay_app, app_assoc. split; reflexivity.
  - intro H. apply pair_equal_spec in H. destruct H as [<- <-]. split; [discriminate|]. right.
    exists priv, pub, (set_rng w g), evs1, [], false.
    split; [reflexivity|]. split; [exact W1|]. split; [left; repeat split|].
    rewrite app_nil_r. split; [exact L1|exact F1].
Qed.

Lemma sec_file_reads p : priv_wf p -> readPrivateKeyFile (sec_file p) = Ok p.
Proof.
  intro W. unfold readPrivateKeyFile.
  destruct (data_file_round_trip (str "untrusted comment: signify private key") (priv_encode p)) as (com & H).
  - reflexivity.
  - vm_compute. intuition discriminate.
  - vm_compute. discriminate.
  - rewrite priv_encode_length by exact W. lia.
  - change (sec_file p) with (dataFileBytes (str "untrusted comment: signify private key") (priv_encode p)).
    rewrite H. cbn [rbind df_data]. apply priv_round_trip. exact W.
Qed.
Lemma pub_file_reads p : pub_wf p -> readPublicKeyFile (pub_file p) = Ok p.
Proof.
  intro W. unfold readPublicKeyFile.
  destruct (data_file_round_trip (str "untrusted comment: signify public key") (pub_encode p)) as (com & H).
  - reflexivity.
  - vm_compute. intuition discriminate.
  - vm_compute. discriminate.
  - rewrite pub_encode_length by exact W. lia.
  - change (pub_file p) with (dataFileBytes (str "untrusted comment: signify public key") (pub_encode p)).
    rewrite H. cbn [rbind df_data]. apply pub_round_trip. exact W.
Qed.

(* C43, C45 *)
Lemma GenerateKey_success C k pass opts w w' : LengthLaws C -> GenerateKey C k pass opts w = (Ok tt, w') ->
  exists priv pub w1, GenerateKeypair C pass opts w = (Ok (priv, pub), w1) /\
    w_fs w' (sec_path k) = Some (File (sec_file priv) (file_mode (w_fs w) (sec_path k) 420)) /\
    w_fs w' (pub_path k) = Some (File (pub_file pub) (file_mode (w_fs w) (pub_path k) 420)) /\
    readPrivateKeyFile (sec_file priv) = Ok priv /\ readPublicKeyFile (pub_file pub) = Ok pub.
Proof.
  intros LL H. destruct (GenerateKey_spec _ _ _ _ _ _ _ H) as (_ & [(e & E & _)|(priv & pub & w1 & evs1 & evs2 & ok1 & G & W1 & W2 & L & F)]); [discriminate|].
  destruct W2 as [(_ & _ & E)|(-> & W2)]; [discriminate|]. cbn [is_ok] in W2.
  exists priv, pub, w1. split; [exact G|]. destruct (generate_wf _ _ _ _ _ _ _ LL G) as [Wp Wq].
  rewrite F, replay_app. split; [|split; [|split; [apply sec_file_reads; exact Wp|apply pub_file_reads; exact Wq]]].
  - rewrite (write_events_other _ _ _ _ _ _ _ W2 (sec_pub_neq k)). apply (write_events_done _ _ _ _ _ W1).
  - rewrite (write_events_done _ _ _ _ _ W2). unfold file_mode.
    rewrite (write_events_other _ _ _ _ _ _ _ W1); [reflexivity|]. intro E. symmetry in E. exact (sec_pub_neq k E).
Qed.

Lemma GenerateKey_other C k pass opts w r w' q : GenerateKey C k pass opts w = (r, w') ->
  q <> sec_path k -> q <> pub_path k -> w_fs w' q = w_fs w q.
Proof.
  intros H H1 H2. destruct (GenerateKey_spec _ _ _ _ _ _ _ H) as (_ & [(e & _ & _ & F & _)|(priv & pub & w1 & evs1 & evs2 & ok1 & G & W1 & W2 & L & F)]).
  - rewrite F. reflexivity.
  - rewrite F, replay_app. destruct W2 as [(_ & -> & _)|(_ & W2)].
    + cbn. apply (write_events_other _ _ _ _ _ _ _ W1 H1).
    + rewrite (write_events_other _ _ _ _ _ _ _ W2 H2). apply (write_events_other _ _ _ _ _ _ _ W1 H1).
Qed.

Lemma GenerateKey_no_pair C k pass opts w r w' : GenerateKey C k pass opts w = (r, w') ->
  (forall kp, fst (GenerateKeypair C pass opts w) <> Ok kp) ->
  is_ok r = false /\ w_fs w' = w_fs w /\ w_log w' = w_log w.
Proof.
  intros H N. destruct (GenerateKey_spec _ _ _ _ _ _ _ H) as (_ & [(e & -> & _ & F & L)|(priv & pub & w1 & evs1 & evs2 & ok1 & G & _)]).
  - auto.
  - exfalso. rewrite G in N. exact (N _ eq_refl).
Qed.

Lemma GenerateKey_runs C k pass opts w : LengthLaws C -> (56 <= length (w_rng w))%nat ->
  (pass = [] \/ rounds_of opts mod 4294967296 <> 0) -> w_faults w = [] ->
  exists w', GenerateKey C k pass opts w = (Ok tt, w') /\ w_faults w' = [].
Proof.
  intros LL H1 H2 Hf. rewrite GenerateKey_eq.
  destruct (proj2 (generate_fails_iff C pass opts w LL) (conj H1 H2)) as ([priv pub] & w1 & E). rewrite E.
  destruct (generate_world _ _ _ _ _ _ E) as (_ & g & ->).
  destruct (WriteFile_no_fault (sec_path k) (sec_file priv) 420 (set_rng w g) (sec_path_nonempty k) Hf) as (w2 & E2 & F2).
  rewrite E2. apply WriteFile_no_fault; [apply pub_path_nonempty|exact F2].
Qed.

(* ---- C44: crash points ---- *)
Lemma prefix_nil_inv : forall (b1 b2 : bytes), [] = b1 ++ b2 -> b1 = [].
Proof. intros [|x b1] b2 H; [reflexivity|discriminate]. Qed.

(* content of p at a crash point of a WriteFile of d *)
Definition partial_of (fs : path -> option file) (p : path) (d : bytes) (o : option file) : Prop :=
  o = fs p \/ exists b, is_prefix b d /\ o = Some (File b (file_mode fs p 420)).

Lemma crash_write p d evs ok fs fs' : write_events p d 420 evs ok -> crash_state fs evs fs' ->
  partial_of fs p d (fs' p) /\ (forall q, q <> p -> fs' q = fs q).
Proof.
  intros W (dn & rs & E & S).
  assert (K : forall d1 d2, d = d1 ++ d2 -> evs = [EvCreate p 420; EvAppend p d1] ->
    partial_of fs p d (fs' p) /\ (forall q, q <> p -> fs' q = fs q)).
  { intros d1 d2 -> Ev. rewrite Ev in E.
    destruct dn as [|x1 dn]; cbn [app] in E.
    { destruct S as [->|(p' & b1 & b2 & r' & Er & _)].
      - split; [left; reflexivity|reflexivity].
      - rewrite Er in E. discriminate. }
    injection E as <- E.
    destruct dn as [|x2 dn]; cbn [app] in E.
    { destruct S as [->|(p' & b1 & b2 & r' & Er & ->)].
      - cbn. split; [right; exists []; split; [exists (d1 ++ d2); reflexivity|apply fs_create_same]|].
        intros q Hq. apply fs_create_other. exact Hq.
      - rewrite Er in E. injection E as <- E1 _. subst d1. cbn. split.
        + right. exists b1. split; [exists (b2 ++ d2); rewrite app_assoc; reflexivity|].
          rewrite fs_append_same, fs_create_same. reflexivity.
        + intros q Hq. rewrite fs_append_other, fs_create_other by exact Hq. reflexivity. }
    injection E as <- E. symmetry in E. apply app_eq_nil in E. destruct E as [-> ->].
    destruct S as [->|(p' & b1 & b2 & r' & Er & _)]; [|discriminate]. cbn. split.
    + right. exists d1. split; [exists d2; reflexivity|]. rewrite fs_append_same, fs_create_same. reflexivity.
    + intros q Hq. rewrite fs_append_other, fs_create_other by exact Hq. reflexivity. }
  destruct W as [[_ ->]|[(_ & d1 & d2 & Ed & Ev)|Ev]].
  - symmetry in E. apply app_eq_nil in E. destruct E as [-> ->].
    destruct S as [->|(p' & b1 & b2 & r' & Er & _)]; [|discriminate]. split; [left; reflexivity|reflexivity].
  - exact (K d1 d2 Ed Ev).
  - apply (K d []); [rewrite app_nil_r; reflexivity|exact Ev].
Qed.

Lemma crash_app fs a b fs' : crash_state fs (a ++ b) fs' ->
  crash_state fs a fs' \/ crash_state (replay fs a) b fs'.
Proof.
  intros (dn & rs & E & S).
  destruct (Nat.le_gt_cases (length a) (length dn)) as [L|L].
  - (* dn = a ++ dn' *)
    assert (H : exists dn', dn = a ++ dn' /\ b = dn' ++ rs).
    { exists (skipn (length a) dn). assert (F : firstn (length a) dn = a).
      { apply (f_equal (firstn (length a))) in E. rewrite firstn_app, firstn_all, Nat.sub_diag in E. cbn in E. rewrite app_nil_r in E.
        rewrite E at 2. rewrite firstn_app. replace (length a - length dn)%nat with 0%nat by lia. cbn. rewrite app_nil_r. reflexivity. }
      split; [rewrite <- F at 1; symmetry; apply firstn_skipn|].
      apply (f_equal (skipn (length a))) in E. rewrite skipn_app, skipn_all, Nat.sub_diag in E. cbn in E. rewrite E.
      rewrite skipn_app. replace (length a - length dn)%nat with 0%nat by lia. reflexivity. }
    destruct H as (dn' & -> & ->). right. exists dn', rs. split; [reflexivity|].
    destruct S as [->|(p & b1 & b2 & r' & Er & ->)].
    + left. apply replay_app.
    + right. exists p, b1, b2, r'. split; [exact Er|]. rewrite <- app_assoc. apply replay_app.
  - left. assert (H : exists r, a = dn ++ r /\ rs = r ++ b /\ r <> []).
    { exists (skipn (length dn) a). assert (F : firstn (length dn) a = dn).
      { apply (f_equal (firstn (length dn))) in E. rewrite (firstn_app _ dn), firstn_all, Nat.sub_diag in E. cbn in E. rewrite app_nil_r in E.
        rewrite firstn_app in E. replace (length dn - length a)%nat with 0%nat in E by lia. cbn in E. rewrite app_nil_r in E. exact E. }
      split; [rewrite <- F at 1; symmetry; apply firstn_skipn|]. split.
      - apply (f_equal (skipn (length dn))) in E. rewrite (skipn_app _ dn), skipn_all, Nat.sub_diag in E. cbn in E. rewrite <- E.
        rewrite skipn_app. replace (length dn - length a)%nat with 0%nat by lia. reflexivity.
      - intro Hn. apply (f_equal (@length event)) in Hn. rewrite skipn_length in Hn. cbn in Hn. lia. }
    destruct H as (r & -> & -> & Hr). exists dn, r. split; [reflexivity|].
    destruct S as [->|(p & b1 & b2 & r' & Er & ->)]; [left; reflexivity|].
    destruct r as [|x r]; [contradiction Hr; reflexivity|]. cbn in Er. injection Er as -> _.
    right. exists p, b1, b2, r. auto.
Qed.

Lemma GenerateKey_crash C k pass opts w r w' evs fs' : GenerateKey C k pass opts w = (r, w') ->
  w_log w' = w_log w ++ evs -> crash_state (w_fs w) evs fs' ->
  (forall q, fs' q = w_fs w q) \/
  exists priv pub w1, GenerateKeypair C pass opts w = (Ok (priv, pub), w1) /\
    (forall q, q <> sec_path k -> q <> pub_path k -> fs' q = w_fs w q) /\
    partial_of (w_fs w) (sec_path k) (sec_file priv) (fs' (sec_path k)) /\
    partial_of (w_fs w) (pub_path k) (pub_file pub) (fs' (pub_path k)) /\
    (fs' (pub_path k) <> w_fs w (pub_path k) ->
     fs' (sec_path k) = Some (File (sec_file priv) (file_mode (w_fs w) (sec_path k) 420))).
Proof.
  intros H Hlog Hc. destruct (GenerateKey_spec _ _ _ _ _ _ _ H) as (_ & [(e & _ & _ & F & L)|(priv & pub & w1 & evs1 & evs2 & ok1 & G & W1 & W2 & L & F)]).
  - left. rewrite L in Hlog. assert (evs = []) by (rewrite <- (app_nil_r (w_log w)) in Hlog at 1; apply app_inv_head in Hlog; auto).
    subst evs. destruct Hc as (dn & rs & E & S). symmetry in E. apply app_eq_nil in E. destruct E as [-> ->].
    destruct S as [->|(p' & b1 & b2 & r' & Er & _)]; [reflexivity|discriminate].
  - right. rewrite L in Hlog. apply app_inv_head in Hlog. subst evs.
    exists priv, pub, w1. split; [exact G|]. pose proof (sec_pub_neq k) as Hne.
    assert (Hne' : pub_path k <> sec_path k) by (intro E; symmetry in E; exact (Hne E)).
    apply crash_app in Hc. destruct Hc as [Hc|Hc].
    + destruct (crash_write _ _ _ _ _ _ W1 Hc) as [P O]. split; [intros q Hq _; apply O; exact Hq|].
      split; [exact P|]. split; [left; apply O; exact Hne'|]. intro Q. exfalso. apply Q, O, Hne'.
    + destruct W2 as [(_ & -> & _)|(-> & W2)].
      * assert (E : fs' = replay (w_fs w) evs1).
        { destruct Hc as (dn & rs & E & S). symmetry in E. apply app_eq_nil in E. destruct E as [-> ->].
          destruct S as [->|(p' & b1 & b2 & r' & Er & _)]; [reflexivity|discriminate]. }
        assert (Hc' : crash_state (w_fs w) evs1 fs') by (exists evs1, []; rewrite app_nil_r; auto).
        destruct (crash_write _ _ _ _ _ _ W1 Hc') as [P O]. split; [intros q Hq _; apply O; exact Hq|].
        split; [exact P|]. split; [left; apply O; exact Hne'|]. intro Q. exfalso. apply Q, O, Hne'.
      * destruct (crash_write _ _ _ _ _ _ W2 Hc) as [P O].
        pose proof (write_events_done _ _ _ _ (w_fs w) W1) as D.
        split; [intros q Hq1 Hq2; rewrite O by exact Hq2; apply (write_events_other _ _ _ _ _ _ _ W1 Hq1)|].
        assert (E : fs' (sec_path k) = Some (File (sec_file priv) (file_mode (w_fs w) (sec_path k) 420))) by (rewrite O by exact Hne; exact D).
        split; [right; exists (sec_file priv); split; [exists []; rewrite app_nil_r; reflexivity|exact E]|].
        split; [|intros _; exact E].
        unfold partial_of, file_mode in P. rewrite (write_events_other _ _ _ _ _ _ _ W1 Hne') in P. exact P.
Qed.

(* ---- C46: the prompt ---- *)
Definition after_first (w : world) : world := emit w (EvOut (str "Password: ")).

Lemma prompt_true w : PassphrasePrompt true w =
  match w_tty w with
  | [] => (Err ETty, after_first w)
  | Err e :: t => (Err e, set_tty (after_first w) t)
  | Panic :: t => (Panic, set_tty (after_first w) t)
  | Ok a :: t =>
      let w1 := emit (ask_world w a t) (EvOut (str "Confirm password: ")) in
      match t with
      | [] => (Err ETty, w1)
      | Err e :: t2 => (Err e, set_tty w1 t2)
      | Panic :: t2 => (Panic, set_tty w1 t2)
      | Ok b :: t2 =>
          let w2 := emit (set_bufs (set_tty w1 t2) (w_bufs w ++ [a; b])) (EvOut [x0a]) in
          (if bytes_eqb a b then Ok (length (w_bufs w)) else Err (EMsg (str "passphrases don't match")),
           set_bufs w2 (w_bufs w ++ [a; zero_bytes b]))
      end
  end.
Proof.
  unfold PassphrasePrompt, bind, stdout, ReadPassword, after_first. cbn [w_tty emit negb].
  destruct (w_tty w) as [|[a|e|] t]; try reflexivity. cbn [w_tty emit set_tty set_bufs w_bufs].
  destruct t as [|[b|e|] t2]; try reflexivity.
  cbn [w_tty emit set_tty set_bufs w_bufs]. unfold defer, buf_get. cbn [w_bufs emit].
  assert (E1 : nth_error ((w_bufs w ++ [a]) ++ [b]) (length (w_bufs w)) = Some a).
  { rewrite <- app_assoc. rewrite nth_error_app2, Nat.sub_diag by lia. reflexivity. }
  cbn [w_bufs emit set_bufs]. rewrite E1. cbn [w_bufs emit set_bufs]. rewrite nth_error_last.
  assert (Z : forall v, w_bufs v = (w_bufs w ++ [a]) ++ [b] ->
     zero_buf (length (w_bufs w ++ [a])) v = set_bufs v (w_bufs w ++ [a; zero_bytes b])).
  { intros v Hv. unfold zero_buf. rewrite Hv, nth_error_last, set_nth_last, <- app_assoc. reflexivity. }
  destruct (bytes_eqb a b); cbv zeta; unfold ret, fail; rewrite Z by reflexivity; reflexivity.
Qed.

Lemma prompt_confirmed w i w' : PassphrasePrompt true w = (Ok i, w') ->
  exists a t z, w_tty w = Ok a :: Ok a :: t /\ w_tty w' = t /\
    w_bufs w' = w_bufs w ++ [a; z] /\ i = length (w_bufs w) /\ all_zero z.
Proof.
  rewrite prompt_true. destruct (w_tty w) as [|[a|e|] [|[b|e2|] t]]; try discriminate. cbv zeta.
  destruct (bytes_eqb a b) eqn:E; [|discriminate]. apply bytes_eqb_eq in E. subst b. intro H.
  apply pair_equal_spec in H. destruct H as [H <-]. apply Ok_inj in H. subst i.
  exists a, t, (zero_bytes a). repeat split. apply zero_bytes_zero.
Qed.

Lemma prompt_matches w a b t : w_tty w = Ok a :: Ok b :: t ->
  (a = b <-> exists i w', PassphrasePrompt true w = (Ok i, w')) /\
  (exists z, w_bufs (snd (PassphrasePrompt true w)) = w_bufs w ++ [a; z] /\ all_zero z).
Proof.
  intro H. rewrite prompt_true, H. cbv zeta. split.
  - destruct (bytes_eqb a b) eqn:E.
    + apply bytes_eqb_eq in E. split; [intros _; eexists; eexists; reflexivity|auto].
    + apply bytes_eqb_neq in E. split; [contradiction|]. intros (i & w' & Q). discriminate.
  - exists (zero_bytes b). split; [reflexivity|apply zero_bytes_zero].
Qed.

Lemma prompt_single w : match w_tty w with
  | Ok a :: t => exists w', PassphrasePrompt false w = (Ok (length (w_bufs w)), w') /\
                    w_bufs w' = w_bufs w ++ [a] /\ w_tty w' = t
  | Err e :: t => exists w', PassphrasePrompt false w = (Err e, w') /\ w_bufs w' = w_bufs w
  | _ => True
  end.
Proof.
  rewrite prompt_false. destruct (w_tty w) as [|[a|e|] t]; auto; eexists; split; try reflexivity; split; reflexivity.
Qed.

Lemma prompt_error w e : match w_tty w with
  | Err e' :: _ => e = e'
  | Ok _ :: Err e' :: _ => e = e'
  | _ => False
  end -> fst (PassphrasePrompt true w) = Err e.
Proof.
  rewrite prompt_true. destruct (w_tty w) as [|[a|e1|] [|[b|e2|] t]]; try contradiction; intros <-; reflexivity.
Qed.

(* ---- C24 ---- *)
Lemma pub_name_sec k n : last_component (pub_path k) n -> pub_name (sec_path k) n.
Proof. intro H. exists k. split; [left; reflexivity|exact H]. Qed.

Lemma sign_then_verify C k pass opts w w1 v m mp s n :
  LengthLaws C -> EdCorrect C ->
  GenerateKey C k pass opts w = (Ok tt, w1) ->
  w_fs v (sec_path k) = w_fs w1 (sec_path k) -> w_fs v (pub_path k) = w_fs w1 (pub_path k) ->
  contents v mp m -> w_faults v = [] ->
  (pass <> [] -> exists tl, w_tty v = Ok pass :: tl) ->
  last_component (pub_path k) n -> lf_free n -> Z.of_nat (length n) <= 65000 ->
  sigPathOf mp s <> [] -> sigPathOf mp s <> pub_path k -> sigPathOf mp s <> mp ->
  exists v1 v2, Sign C (sec_path k) mp s v = (Ok tt, v1) /\
    w_tty v1 = (match pass with [] => w_tty v | _ => tl (w_tty v) end) /\
    Verify C (pub_path k) mp s v1 = (Ok tt, v2).
Proof.
  intros LL ED G Fs Fp Cm Hf Ht Hn Hl Hlen Hs1 Hs2 Hs3.
  destruct (GenerateKey_success _ _ _ _ _ _ LL G) as (priv & pub & w0 & GK & S1 & S2 & R1 & R2).
  destruct (generate_rounds _ _ _ _ _ _ _ LL GK) as [Rd1 Rd2].
  destruct (generate_pair _ _ _ _ _ _ _ LL GK) as [[(A1 & A2 & A3) (N1 & N2) _ P1 _ _ _] _].
  destruct (generate_wf _ _ _ _ _ _ _ LL GK) as [Wp Wq].
  pose proof (generate_inv _ _ _ _ _ _ LL GK) as [Lrng _].
  assert (Hready : exists p, sign_ready C (sec_path k) mp v p m /\
     key p = slice 0 32 (w_rng w) ++ ed_public C (slice 0 32 (w_rng w)) /\ keyAlgo p = keyAlgo priv /\ keyNum p = keyNum priv).
  { destruct pass as [|c pass].
    - destruct (decrypt_generated C [] opts w priv pub w0 [] LL GK) as (p & D & K & _ & KA & KN).
      rewrite decrypt_plain in D by (apply Rd2; reflexivity). apply pair_equal_spec in D. destruct D as [_ <-].
      exists priv. split; [|auto]. exists (sec_file priv), priv. split; [eexists; rewrite Fs; exact S1|].
      split; [exact R1|]. split; [exact Cm|]. left. split; [apply Rd2; reflexivity|reflexivity].
    - destruct (decrypt_generated C (c :: pass) opts w priv pub w0 [] LL GK) as (p & D & K & _ & KA & KN).
      exists p. split; [|auto]. exists (sec_file priv), priv. split; [eexists; rewrite Fs; exact S1|].
      split; [exact R1|]. split; [exact Cm|]. right. split; [apply Rd1; discriminate|].
      destruct (Ht ltac:(discriminate)) as (tl & Htl). exists (c :: pass), tl. auto. }
  destruct Hready as (p & Hr & Kp & KA & KN).
  destruct (Sign_runs C (sec_path k) mp s v p m Hr Hf Hs1) as (v1 & Es & Fv1 & kf & p0 & Ck & Rk & Tv).
  assert (Hp0 : p0 = priv).
  { assert (contents v (sec_path k) (sec_file priv)) by (eexists; rewrite Fs; exact S1).
    rewrite (contents_fun _ _ _ _ Ck H) in Rk. congruence. }
  subst p0.
  assert (V : exists v2, Verify C (pub_path k) mp s v1 = (Ok tt, v2)).
  { apply Verify_ok_iff. split; [apply undisturbed_nil; exact Fv1|].
    destruct (Sign_success C (sec_path k) mp s v v1 n LL (pub_name_sec k n Hn) Es) as (p' & m' & Hr' & Fsig).
    assert (Em : m' = m). { destruct Hr' as (? & ? & _ & _ & Cm' & _). exact (contents_fun _ _ _ _ Cm' Cm). }
    assert (Ep : p' = p).
    { destruct Hr as (ka & pa & Ca & Ra & _ & Da). destruct Hr' as (kb & pb & Cb & Rb & _ & Db).
      rewrite (contents_fun _ _ _ _ Ca Cb) in Ra. rewrite Ra in Rb. injection Rb as <-.
      destruct Da as [[Ea ->]|(Ea & pa' & ta & Ta & Da)], Db as [[Eb ->]|(Eb & pb' & tb & Tb & Db)]; try congruence. }
    subst p' m'.
    eexists (pub_file pub), m, _, pub, _. split; [eexists; rewrite (Sign_other_files _ _ _ _ _ _ _ _ Es), Fp by (intro E; symmetry in E; contradiction); exact S2|].
    split; [destruct Cm as (mm & Cm); exists mm; rewrite (Sign_other_files _ _ _ _ _ _ _ _ Es) by (intro E; symmetry in E; contradiction); exact Cm|].
    split; [eexists; exact Fsig|]. split; [exact R2|]. pose proof (sign_ready_wf _ _ _ _ _ _ Hr) as (B1 & B2 & B3 & B4 & B5 & B6 & B7).
    split; [apply signature_file_reads; try assumption; apply len_ed_sign; assumption|].
    unfold acceptable. cbn [pkAlgo s_keyNum sig]. rewrite KA, KN, A1, A2, N2. repeat split.
    rewrite P1, Kp. apply ED. unfold slice. rewrite firstn_length, skipn_length. lia. }
  destruct V as (v2 & V). exists v1, v2. split; [exact Es|]. split; [|exact V].
  rewrite Tv. destruct pass as [|c pass].
  - destruct (Rd2 eq_refl) as [_ ->]. reflexivity.
  - destruct (Rd1 ltac:(discriminate)) as (_ & _ & ->). reflexivity.
Qed.
