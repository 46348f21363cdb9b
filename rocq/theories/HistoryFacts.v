(* Lemmas for histories (C96). *)
From Verif Require Import CmdFacts PrintFacts ConcFacts ConcCalls FootCalls Footprint SealCrash OpenFacts RoundTrip GenFacts SignFacts Torn.
From Verif Require Export SpecHistory.
Local Open Scope Z_scope.

(* between fs and fs' only files in P changed, and none vanished *)
Definition changed_in (P : path -> Prop) (fs fs' : path -> option file) : Prop :=
  (forall x, ~ P x -> fs' x = fs x) /\ (forall x, fs x <> None -> fs' x <> None).

Lemma changed_refl P fs : changed_in P fs fs.
Proof. split; auto. Qed.
Lemma changed_trans P a b c : changed_in P a b -> changed_in P b c -> changed_in P a c.
Proof. intros [A1 A2] [B1 B2]. split; [intros x N; rewrite (B1 x N); apply A1, N|intros x N; apply B2, A2, N]. Qed.
Lemma changed_weaken (P Q : path -> Prop) a b : (forall x, P x -> Q x) -> changed_in P a b -> changed_in Q a b.
Proof. intros H [A B]. split; [intros x N; apply A; intro X; apply N, H, X|exact B]. Qed.
Lemma changed_create (P : path -> Prop) fs q m : P q -> changed_in P fs (fs_create fs q m).
Proof.
  intro H. split; intros x N; unfold fs_create; destruct (bytes_eqb x q) eqn:E; try reflexivity; try exact N; [|discriminate].
  apply bytes_eqb_eq in E. subst x. contradiction.
Qed.
Lemma changed_append (P : path -> Prop) fs q b : P q -> changed_in P fs (fs_append fs q b).
Proof.
  intro H. split; intros x N; unfold fs_append; destruct (bytes_eqb x q) eqn:E; try reflexivity; try exact N.
  - apply bytes_eqb_eq in E. subst x. contradiction.
  - apply bytes_eqb_eq in E. subst x. destruct (fs q); [discriminate|exact N].
Qed.
Lemma changed_replay (P : path -> Prop) evs : (forall x, writes evs x -> P x) -> forall fs, changed_in P fs (replay fs evs).
Proof.
  induction evs as [|e evs IH]; intros H fs; [apply changed_refl|].
  assert (H' : forall x, writes evs x -> P x) by (intros x (b & m & [W|W]); apply H; exists b, m; [left|right]; right; exact W).
  change (replay fs (e :: evs)) with (replay (replay1 fs e) evs). apply (changed_trans P _ (replay1 fs e)); [|apply IH, H'].
  destruct e as [p m|p b|b|b]; cbn [replay1]; [apply changed_create, H|apply changed_append, H|apply changed_refl|apply changed_refl].
  - exists [], m. left. left. reflexivity.
  - exists b, 0. right. left. reflexivity.
Qed.

(* ---- Open writes only its output, whatever it is ---- *)
Section OpenChanges.
Variable C : Crypto.
Variable q : path.
Variable fs0 : path -> option file.
Let P := fun x : path => x = q.
Let RS := fun w v : world => w = v /\ changed_in P fs0 (w_fs w).

Lemma stay_resp {A} (m : world -> A * world) : (forall w, changed_in P fs0 (w_fs w) -> changed_in P fs0 (w_fs (snd (m w)))) -> resp RS m.
Proof. intros H w v [<- K]. split; [reflexivity|]. split; [reflexivity|apply H, K]. Qed.
Lemma same_fs_resp {A} (m : world -> A * world) : (forall w, w_fs (snd (m w)) = w_fs w) -> resp RS m.
Proof. intro H. apply stay_resp. intros w K. rewrite H. exact K. Qed.
Lemma pop_fs w : w_fs (snd (pop_fault w)) = w_fs w.
Proof. unfold pop_fault. destruct (w_faults w); reflexivity. Qed.
Lemma read_stays fd : rresp RS (file_read fd).
Proof.
  intro n. apply (same_fs_resp (file_read fd n)). intro w. unfold file_read. pose proof (pop_fs w) as F. destruct (pop_fault w) as [f w1]. cbn [snd] in F.
  destruct f; try exact F; (destruct (nth_error (w_fds w1) fd) as [[p off]|]; [|exact F]); cbv zeta; destruct n; destruct (firstn _ _); exact F.
Qed.
Lemma write_stays : wresp RS (file_write q).
Proof.
  intro b. apply (stay_resp (file_write q b)). intros w K. unfold file_write. pose proof (pop_fs w) as F. destruct (pop_fault w) as [f w1]. cbn [snd] in F. rewrite <- F in K.
  destruct f; cbn [snd do_append w_fs]; (eapply changed_trans; [exact K|apply changed_append; reflexivity]).
Qed.
Lemma create_stays m w : changed_in P fs0 (w_fs w) -> changed_in P fs0 (w_fs (snd (create_file q m w))).
Proof.
  intro K. unfold create_file. pose proof (pop_fs w) as F. destruct (pop_fault w) as [f w1]. cbn [snd] in F. rewrite <- F in K.
  destruct f; try exact K; (assert (D : q = [] \/ exists c r, q = c :: r) by (destruct q; [left; reflexivity|right; do 2 eexists; reflexivity]);
  destruct D as [D|(c & r & D)]; rewrite D at 1; [exact K|]; cbn [snd]; eapply changed_trans; [exact K|]; apply changed_create; reflexivity).
Qed.
Lemma prompt_fs w : w_fs (snd (PassphrasePrompt false w)) = w_fs w.
Proof. rewrite prompt_false. destruct (w_tty w) as [|[b|e|] t]; reflexivity. Qed.
Lemma ToBox_fs p w : w_fs (snd (priv_ToBox C p w)) = w_fs w.
Proof.
  unfold priv_ToBox. destruct (Check C p); [reflexivity| |]; pose proof (prompt_fs w) as F; destruct (PassphrasePrompt false w) as [[i|e1|] w1]; try exact F;
  unfold buf_get; (destruct (nth_error (w_bufs w1) i); [|exact F]); destruct (decrypt C p b) as [[u|e3|] p']; exact F.
Qed.

Lemma Open_stays sk ep w : changed_in P fs0 (w_fs w) -> changed_in P fs0 (w_fs (snd (Open C sk ep q w))).
Proof.
  intro K. rewrite Open_eq. destruct (LoadPrivateKey sk w) as [r1 w1] eqn:E1. destruct (LoadPrivateKey_inv _ _ _ _ E1) as (-> & NP1 & _).
  assert (K1 : changed_in P fs0 (w_fs (next w))) by (exact K). clear K E1. revert K1. generalize (next w). clear w. intros w K.
  destruct r1 as [priv|e|]; try exact K.
  destruct (open_read_spec ep w) as (r2 & w2 & E2 & O2 & _). rewrite E2. destruct O2 as (F2 & _). rewrite <- F2 in K.
  destruct r2 as [fd|e|]; try exact K.
  pose proof (skipComment_resp _ RS (file_read fd) (file_fuel fd) (read_stays fd)) as S3.
  destruct (S3 ltac:(intros s t [-> _]; reflexivity) w2 w2 (conj eq_refl K)) as [_ [_ K3]].
  destruct (skipComment (file_fuel fd) (file_read fd) w2) as [r3 w3]. cbn [snd] in K3. destruct r3 as [[]|e|]; try exact K3.
  pose proof (create_stays 438 w3 K3) as K4. destruct (create_file q 438 w3) as [r4 w4]. cbn [snd] in K4. destruct r4 as [[]|e|]; try exact K4.
  unfold open_file. pose proof (ToBox_fs priv w4) as F5. destruct (priv_ToBox C priv w4) as [[r5 p5] w5]. cbn [snd] in F5. rewrite <- F5 in K4.
  destruct r5 as [ed|e|]; try exact K4.
  pose proof (open_body_resp C _ RS ed (file_decoder fd) (file_write q)) as S6.
  destruct (S6 ltac:(unfold file_decoder; apply dec_read_resp; [apply read_stays|intros s t e [-> _]; reflexivity]) write_stays w5 w5 (conj eq_refl K4)) as [_ [_ K6]].
  exact K6.
Qed.
End OpenChanges.

Lemma Open_changes C sk ep mp w r w' : Open C sk ep mp w = (r, w') -> changed_in (fun x => x = mp) (w_fs w) (w_fs w').
Proof. intro H. pose proof (Open_stays C mp (w_fs w) sk ep w (changed_refl _ _)) as X. rewrite H in X. exact X. Qed.
Lemma Seal_changes C pk mp ep w r w' : Seal C pk mp ep w = (r, w') -> changed_in (fun x => x = enc_path mp ep) (w_fs w) (w_fs w').
Proof.
  intro H. destruct (Seal_log _ _ _ _ _ _ _ H) as [(_ & F)|(ps & _ & F)]; rewrite F; [apply changed_refl|]. apply changed_replay.
  intros x W. apply writes_cons in W. destruct W as [W|W]; [apply (writes_create _ _ _ W)|apply (writes_appends _ _ _ W)].
Qed.
Lemma Sign_changes C sk mp s w r w' : Sign C sk mp s w = (r, w') -> changed_in (fun x => x = sigPathOf mp s) (w_fs w) (w_fs w').
Proof.
  intro H. destruct (Sign_log _ _ _ _ _ _ _ H) as (outs & ev & _ & _ & F & D). rewrite F. apply changed_replay. intros x W.
  destruct D as [-> |(p & d & ok & _ & D)]; [destruct (writes_nil _ W)|exact (writes_events _ _ _ _ _ _ D W)].
Qed.
Lemma Verify_changes C pk mp s w r w' : Verify C pk mp s w = (r, w') -> w_fs w' = w_fs w.
Proof. intro H. destruct (Verify_world _ _ _ _ _ _ _ H) as (fl & ->). reflexivity. Qed.
Lemma Generate_changes C k pass opts w r w' : GenerateKey C k pass opts w = (r, w') ->
  changed_in (fun x => x = k ++ str ".sec" \/ x = k ++ str ".pub") (w_fs w) (w_fs w').
Proof.
  intro H. destruct (GenerateKey_spec _ _ _ _ _ _ _ H) as (_ & [(e & _ & _ & F & _)|(priv & pub & w1 & evs1 & evs2 & ok1 & _ & W1 & W2 & _ & F)]); rewrite F; [apply changed_refl|].
  apply changed_replay. intros x W. apply writes_app in W. destruct W as [W|W]; [left; exact (writes_events _ _ _ _ _ _ W1 W)|].
  destruct W2 as [(_ & -> & _)|(_ & W2)]; [destruct (writes_nil _ W)|right; exact (writes_events _ _ _ _ _ _ W2 W)].
Qed.

Lemma action_changes P (m : M unit) onErr onOk w n w' : (forall r v, m w = (r, v) -> changed_in P (w_fs w) (w_fs v)) ->
  action m onErr onOk w = (n, w') -> changed_in P (w_fs w) (w_fs w').
Proof.
  unfold action. intros H A. destruct (m w) as [[[]|e|] v]; specialize (H _ _ eq_refl); [destruct onOk| |];
  apply pair_equal_spec in A; destruct A as [_ <-]; exact H.
Qed.

Lemma sign_name mp s : sigPathOf mp s = name_or s mp (str ".sig").
Proof. destruct s; reflexivity. Qed.
Lemma seal_name mp e : enc_path mp e = name_or e mp (str ".enc").
Proof. unfold enc_path. destruct e; reflexivity. Qed.

Lemma main_changes C arg0 u ss args rest w n w' : command_line ss args rest -> stops rest -> main C arg0 u args w = (n, w') ->
  changed_in (is_for u ss) (w_fs w) (w_fs w').
Proof.
  intros Hc Hs. rewrite (main_dispatch _ _ _ _ _ _ _ Hc Hs). unfold dispatch.
  cbn [flags_of f_s f_p f_G f_S f_V f_E f_D f_m f_x f_c f_n]. rewrite !or_default_eq. cbv zeta.
  change (or_default (string_value x70 ss) (defaultKeyBase u) (str ".pub")) with (public_key u ss).
  change (or_default (string_value x73 ss) (defaultKeyBase u) (str ".sec")) with (secret_key u ss). change (string_value x6d ss) with (message_name ss).
  assert (Mute : forall k (v : world) (W : w_fs v = w_fs w), (k, v) = (n, w') -> changed_in (is_for u ss) (w_fs w) (w_fs w')).
  { intros k v W H. apply pair_equal_spec in H. destruct H as [_ <-]. rewrite W. apply changed_refl. }
  destruct (bool_value x47 ss) eqn:G.
  { pose proof (mode_G ss G) as M. unfold generateAction. destruct (isEmpty (public_key u ss)); [apply Mute; reflexivity|].
    assert (Gen : forall pass v, w_fs v = w_fs w ->
      action (GenerateKey C (public_key u ss) pass None) (fun e => str "Failed to generate keypair: " ++ errText e ++ [x0a]) None v = (n, w') ->
      changed_in (is_for u ss) (w_fs w) (w_fs w')).
    { intros pass v F H. rewrite <- F. revert H. apply action_changes. intros r v' E. apply Generate_changes in E. revert E. apply changed_weaken.
      intros x [-> | ->]; [exact (ForSecret u ss M)|exact (ForPublic u ss M)]. }
    destruct (bool_value x6e ss); [apply Gen; reflexivity|].
    destruct (prompt_outcome w) as [(pass & tl & i & w1 & E1 & E2 & E3 & F1 & _)|(_ & r & w1 & E & Nr & F)].
    - rewrite E2, E3. apply Gen, F1.
    - rewrite E. destruct r as [i|e|]; [contradiction (Nr i eq_refl)|apply Mute; exact F|apply Mute; exact F]. }
  destruct (bool_value x53 ss) eqn:S.
  { pose proof (mode_S ss G S) as M. destruct (_ || _); [apply Mute; reflexivity|]. apply action_changes. intros r v E.
    apply Sign_changes in E. rewrite sign_name in E. revert E. apply changed_weaken. intros x ->. exact (ForSignature u ss M). }
  destruct (bool_value x56 ss) eqn:V.
  { apply action_changes. intros r v E. apply Verify_changes in E. rewrite E. apply changed_refl. }
  destruct (bool_value x45 ss) eqn:E.
  { pose proof (mode_E ss G S V E) as M. apply action_changes. intros r v X.
    apply Seal_changes in X. rewrite seal_name in X. revert X. apply changed_weaken. intros x ->. exact (ForSealed u ss M). }
  destruct (bool_value x44 ss) eqn:D.
  { pose proof (mode_D ss G S V E D) as M. apply action_changes. intros r v X.
    apply Open_changes in X. revert X. apply changed_weaken. intros x ->. exact (ForMessage u ss M). }
  apply Mute. reflexivity.
Qed.

Lemma main_malformed C arg0 u ss args rest w n w' : command_line ss args rest -> malformed rest -> main C arg0 u args w = (n, w') -> w_fs w' = w_fs w.
Proof.
  intros Hc Hm. unfold main. destruct (flagParse_malformed _ _ _ Hc Hm) as (msg & ->). intro H. apply pair_equal_spec in H. destruct H as [_ <-]. destruct msg; reflexivity.
Qed.

(* ---- histories ---- *)
Lemma spares_head p h l : spares p (h :: l) -> spares p l.
Proof. intros [A B]. split; [intros u args n ss rest X; apply (A u args n ss rest); right; exact X|intros ps X; apply B; right; exact X]. Qed.

Lemma run_spares C arg0 u args w n w' p l : main C arg0 u args w = (n, w') -> spares p (Psignify u args n :: l) -> w_fs w' p = w_fs w p.
Proof.
  intros H [A _]. destruct (every_command_line args) as (ss & rest & Hc & [Hs|Hm]).
  - destruct (main_changes _ _ _ _ _ _ _ _ _ Hc Hs H) as [X _]. apply X. exact (A u args n ss rest (or_introl eq_refl) Hc Hs).
  - rewrite (main_malformed _ _ _ _ _ _ _ _ _ Hc Hm H). reflexivity.
Qed.
Lemma run_keeps C arg0 u args w n w' p : main C arg0 u args w = (n, w') -> w_fs w p <> None -> w_fs w' p <> None.
Proof.
  intros H N. destruct (every_command_line args) as (ss & rest & Hc & [Hs|Hm]).
  - destruct (main_changes _ _ _ _ _ _ _ _ _ Hc Hs H) as [_ X]. exact (X p N).
  - rewrite (main_malformed _ _ _ _ _ _ _ _ _ Hc Hm H). exact N.
Qed.

Theorem history_spares C fs l fs' p : history C fs l fs' -> spares p l -> fs' p = fs p.
Proof.
  intro H. induction H as [fs|arg0 u args w n w' l fs M H IH|fs0 ps fs1 l fs O H IH]; intro Sp.
  - reflexivity.
  - rewrite IH by exact (spares_head _ _ _ Sp). exact (run_spares _ _ _ _ _ _ _ _ _ M Sp).
  - rewrite IH by exact (spares_head _ _ _ Sp). apply O. destruct Sp as [_ B]. exact (B ps (or_introl eq_refl)).
Qed.
Theorem history_keeps C fs l fs' p : history C fs l fs' -> (forall ps, In (Others ps) l -> ~ In p ps) -> fs p <> None -> fs' p <> None.
Proof.
  intro H. induction H as [fs|arg0 u args w n w' l fs M H IH|fs0 ps fs1 l fs O H IH]; intros B N.
  - exact N.
  - apply IH; [intros ps X; apply B; right; exact X|]. exact (run_keeps _ _ _ _ _ _ _ _ M N).
  - apply IH; [intros ps' X; apply B; right; exact X|]. rewrite O; [exact N|]. exact (B ps (or_introl eq_refl)).
Qed.
Lemma verifies_spares p l : only_verifies l -> spares p l.
Proof.
  intros [A B]. split; [|intros ps X; destruct (B ps X)]. intros u args n ss rest X Hc Hs F.
  destruct F as [M|M|M|M|M]; pose proof (A u args n ss rest _ X Hc Hs M) as E; discriminate E.
Qed.
Theorem history_verifies C fs l fs' p : history C fs l fs' -> only_verifies l -> fs' p = fs p.
Proof. intros H V. exact (history_spares _ _ _ _ _ H (verifies_spares p l V)). Qed.

(* ---- single calls ---- *)
Lemma mode_G_inv ss : mode ss x47 -> bool_value x47 ss = true.
Proof. intros [H _]. exact H. Qed.
Lemma mode_S_inv ss : mode ss x53 -> bool_value x47 ss = false /\ bool_value x53 ss = true.
Proof.
  intro M. split; [|apply M]. destruct (bool_value x47 ss) eqn:G; [|reflexivity]. discriminate (mode_fun _ _ _ (mode_G ss G) M).
Qed.
Lemma mode_V_inv ss : mode ss x56 -> verifies ss.
Proof.
  intro M. assert (G : bool_value x47 ss = false) by (destruct (bool_value x47 ss) eqn:G; [discriminate (mode_fun _ _ _ (mode_G ss G) M)|reflexivity]).
  split; [exact G|]. split; [|apply M]. destruct (bool_value x53 ss) eqn:S; [|reflexivity]. discriminate (mode_fun _ _ _ (mode_S ss G S) M).
Qed.
Lemma mode_E_inv ss : mode ss x45 -> bool_value x47 ss = false /\ bool_value x53 ss = false /\ bool_value x56 ss = false /\ bool_value x45 ss = true.
Proof.
  intro M. assert (G : bool_value x47 ss = false) by (destruct (bool_value x47 ss) eqn:G; [discriminate (mode_fun _ _ _ (mode_G ss G) M)|reflexivity]).
  assert (S : bool_value x53 ss = false) by (destruct (bool_value x53 ss) eqn:S; [discriminate (mode_fun _ _ _ (mode_S ss G S) M)|reflexivity]).
  assert (V : bool_value x56 ss = false) by (destruct (bool_value x56 ss) eqn:V; [discriminate (mode_fun _ _ _ (mode_V ss G S V) M)|reflexivity]).
  destruct M as [M _]. auto.
Qed.
Lemma mode_D_inv ss : mode ss x44 ->
  bool_value x47 ss = false /\ bool_value x53 ss = false /\ bool_value x56 ss = false /\ bool_value x45 ss = false /\ bool_value x44 ss = true.
Proof.
  intro M. assert (G : bool_value x47 ss = false) by (destruct (bool_value x47 ss) eqn:G; [discriminate (mode_fun _ _ _ (mode_G ss G) M)|reflexivity]).
  assert (S : bool_value x53 ss = false) by (destruct (bool_value x53 ss) eqn:S; [discriminate (mode_fun _ _ _ (mode_S ss G S) M)|reflexivity]).
  assert (V : bool_value x56 ss = false) by (destruct (bool_value x56 ss) eqn:V; [discriminate (mode_fun _ _ _ (mode_V ss G S V) M)|reflexivity]).
  assert (E : bool_value x45 ss = false) by (destruct (bool_value x45 ss) eqn:E; [discriminate (mode_fun _ _ _ (mode_E ss G S V E) M)|reflexivity]).
  destruct M as [M _]. auto.
Qed.

Lemma action_ok m onErr onOk w w' : action m onErr onOk w = (0, w') -> exists v, m w = (Ok tt, v) /\ w_fs w' = w_fs v.
Proof.
  unfold action. destruct (m w) as [[[]|e|] v]; intro H; try discriminate H. exists v. split; [reflexivity|].
  apply pair_equal_spec in H. destruct H as [_ <-]. destruct onOk; reflexivity.
Qed.
Lemma action_ends m onErr onOk w v n w' : m w = (Ok tt, v) -> action m onErr onOk w = (n, w') -> n = 0 /\ w_fs w' = w_fs v.
Proof. unfold action. intros -> H. apply pair_equal_spec in H. destruct H as [<- <-]. split; [reflexivity|]. destruct onOk; reflexivity. Qed.

Lemma called_generate C u ss w w' pass : called C u ss w 0 w' -> mode ss x47 -> chosen ss w pass ->
  exists v v', GenerateKey C (public_key u ss) pass None v = (Ok tt, v') /\ w_fs v = w_fs w /\ w_rng v = w_rng w /\ w_fs w' = w_fs v'.
Proof.
  intros (arg0 & args & rest & Hc & Hs & H) M Ch. apply mode_G_inv in M.
  rewrite (main_dispatch _ _ _ _ _ _ _ Hc Hs) in H. unfold dispatch in H. cbn [flags_of f_s f_p f_G f_n] in H. rewrite M, !or_default_eq in H.
  change (or_default (string_value x70 ss) (defaultKeyBase u) (str ".pub")) with (public_key u ss) in H. unfold generateAction in H.
  destruct (isEmpty (public_key u ss)); [discriminate H|]. destruct Ch as [[N ->]|[N (t & T)]]; rewrite N in H.
  - destruct (action_ok _ _ _ _ _ H) as (v & G & F). exists w, v. auto.
  - destruct (prompt_outcome w) as [(pass' & tl & i & w1 & E1 & E2 & E3 & F1 & F2 & _)|(X & _)]; [|elim (X _ _ T)].
    assert (pass' = pass) as -> by congruence. rewrite E2, E3 in H. destruct (action_ok _ _ _ _ _ H) as (v & G & F). exists w1, v. auto.
Qed.

Lemma called_sign C u ss w n w' v : called C u ss w n w' -> mode ss x53 -> secret_key u ss <> [] -> message_name ss <> [] ->
  Sign C (secret_key u ss) (message_name ss) (string_value x78 ss) w = (Ok tt, v) -> n = 0 /\ w_fs w' = w_fs v.
Proof.
  intros (arg0 & args & rest & Hc & Hs & H) M N1 N2 S. destruct (mode_S_inv _ M) as [G S']. rewrite (main_dispatch _ _ _ _ _ _ _ Hc Hs) in H. unfold dispatch in H.
  cbn [flags_of f_s f_p f_G f_S f_m f_x] in H. rewrite G, S', !or_default_eq in H.
  change (or_default (string_value x73 ss) (defaultKeyBase u) (str ".sec")) with (secret_key u ss) in H. change (string_value x6d ss) with (message_name ss) in H.
  rewrite (isEmpty_false _ N1), (isEmpty_false _ N2) in H. cbn [orb] in H. exact (action_ends _ _ _ _ _ _ _ S H).
Qed.
Lemma called_verify C u ss w n w' : called C u ss w n w' -> mode ss x56 ->
  accepted C w (public_key u ss) (message_name ss) (signature_name ss) ->
  n = 0 /\ w_log w' = w_log w ++ [EvOut (line (message_name ss ++ str ": OK"))].
Proof.
  intros (arg0 & args & rest & Hc & Hs & H) M A. apply mode_V_inv in M. destruct (main_verify_exact _ _ _ _ _ _ _ _ _ Hc Hs M H) as (_ & _ & _ & D).
  rewrite sign_name in D. destruct D as [(-> & _ & D)|[(_ & N & _)|(_ & T & _)]].
  - split; [reflexivity|]. unfold line. rewrite <- app_assoc. exact D.
  - contradiction.
  - exfalso. unfold signature_name in A. rewrite <- sign_name in A, T. apply (proj2 (Verify_ok_iff C _ _ _ w)) in A. destruct A as (w1 & A). apply (proj2 (Verify_panic_iff C _ _ _ w)) in T.
    unfold public_key, message_name in A. rewrite A in T. discriminate T.
Qed.
Lemma called_seal C u ss w n w' v : called C u ss w n w' -> mode ss x45 ->
  Seal C (public_key u ss) (message_name ss) (string_value x63 ss) w = (Ok tt, v) -> n = 0 /\ w_fs w' = w_fs v.
Proof.
  intros (arg0 & args & rest & Hc & Hs & H) M S. destruct (mode_E_inv _ M) as (G & S' & V & E). rewrite (main_dispatch _ _ _ _ _ _ _ Hc Hs) in H. unfold dispatch in H.
  cbn [flags_of f_s f_p f_G f_S f_V f_E f_m f_x f_c] in H. rewrite G, S', V, E, !or_default_eq in H. exact (action_ends _ _ _ _ _ _ _ S H).
Qed.
Lemma called_open C u ss w n w' v : called C u ss w n w' -> mode ss x44 ->
  Open C (secret_key u ss) (string_value x63 ss) (message_name ss) w = (Ok tt, v) -> n = 0 /\ w_fs w' = w_fs v.
Proof.
  intros (arg0 & args & rest & Hc & Hs & H) M S. destruct (mode_D_inv _ M) as (G & S' & V & E & D). rewrite (main_dispatch _ _ _ _ _ _ _ Hc Hs) in H. unfold dispatch in H.
  cbn [flags_of f_s f_p f_G f_S f_V f_E f_D f_m f_x f_c] in H. rewrite G, S', V, E, D, !or_default_eq in H. exact (action_ends _ _ _ _ _ _ _ S H).
Qed.

(* ---- what lasts ---- *)
Lemma accepted_lasts C w v pp mp sp : accepted C w pp mp sp -> w_fs v pp = w_fs w pp -> w_fs v mp = w_fs w mp -> w_fs v sp = w_fs w sp -> undisturbed 3 v ->
  accepted C v pp mp sp.
Proof.
  intros (_ & pf & m & sf & pk & sg & A & B & D & R) E1 E2 E3 U. split; [exact U|]. exists pf, m, sf, pk, sg.
  unfold contents. rewrite E1, E2, E3. auto.
Qed.

Theorem signature_lasts C k pass u1 ss1 w1 v1 l1 u2 ss2 w2 m n n2 v2 :
  LengthLaws C -> EdCorrect C ->
  called C u1 ss1 w1 0 v1 -> mode ss1 x47 -> public_key u1 ss1 = k -> chosen ss1 w1 pass ->
  history C (w_fs v1) l1 (w_fs w2) -> spares (k ++ str ".sec") l1 -> spares (k ++ str ".pub") l1 ->
  called C u2 ss2 w2 n2 v2 -> mode ss2 x53 -> secret_key u2 ss2 = k ++ str ".sec" -> given w2 pass -> no_faults w2 ->
  contents w2 (message_name ss2) m -> message_name ss2 <> [] ->
  signature_name ss2 <> k ++ str ".pub" -> signature_name ss2 <> message_name ss2 ->
  last_component (k ++ str ".pub") n -> lf_free n -> Z.of_nat (length n) <= 65000 ->
  n2 = 0 /\
  forall l2 u3 ss3 w3 n3 v3, history C (w_fs v2) l2 (w_fs w3) ->
    spares (k ++ str ".pub") l2 -> spares (message_name ss2) l2 -> spares (signature_name ss2) l2 ->
    called C u3 ss3 w3 n3 v3 -> mode ss3 x56 -> public_key u3 ss3 = k ++ str ".pub" ->
    message_name ss3 = message_name ss2 -> signature_name ss3 = signature_name ss2 -> undisturbed 3 w3 ->
    n3 = 0 /\ w_log v3 = w_log w3 ++ [EvOut (line (message_name ss3 ++ str ": OK"))].
Proof.
  intros LL EC K1 M1 Ek Ch H1 Sp1 Sp2 K2 M2 Es Gi Nf Cm Nm Q1 Q2 Lc Lf Ln.
  destruct (called_generate _ _ _ _ _ _ K1 M1 Ch) as (v & v' & G & F1 & _ & F2). rewrite Ek in G.
  assert (X1 : w_fs w2 (sec_path k) = w_fs v' (sec_path k)) by (rewrite <- F2; exact (history_spares _ _ _ _ _ H1 Sp1)).
  assert (X2 : w_fs w2 (pub_path k) = w_fs v' (pub_path k)) by (rewrite <- F2; exact (history_spares _ _ _ _ _ H1 Sp2)).
  unfold signature_name in Q1, Q2. rewrite <- sign_name in Q1, Q2.
  destruct (sign_then_verify C k pass None v v' w2 m (message_name ss2) (string_value x78 ss2) n LL EC G X1 X2 Cm Nf Gi Lc Lf Ln) as (s1 & s2 & S & _ & V).
  { destruct (string_value x78 ss2); [|discriminate]. cbn. destruct (message_name ss2); [contradiction|discriminate]. } { exact Q1. } { exact Q2. }
  unfold sec_path in S. rewrite <- Es in S.
  destruct (called_sign C u2 ss2 w2 n2 v2 s1 K2 M2) as [-> F3]; [rewrite Es; destruct k; discriminate|exact Nm|exact S|]. split; [reflexivity|].
  intros l2 u3 ss3 w3 n3 v3 H2 T1 T2 T3 K3 M3 E1 E2 E3 U.
  pose proof (proj1 (Verify_ok_iff C _ _ _ s1) (ex_intro _ s2 V)) as A. rewrite sign_name in A. change (accepted C s1 (k ++ str ".pub") (message_name ss2) (signature_name ss2)) in A.
  apply (called_verify C u3 ss3 w3 n3 v3 K3 M3). rewrite E1, E2, E3. apply (accepted_lasts C s1 w3 _ _ _ A).
  - rewrite <- F3. exact (history_spares _ _ _ _ _ H2 T1).
  - rewrite <- F3. exact (history_spares _ _ _ _ _ H2 T2).
  - rewrite <- F3. exact (history_spares _ _ _ _ _ H2 T3).
  - exact U.
Qed.

Theorem secret_lasts C k pass u1 ss1 w1 v1 l1 u2 ss2 w2 m n2 v2 :
  LengthLaws C -> BoxTidy C -> BoxCorrect C -> DHCorrect C -> ToBoxAgree C ->
  called C u1 ss1 w1 0 v1 -> mode ss1 x47 -> public_key u1 ss1 = k -> chosen ss1 w1 pass -> not_mistaken C pass None (w_rng w1) ->
  history C (w_fs v1) l1 (w_fs w2) -> spares (k ++ str ".sec") l1 -> spares (k ++ str ".pub") l1 ->
  called C u2 ss2 w2 n2 v2 -> mode ss2 x45 -> public_key u2 ss2 = k ++ str ".pub" -> no_faults w2 -> (32 <= length (w_rng w2))%nat ->
  contents w2 (message_name ss2) m -> m <> [] -> Z.of_nat (length m) < 2 ^ 63 ->
  sealed_name ss2 <> message_name ss2 -> sealed_name ss2 <> k ++ str ".sec" ->
  n2 = 0 /\
  forall l2 u3 ss3 w3 n3 v3, history C (w_fs v2) l2 (w_fs w3) ->
    spares (k ++ str ".sec") l2 -> spares (sealed_name ss2) l2 ->
    called C u3 ss3 w3 n3 v3 -> mode ss3 x44 -> secret_key u3 ss3 = k ++ str ".sec" -> given w3 pass -> no_faults w3 ->
    string_value x63 ss3 = sealed_name ss2 -> message_name ss3 <> [] -> message_name ss3 <> sealed_name ss2 ->
    n3 = 0 /\ contents v3 (message_name ss3) m.
Proof.
  intros LL BT BC DH TB K1 M1 Ek Ch NM H1 Sp1 Sp2 K2 M2 Es Nf Lr Cm Nm Lm Q1 Q2.
  destruct (called_generate _ _ _ _ _ _ K1 M1 Ch) as (v & v' & G & F1 & R1 & F2). rewrite Ek in G.
  assert (X1 : w_fs w2 (sec_path k) = w_fs v' (sec_path k)) by (rewrite <- F2; exact (history_spares _ _ _ _ _ H1 Sp1)).
  assert (X2 : w_fs w2 (pub_path k) = w_fs v' (pub_path k)) by (rewrite <- F2; exact (history_spares _ _ _ _ _ H1 Sp2)).
  rewrite <- R1 in NM. unfold sealed_name in *. rewrite <- seal_name in *.
  pose proof (seal_then_open_later C k pass None v v' w2 m (message_name ss2) (string_value x63 ss2) LL BT BC DH TB G NM X1 X2 Cm Nm Lm Nf Lr) as X.
  cbv zeta in X. destruct (X Q1 Q2) as (s1 & S & _ & _ & _ & L). unfold pub_path in S. rewrite <- Es in S.
  destruct (called_seal C u2 ss2 w2 n2 v2 s1 K2 M2 S) as [-> F3]. split; [reflexivity|].
  intros l2 u3 ss3 w3 n3 v3 H2 T1 T2 K3 M3 E1 Gi Nf3 E2 N1 N2.
  destruct (L w3 (message_name ss3)) as (s2 & O & (mo & Co) & _).
  { rewrite <- F3. exact (history_spares _ _ _ _ _ H2 T1). } { rewrite <- F3. exact (history_spares _ _ _ _ _ H2 T2). } { exact Nf3. } { exact Gi. } { exact N1. } { exact N2. }
  unfold sec_path in O. rewrite <- E1, <- E2 in O. destruct (called_open C u3 ss3 w3 n3 v3 s2 K3 M3 O) as [-> F4]. split; [reflexivity|]. exists mo. rewrite F4. exact Co.
Qed.

(* the same verdict *)
Theorem verdict_lasts C l u ss w n v u' ss' w' n' v' : history C (w_fs w) l (w_fs w') ->
  spares (public_key u ss) l -> spares (message_name ss) l -> spares (signature_name ss) l ->
  called C u ss w n v -> called C u' ss' w' n' v' -> mode ss x56 -> mode ss' x56 ->
  public_key u' ss' = public_key u ss -> message_name ss' = message_name ss -> signature_name ss' = signature_name ss ->
  undisturbed 3 w -> undisturbed 3 w' -> n' = n.
Proof.
  intros H S1 S2 S3 (a & args & rest & Hc & Hs & R) (a' & args' & rest' & Hc' & Hs' & R') M M' E1 E2 E3 U U'.
  apply mode_V_inv in M, M'. pose proof (main_verify_exact _ _ _ _ _ _ _ _ _ Hc Hs M R) as X. pose proof (main_verify_exact _ _ _ _ _ _ _ _ _ Hc' Hs' M' R') as X'.
  cbv zeta in X, X'. rewrite sign_name in X, X'.
  change (or_default (string_value x70 ss) (defaultKeyBase u) (str ".pub")) with (public_key u ss) in X.
  change (or_default (string_value x70 ss') (defaultKeyBase u') (str ".pub")) with (public_key u' ss') in X'.
  change (name_or (string_value x78 ss) (string_value x6d ss) (str ".sig")) with (signature_name ss) in X.
  change (name_or (string_value x78 ss') (string_value x6d ss') (str ".sig")) with (signature_name ss') in X'.
  change (string_value x6d ss) with (message_name ss) in X. change (string_value x6d ss') with (message_name ss') in X'. rewrite E1, E2, E3 in X'.
  pose proof (history_spares _ _ _ _ _ H S1) as F1. pose proof (history_spares _ _ _ _ _ H S2) as F2. pose proof (history_spares _ _ _ _ _ H S3) as F3.
  set (A := accepted C w (public_key u ss) (message_name ss) (signature_name ss)) in *. set (A' := accepted C w' (public_key u ss) (message_name ss) (signature_name ss)) in *.
  set (T := too_short w (public_key u ss) (message_name ss) (signature_name ss)) in *. set (T' := too_short w' (public_key u ss) (message_name ss) (signature_name ss)) in *.
  assert (HA : A <-> A').
  { split; intro Y; [exact (accepted_lasts _ _ _ _ _ _ Y F1 F2 F3 U')|exact (accepted_lasts _ _ _ _ _ _ Y (eq_sym F1) (eq_sym F2) (eq_sym F3) U)]. }
  assert (HT : T <-> T').
  { split; intros (_ & pf & m & sf & pk & com & d & P1 & P2 & P3 & P4); (split; [assumption|]); exists pf, m, sf, pk, com, d; unfold contents in *;
    [rewrite F1, F2, F3|rewrite <- F1, <- F2, <- F3]; auto. }
  assert (N : ~ (A /\ T)).
  { intros [Y Z]. unfold A, T, signature_name in Y, Z. rewrite <- sign_name in Y, Z. apply (proj2 (Verify_ok_iff C _ _ _ w)) in Y. destruct Y as (y & Y).
    apply (proj2 (Verify_panic_iff C _ _ _ w)) in Z. rewrite Y in Z. discriminate Z. }
  destruct X as (_ & _ & _ & X), X' as (_ & _ & _ & X').
  destruct X as [(-> & X & _)|[(-> & X & X2 & _)|(-> & X & _)]], X' as [(-> & X' & _)|[(-> & X' & X2' & _)|(-> & X' & _)]]; try reflexivity; exfalso; tauto.
Qed.

(* ---- a history, computed ---- *)
Definition avoids (u : userInfo) (args : list bytes) (p : path) : bool :=
  match flagParse args with
  | Malformed _ => true
  | Parsed f _ =>
      let k := or_default (f_p f) (defaultKeyBase u) (str ".pub") in
      if f_G f then negb (bytes_eqb p (k ++ str ".sec")) && negb (bytes_eqb p (k ++ str ".pub"))
      else if f_S f then negb (bytes_eqb p (name_or (f_x f) (f_m f) (str ".sig")))
      else if f_V f then true
      else if f_E f then negb (bytes_eqb p (name_or (f_c f) (f_m f) (str ".enc")))
      else if f_D f then negb (bytes_eqb p (f_m f)) else true
  end.
Lemma avoids_spares u args p : avoids u args p = true -> forall ss rest, command_line ss args rest -> stops rest -> ~ is_for u ss p.
Proof.
  unfold avoids. intros A ss rest Hc Hs F. destruct (flagParse_stops _ _ _ Hc Hs) as (r & E). rewrite E in A.
  cbn [flags_of f_s f_p f_G f_S f_V f_E f_D f_m f_x f_c f_n] in A. cbv zeta in A. destruct F as [M|M|M|M|M].
  - rewrite (mode_G_inv _ M) in A. unfold public_key in A. rewrite bytes_eqb_refl in A. discriminate A.
  - rewrite (mode_G_inv _ M) in A. unfold public_key in A. rewrite bytes_eqb_refl in A. rewrite andb_false_r in A. discriminate A.
  - destruct (mode_S_inv _ M) as (B1 & B2). rewrite B1, B2 in A. unfold signature_name, message_name in A. rewrite bytes_eqb_refl in A. discriminate A.
  - destruct (mode_E_inv _ M) as (B1 & B2 & B3 & B4). rewrite B1, B2, B3, B4 in A. unfold sealed_name, message_name in A. rewrite bytes_eqb_refl in A. discriminate A.
  - destruct (mode_D_inv _ M) as (B1 & B2 & B3 & B4 & B5). rewrite B1, B2, B3, B4, B5 in A. unfold message_name in A. rewrite bytes_eqb_refl in A. discriminate A.
Qed.
Definition avoided (p : path) (h : happening) : bool :=
  match h with Psignify u args _ => avoids u args p | Others ps => negb (existsb (bytes_eqb p) ps) end.
Lemma avoided_spares p l : forallb (avoided p) l = true -> spares p l.
Proof.
  intro A. rewrite forallb_forall in A. split.
  - intros u args n ss rest I. exact (avoids_spares u args p (A _ I) ss rest).
  - intros ps I X. specialize (A _ I). cbn in A. apply negb_true_iff in A. assert (E : existsb (bytes_eqb p) ps = true).
    { apply existsb_exists. exists p. split; [exact X|apply bytes_eqb_refl]. } rewrite E in A. discriminate A.
Qed.
