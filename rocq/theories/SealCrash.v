(* Seal interrupted: its mutations are the creation of the encrypted file and then only
   appends to it. *)
From Verif Require Import CmdFacts RoundTrip.
Import ListNotations.

(* w' is w after some writes to q *)
Definition appended (q : path) (w w' : world) : Prop :=
  exists ps, w_log w' = w_log w ++ map (EvAppend q) ps /\ w_fs w' = replay (w_fs w) (map (EvAppend q) ps).

Lemma appended_same q w w' : w_log w' = w_log w -> w_fs w' = w_fs w -> appended q w w'.
Proof. intros H1 H2. exists []. cbn [map]. rewrite app_nil_r. split; assumption. Qed.
Lemma appended_refl q w : appended q w w.
Proof. apply appended_same; reflexivity. Qed.
Lemma appended_trans q a b c : appended q a b -> appended q b c -> appended q a c.
Proof.
  intros (p1 & L1 & F1) (p2 & L2 & F2). exists (p1 ++ p2). rewrite map_app, replay_app, app_assoc, L2, L1, F2, F1. split; reflexivity.
Qed.
Lemma appended_write q b w : appended q w (snd (file_write q b w)).
Proof.
  destruct (file_write q b w) as [[n e] w'] eqn:E. destruct (file_write_frame _ _ _ _ _ _ E) as (x & r & _ & _ & F & L & _).
  exists [x]. cbn [map snd]. split; [exact L|]. rewrite F. reflexivity.
Qed.
Lemma appended_calls q cs : forall w, appended q w (snd (run_calls (file_write q) cs w)).
Proof.
  induction cs as [|c cs IH]; intro w; [apply appended_refl|]. cbn [run_calls].
  pose proof (appended_write q c w) as H. destruct (file_write q c w) as [[n [x|]] w1]; cbn [snd] in *; [exact H|].
  eapply appended_trans; [exact H|apply IH].
Qed.
Lemma appended_enc q b e w : appended q w (snd (snd (enc_write (file_write q) b (e, w)))).
Proof.
  unfold enc_write. cbn [fst snd]. destruct (enc_write_loop_plan (file_write q) b 0 e w) as (n1 & e1 & Hp). rewrite Hp.
  pose proof (appended_calls q (fst (enc_plan e b)) w) as H.
  destruct (run_calls (file_write q) (fst (enc_plan e b)) w) as [[x|] w1]; exact H.
Qed.
Lemma appended_close q e w : appended q w (snd (snd (enc_close (file_write q) (e, w)))).
Proof.
  destruct (enc_close_plan (file_write q) e w) as (e1 & Hp). rewrite Hp.
  pose proof (appended_calls q (close_plan e) w) as H.
  destruct (run_calls (file_write q) (close_plan e) w) as [[x|] w1]; exact H.
Qed.
Lemma appended_read q fd n w : appended q w (snd (file_read fd n w)).
Proof.
  apply appended_same; unfold file_read; rewrite pop_fault_eq; destruct (hd FOk (w_faults w)); try reflexivity;
    destruct (nth_error _ fd) as [[p off]|]; try reflexivity; destruct n; try reflexivity;
    match goal with |- context [match ?x with [] => _ | _ :: _ => _ end] => destruct x end; reflexivity.
Qed.

Section Loop.
Variables (C : Crypto) (fd : nat) (q : path) (shared : bytes).
Let step := seal_step C (enc * world) shared (lift_reader (file_read fd)) (enc_write (file_write q)).

Lemma appended_step i n e w : appended q w (final_world (step i (n, (e, w)))).
Proof.
  unfold step, seal_step, lift_reader. cbn [fst snd].
  pose proof (appended_read q fd chunk_nat w) as R. destruct (file_read fd chunk_nat w) as [[c [x|]|] w1]; cbn [snd] in R; try exact R.
  cbv zeta. pose proof (appended_enc q (box_seal C c n shared) e w1) as W.
  destruct (enc_write (file_write q) (box_seal C c n shared) (e, w1)) as [[k [x|]] [e2 w2]]; cbn [snd] in W.
  - eapply appended_trans; [exact R|exact W].
  - destruct (incrementNonce n) as [n2 [x|]]; (eapply appended_trans; [exact R|exact W]).
Qed.

Lemma appended_loop k : forall i n e w, appended q w (final_world (iter_loop k step i (n, (e, w)))).
Proof.
  induction k as [|k IH]; intros i n e w; cbn [iter_loop]; [apply appended_refl|].
  pose proof (appended_step i n e w) as S. destruct (step i (n, (e, w))) as [[n1 [e1 w1]]|[x s]]; [|exact S].
  eapply appended_trans; [exact S|apply IH].
Qed.
End Loop.

Lemma appended_seal C fd pub L q e w :
  appended q w (snd (snd (seal C (enc * world) lift_draw pub (lift_reader (file_read fd)) L (enc_write (file_write q)) (e, w)))).
Proof.
  unfold seal. destruct (L =? 0); [apply appended_refl|].
  destruct (pub_ToBox pub) as [edpub|x|]; [|apply appended_refl|apply appended_refl].
  rewrite lift_draw_eq. destruct (_ <? _)%nat; [apply appended_refl|]. cbv zeta.
  set (w1 := set_rng w _). assert (A : appended q w w1) by (apply appended_same; reflexivity).
  match goal with |- context [enc_write (file_write q) ?h (e, w1)] => pose proof (appended_enc q h e w1) as W;
    destruct (enc_write (file_write q) h (e, w1)) as [[k [x|]] [e2 w2]] end; cbn [snd] in W.
  - eapply appended_trans; [exact A|exact W].
  - rewrite for_loop_iter.
    match goal with |- context [iter_loop ?k (seal_step C _ ?sh _ _) 0 (?z, _)] =>
      pose proof (appended_loop C fd q sh k 0 z e2 w2) as S end.
    destruct (iter_loop _ _ _ _) as [[n3 [e3 w3]]|[x [e3 w3]]]; cbn [final_world snd] in *;
      (eapply appended_trans; [exact A|]; eapply appended_trans; [exact W|exact S]).
Qed.

Lemma appended_tail C fd pub L q w : appended q w (snd (seal_tail C fd pub L q w)).
Proof.
  unfold seal_tail. pose proof (appended_write q comment_text w) as H. destruct (file_write q comment_text w) as [[k [x|]] w1]; cbn [snd] in H; [exact H|].
  pose proof (appended_seal C fd pub L q NewEncoder w1) as S. destruct (seal _ _ _ _ _ _ _ _) as [r [e2 w2]]. cbn [snd] in S.
  pose proof (appended_close q e2 w2) as K. destruct (enc_close (file_write q) (e2, w2)) as [er [e3 w3]]. cbn [snd] in *.
  eapply appended_trans; [exact H|]. eapply appended_trans; [exact S|exact K].
Qed.

Lemma open_read_quiet p w : w_log (snd (open_read p w)) = w_log w /\ w_fs (snd (open_read p w)) = w_fs w.
Proof.
  unfold open_read. rewrite pop_fault_eq. change (w_fs (next w)) with (w_fs w).
  destruct (hd FOk (w_faults w)); [|split; reflexivity|]; destruct (w_fs w p); split; reflexivity.
Qed.
Lemma file_size_quiet fd w : w_log (snd (file_size fd w)) = w_log w /\ w_fs (snd (file_size fd w)) = w_fs w.
Proof.
  unfold file_size. rewrite pop_fault_eq. change (w_fs (next w)) with (w_fs w). change (w_fds (next w)) with (w_fds w).
  destruct (hd FOk (w_faults w)); [|split; reflexivity|]; destruct (nth_error (w_fds w) fd) as [[p off]|]; try (split; reflexivity);
    destruct (w_fs w p); split; reflexivity.
Qed.

(* what Seal does to the disk *)
Lemma Seal_log C pk mp ep w r w' : Seal C pk mp ep w = (r, w') -> let q := enc_path mp ep in
  (w_log w' = w_log w /\ w_fs w' = w_fs w) \/
  exists ps, w_log w' = w_log w ++ EvCreate q 438 :: map (EvAppend q) ps /\
    w_fs w' = replay (w_fs w) (EvCreate q 438 :: map (EvAppend q) ps).
Proof.
  intros H q. rewrite Seal_eq in H. fold q in H.
  destruct (LoadPublicKey pk w) as [r1 w1] eqn:E1. destruct (LoadPublicKey_inv _ _ _ _ E1) as (-> & NP1 & _).
  destruct r1 as [pub|e|]; [|injection H as <- <-; left; split; reflexivity|contradiction].
  destruct (open_read_quiet mp (next w)) as (L2 & F2). change (w_log (next w)) with (w_log w) in L2. change (w_fs (next w)) with (w_fs w) in F2. destruct (open_read mp (next w)) as [[fd|e|] w2]; cbn [snd] in *;
    [|injection H as <- <-; left; auto|injection H as <- <-; left; auto].
  destruct (file_size_quiet fd w2) as (L3 & F3). destruct (file_size fd w2) as [[L|e|] w3]; cbn [snd] in *;
    [|injection H as <- <-; left; split; congruence|injection H as <- <-; left; split; congruence].
  destruct (create_file_spec q 438 w3) as (r4 & w4 & E4 & _ & C4). rewrite E4 in H.
  destruct C4 as [(-> & -> & _)|(e & -> & -> & _)]; [|injection H as <- <-; left; split; [change (w_log (next w3)) with (w_log w3)|change (w_fs (next w3)) with (w_fs w3)]; rewrite ?L3, ?L2, ?F3, ?F2; reflexivity].
  right. pose proof (appended_tail C fd pub L q (do_create q 438 (next w3))) as (ps & A1 & A2). rewrite H in A1, A2. cbn [snd] in A1, A2.
  exists ps. split.
  - rewrite A1. cbn [w_log do_create emit set_fs next set_faults]. rewrite L3, L2, <- app_assoc. reflexivity.
  - rewrite A2. cbn [w_fs do_create emit set_fs next set_faults]. rewrite F3, F2. reflexivity.
Qed.

Lemma crash_nil fs fs' : crash_state fs [] fs' -> fs' = fs.
Proof.
  intros (dn & rest & E & Cr). destruct dn; [|discriminate]. destruct rest; [|discriminate].
  destruct Cr as [->|(p & b1 & b2 & rest' & X & _)]; [reflexivity|discriminate].
Qed.

Lemma crash_appends fs q m ps fs' : fs q = Some (File [] m) -> crash_state fs (map (EvAppend q) ps) fs' ->
  exists out, fs' q = Some (File out m) /\ is_prefix out (concat ps).
Proof.
  intros Hf (dn & rest & E & Cs). apply map_eq_app in E. destruct E as (p1 & p2 & -> & <- & E2).
  destruct Cs as [->|(p & b1 & b2 & rest' & -> & ->)].
  - exists (concat p1). split; [exact (replay_appends _ _ _ [] _ Hf)|]. exists (concat p2). apply concat_app.
  - destruct p2 as [|x p2]; [discriminate|]. injection E2 as <- -> _. exists (concat p1 ++ b1). split.
    + rewrite replay_app. change (replay ?f [EvAppend q b1]) with (fs_append f q b1).
      rewrite fs_append_same, (replay_appends _ _ _ [] _ Hf). reflexivity.
    + exists (b2 ++ concat p2). rewrite concat_app. cbn [concat]. rewrite <- !app_assoc. reflexivity.
Qed.

Lemma Seal_crash C pk mp ep w r w' evs fs' : Seal C pk mp ep w = (r, w') ->
  w_log w' = w_log w ++ evs -> crash_state (w_fs w) evs fs' ->
  let q := enc_path mp ep in
  (forall x, x <> q -> fs' x = w_fs w x /\ w_fs w' x = w_fs w x) /\
  (fs' q = w_fs w q \/
   exists out d, fs' q = Some (File out (file_mode (w_fs w) q 438)) /\
     w_fs w' q = Some (File d (file_mode (w_fs w) q 438)) /\ is_prefix out d).
Proof.
  intros H L Hcr q. destruct (Seal_log _ _ _ _ _ _ _ H) as [(L' & F)|(ps & L' & F)]; rewrite L in L'.
  { rewrite <- (app_nil_r (w_log w)) in L' at 2. apply app_inv_head in L'. subst evs. rewrite (crash_nil _ _ Hcr), F. auto. }
  apply app_inv_head in L'. subst evs. fold q in F, Hcr.
  change (EvCreate q 438 :: map (EvAppend q) ps) with (EvCreate q 438 :: [] ++ map (EvAppend q) ps) in Hcr.
  assert (Fc : fs_create (w_fs w) q 438 q = Some (File [] (file_mode (w_fs w) q 438))) by (rewrite fs_create_same; reflexivity).
  change (replay (w_fs w) (EvCreate q 438 :: map (EvAppend q) ps)) with (replay (fs_create (w_fs w) q 438) (map (EvAppend q) ps)) in F.
  assert (Oth : forall x, x <> q -> w_fs w' x = w_fs w x).
  { intros x Hx. rewrite F, replay_appends_other by exact Hx. apply fs_create_other, Hx. }
  destruct (crash_open _ _ _ _ _ (Forall_nil _) Hcr) as [->|Hcr2]; [split; auto|].
  split.
  - intros x Hx. split; [|apply Oth, Hx].
    rewrite (crash_other (fs_create (w_fs w) q 438) q (map (EvAppend q) ps) fs' x); [apply fs_create_other, Hx|..|exact Hx|exact Hcr2].
    + intros q' b Hin. apply in_map_iff in Hin. destruct Hin as (y & E & _). injection E as <- _. reflexivity.
    + intros q' b Hin. apply in_map_iff in Hin. destruct Hin as (y & E & _). discriminate.
  - right. destruct (crash_appends _ _ _ _ _ Fc Hcr2) as (out & Fo & Po). exists out, (concat ps).
    split; [exact Fo|]. split; [rewrite F; exact (replay_appends _ _ _ [] _ Fc)|exact Po].
Qed.

(* the first part of a text with a comment line *)
Lemma prefix_comment t out rest : comment_text ++ t = out ++ rest ->
  lf_free out \/ exists t1, out = comment_text ++ t1 /\ t = t1 ++ rest.
Proof.
  destruct comment_split as (c & Ec & Hc). intro E.
  destruct (Nat.le_gt_cases (length comment_text) (length out)) as [G|G].
  - right. exists (skipn (length comment_text) out).
    pose proof (f_equal (firstn (length comment_text)) E) as E1. rewrite firstn_app, firstn_all, Nat.sub_diag in E1. cbn [firstn] in E1.
    rewrite app_nil_r, firstn_app in E1. replace (length comment_text - length out)%nat with 0%nat in E1 by lia. cbn [firstn] in E1. rewrite app_nil_r in E1.
    pose proof (f_equal (skipn (length comment_text)) E) as E2. rewrite skipn_app, skipn_all, Nat.sub_diag in E2. cbn [skipn app] in E2.
    rewrite skipn_app in E2. replace (length comment_text - length out)%nat with 0%nat in E2 by lia. cbn [skipn] in E2.
    split; [|exact E2]. transitivity (firstn (length comment_text) out ++ skipn (length comment_text) out); [symmetry; apply firstn_skipn|]. f_equal. symmetry. exact E1.
  - left. rewrite Ec, <- app_assoc in E. cbn [app] in E. rewrite Ec, app_length in G. cbn [length] in G.
    pose proof (f_equal (firstn (length out)) E) as E1. rewrite !firstn_app, firstn_all, Nat.sub_diag in E1. cbn [firstn] in E1. rewrite app_nil_r in E1.
    replace (length out - length c)%nat with 0%nat in E1 by lia. cbn [firstn] in E1. rewrite app_nil_r in E1.
    rewrite <- E1. unfold lf_free in *. intros Hin. apply Hc. rewrite <- (firstn_skipn (length out) c). apply in_or_app. left. exact Hin.
Qed.

(* opening what a crash of Seal left *)
Lemma seal_crash_open C k pass opts w w1 v m mp ep :
  LengthLaws C -> BoxTidy C -> BoxCorrect C -> DHCorrect C -> ToBoxAgree C ->
  GenerateKey C k pass opts w = (Ok tt, w1) -> not_mistaken C pass opts (w_rng w) ->
  w_fs v (sec_path k) = w_fs w1 (sec_path k) -> w_fs v (pub_path k) = w_fs w1 (pub_path k) ->
  contents v mp m -> m <> [] -> Z.of_nat (length m) < 2 ^ 63 -> no_faults v -> (32 <= length (w_rng v))%nat ->
  let q := enc_path mp ep in
  q <> mp -> q <> sec_path k ->
  exists v1 evs pf pub edpub, Seal C (pub_path k) mp ep v = (Ok tt, v1) /\ w_log v1 = w_log v ++ evs /\
    contents v (pub_path k) pf /\ readPublicKeyFile pf = Ok pub /\ pub_ToBox pub = Ok edpub /\
    forall fs', crash_state (w_fs v) evs fs' ->
    (forall x, x <> q -> fs' x = w_fs v x) /\
    (fs' q = w_fs v q \/
     exists out d, fs' q = Some (File out (file_mode (w_fs v) q 438)) /\ contents v1 q d /\ is_prefix out d /\
     forall v' v2 to, w_fs v' = fs' -> (pass <> [] -> exists tl, w_tty v' = Ok pass :: tl) ->
       to <> q -> Open C (sec_path k) q to v' = (Ok tt, v2) ->
       contents v2 to m \/
       exists ms j piece c m', full_pieces ms /\ concat ms = m /\ nth_error ms j = Some piece /\
         truncated_box C (box_precompute C edpub (firstn 32 (w_rng v))) (Z.of_nat j) piece c m').
Proof.
  intros LL BT BC DH TB G Hm Fs Fp Cm Hne Hsz Hn Lr q Hq1 Hq2.
  destruct (GenerateKey_success _ _ _ _ _ _ LL G) as (priv & pub & w0 & GK & S1 & S2 & R1 & R2).
  destruct (generate_pair _ _ _ _ _ _ _ LL GK) as [[(A1 & A2 & A3) (N1 & N2) _ P1 _ _ _] _].
  pose proof (generate_inv _ _ _ _ _ _ LL GK) as [Lrng _].
  pose proof (generated_unlock C pass opts w priv pub w0) as GU.
  destruct (GU (repeat (Ok pass) 1) LL GK ltac:(intros _; exists []; reflexivity) Hm) as (p0 & _ & Kp0).
  set (seed := slice 0 32 (w_rng w)) in *.
  assert (Ls : length seed = 32%nat) by (unfold seed, slice; rewrite firstn_length, skipn_length; lia).
  assert (TBp : pub_ToBox pub = Ok (x25519_base C (box_secret C (key p0)))).
  { rewrite Kp0, <- (TB (p_keyNum pub) seed Ls). f_equal. destruct pub. cbn in *. congruence. }
  destruct (pieces_exist m) as (ms & Hfp & Hcat).
  assert (Cpk : contents v (pub_path k) (pub_file pub)) by (eexists; rewrite Fp; exact S2).
  destruct (Seal_runs C (pub_path k) mp ep v (pub_file pub) pub m _ ms Hn Cpk R2 TBp Cm Hne Hsz Hq1 Lr Hfp Hcat)
    as (v1 & Es & Nf1 & Rng1 & Fr1 & Tt1 & Bf1 & Fq).
  fold q in Fr1, Fq. set (epriv := firstn 32 (w_rng v)) in *. set (epub := x25519_base C epriv) in *.
  assert (Le : length epriv = 32%nat) by (unfold epriv; rewrite firstn_length; lia).
  pose proof (DH (box_secret C (key p0)) epriv (box_secret_length _ _) Le) as DH0. fold epub in DH0. rewrite DH0 in Fq.
  assert (Lep : length epub = 32%nat) by (apply len_x25519; exact LL).
  assert (Hlen : 0 <= Z.of_nat (length ms) < 2 ^ 64).
  { rewrite full_pieces_count, Hcat by exact Hfp. pose proof (ceil_bound (Z.of_nat (length m)) ltac:(lia)). lia. }
  set (body := sealed_body C (box_precompute C epub (box_secret C (key p0))) epub ms) in *.
  assert (Lg : exists evs, w_log v1 = w_log v ++ evs).
  { destruct (Seal_log _ _ _ _ _ _ _ Es) as [(L' & _)|(ps & L' & _)]; [exists []; rewrite app_nil_r; exact L'|eexists; exact L']. }
  destruct Lg as (evs & Lg). exists v1, evs, (pub_file pub), pub, (x25519_base C (box_secret C (key p0))). split; [exact Es|]. split; [exact Lg|].
  split; [exact Cpk|]. split; [exact R2|]. split; [exact TBp|]. rewrite DH0. intros fs' Hcr.
  destruct (Seal_crash _ _ _ _ _ _ _ _ _ Es Lg Hcr) as (Oth & Cs). fold q in Oth, Cs.
  split; [intros x Hx; apply Oth, Hx|].
  destruct Cs as [Cs|(out & d & Fo & Fd & Pd)]; [left; exact Cs|right]. rewrite Fq in Fd. injection Fd as <-.
  exists out, (sealed_file body). split; [exact Fo|]. split; [eexists; exact Fq|]. split; [exact Pd|].
  intros v' v2 to Fv Ht Hto Ho. destruct Pd as (rest & Er). unfold sealed_file in Er.
  assert (Cq : contents v' q out) by (eexists; rewrite Fv; exact Fo).
  destruct (prefix_comment _ _ _ Er) as [Lf|(t1 & -> & Et)].
  { exfalso. destruct (Open_early C (sec_path k) q to v' _ _ BT ltac:(intro X; apply Hto; symmetry; exact X) Ho) as (_ & _ & e & X); [|discriminate].
    right. intros d0 Cd0. rewrite (contents_fun _ _ _ _ Cd0 Cq). exact Lf. }
  destruct (GU (w_tty v') LL GK Ht Hm) as (p & U & Kp).
  assert (Kpp : key p = key p0) by congruence.
  assert (Csk : contents v' (sec_path k) (sec_file priv)).
  { eexists. rewrite Fv, (proj1 (Oth _ (fun X => Hq2 (eq_sym X)))), Fs. exact S1. }
  assert (Rec : recipient C v' (sec_path k) p) by (exists (sec_file priv), priv; auto).
  unfold body in Et. rewrite <- Kpp in *.
  destruct (no_lf rest) as [|z zs] eqn:Nr.
  - left. destruct (Open_sound _ _ _ _ _ _ BT ltac:(intro X; apply Hto; symmetry; exact X) Ho) as (kf & priv' & d & m2 & Ck & Rk & Cd & Ot & C2 & _).
    enough (m2 = m) as -> by exact C2.
    destruct Ot as (c & t' & p' & h & ms' & Ed & Hc & U' & Ah & A & Cn & ->).
    rewrite (contents_fun _ _ _ _ Cd Cq) in Ed. pose proof (comment_unique _ _ _ Ed Hc) as ->.
    pose proof (recipient_unique _ _ _ _ _ _ _ Rec Ck Rk U') as ->.
    destruct (sealed_text C (box_secret C (key p)) epub ms t1 [] LL Lep Hfp (or_introl eq_refl)) as (T1 & T2 & T3).
    { rewrite app_nil_r, <- no_lf_encoded, Et, no_lf_app, Nr, app_nil_r. reflexivity. }
    destruct T1 as (T1 & T1b & T1c). destruct Ah as (B1 & B1b & B1c). rewrite T1 in B1. injection B1 as B1a.
    rewrite B1a in *.
    assert (Cn2 : count_of h = Z.of_nat (length ms)) by (rewrite <- B1a; apply count_of_header; assumption).
    pose proof T3 as T3x. rewrite <- T2 in T3x.
    destruct (authentic_unique C _ BC ms' ms 0 (body_text t1) A T3x ltac:(lia)) as (r & Er2).
    assert (r = []) as -> by (destruct r; [reflexivity|]; apply (f_equal (@length bytes)) in Er2; rewrite app_length in Er2; cbn [length] in Er2; lia).
    rewrite app_nil_r in Er2. subst ms'. exact Hcat.
  - right. destruct (Open_truncated C (sec_path k) q to v' v2 p epub ms t1 rest LL BT ltac:(intro X; apply Hto; symmetry; exact X) Rec Lep Hfp ltac:(lia) Et
      ltac:(rewrite Nr; discriminate) Cq Ho) as (j & piece & c & m' & H1 & H2 & _).
    exists ms, j, piece, c, m'. auto.
Qed.
