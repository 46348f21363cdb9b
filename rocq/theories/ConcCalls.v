(* Calls of the library at work on one file system at the same time. *)
From Verif Require Import SealOpen CmdFacts RoundTrip SignFacts ConcGen ConcFacts SpecConc Torn SealCrash SealFacts OpenFacts.
Local Open Scope Z_scope.

(* ---- what the calls do to the disk ---- *)
Lemma opened_appends q ps : forall op, In q op -> opened_first op (map (EvAppend q) ps).
Proof. induction ps as [|p ps IH]; intros op H; [exact I|]. split; [exact H|apply IH, H]. Qed.
Lemma opened_app a : forall op b, opened_first op a -> (forall op', (forall x, In x op -> In x op') -> opened_first op' b) -> opened_first op (a ++ b).
Proof.
  induction a as [|e a IH]; intros op b Ha Hb; [apply Hb; auto|]. destruct e; cbn [opened_first app] in *.
  - apply IH; [exact Ha|]. intros op' H. apply Hb. intros x Hx. apply H. right. exact Hx.
  - destruct Ha as [H Ha]. split; [exact H|]. apply IH; assumption.
  - apply IH; assumption.
  - apply IH; assumption.
Qed.
Lemma opened_outs op outs b : Forall is_out outs -> opened_first op b -> opened_first op (outs ++ b).
Proof.
  intros H Hb. induction H as [|e l He H IH]; [exact Hb|]. destruct e; try contradiction He; exact IH.
Qed.

Lemma write_opened p d mode evs ok op : write_events p d mode evs ok -> opened_first op evs.
Proof.
  intros [[_ ->]|[(_ & d1 & d2 & _ & ->)| ->]]; cbn [opened_first]; auto. all: split; [left; reflexivity|exact I].
Qed.

Lemma generate_opened C k pass opts w r w' evs : GenerateKey C k pass opts w = (r, w') -> w_log w' = w_log w ++ evs ->
  opened_first [] evs /\ w_fs w' = replay (w_fs w) evs.
Proof.
  intros H L. destruct (GenerateKey_spec _ _ _ _ _ _ _ H) as (_ & [(e & _ & _ & F & L')|(priv & pub & w1 & evs1 & evs2 & ok1 & _ & W1 & W2 & L' & F)]); rewrite L in L'.
  - rewrite <- (app_nil_r (w_log w)) in L' at 2. apply app_inv_head in L'. subst evs. split; [exact I|exact F].
  - apply app_inv_head in L'. subst evs. split; [|exact F]. apply opened_app; [apply (write_opened _ _ _ _ _ _ W1)|].
    intros op' _. destruct W2 as [(_ & -> & _)|(_ & W2)]; [exact I|apply (write_opened _ _ _ _ _ _ W2)].
Qed.

Lemma seal_opened C pk mp ep w r w' evs : Seal C pk mp ep w = (r, w') -> w_log w' = w_log w ++ evs ->
  opened_first [] evs /\ w_fs w' = replay (w_fs w) evs.
Proof.
  intros H L. destruct (Seal_log _ _ _ _ _ _ _ H) as [(L' & F)|(ps & L' & F)]; rewrite L in L'.
  - rewrite <- (app_nil_r (w_log w)) in L' at 2. apply app_inv_head in L'. subst evs. split; [exact I|exact F].
  - apply app_inv_head in L'. subst evs. split; [|exact F]. apply (opened_appends (enc_path mp ep) ps [enc_path mp ep]). left. reflexivity.
Qed.

Lemma sign_opened C k mp s w r w' evs : Sign C k mp s w = (r, w') -> w_log w' = w_log w ++ evs ->
  opened_first [] evs /\ w_fs w' = replay (w_fs w) evs.
Proof.
  intros H L. destruct (Sign_log _ _ _ _ _ _ _ H) as (outs & ev & O & L' & F & D). rewrite L in L'. apply app_inv_head in L'. subst evs.
  rewrite replay_app, (replay_outs _ outs O). split; [|exact F]. apply opened_outs; [exact O|].
  destruct D as [->|(p & m & ok & _ & W)]; [exact I|apply (write_opened _ _ _ _ _ _ W)].
Qed.

Lemma open_opened C sk ep mp w r w' evs : BoxTidy C -> ep <> mp -> Open C sk ep mp w = (r, w') -> w_log w' = w_log w ++ evs ->
  opened_first [] evs /\ w_fs w' = replay (w_fs w) evs.
Proof.
  intros BT Hne H L. destruct (Open_spec _ _ _ _ _ _ _ H Hne BT) as (_ & ev & L' & F & D). rewrite L in L'. apply app_inv_head in L'. subst ev.
  split; [|exact F]. destruct D as [(-> & _)|(kf & priv & d & c & t & outs & evs2 & _ & _ & _ & _ & _ & _ & -> & O & D)]; [exact I|].
  cbn [opened_first]. apply opened_outs; [exact O|]. destruct D as [(-> & _)|(p & h & ms & _ & _ & W & _)]; [exact I|].
  destruct (written_in _ _ _ _ _ _ W) as (ps & ->). apply opened_appends. left. reflexivity.
Qed.

Lemma verify_opened C k mp s w r w' evs : Verify C k mp s w = (r, w') -> w_log w' = w_log w ++ evs ->
  evs = [] /\ w_fs w' = w_fs w.
Proof.
  intros H L. destruct (Verify_world _ _ _ _ _ _ _ H) as (fl & ->). cbn in *. split; [|reflexivity].
  rewrite <- (app_nil_r (w_log w)) in L at 1. apply app_inv_head in L. symmetry. exact L.
Qed.

(* ---- any calls at the same time ---- *)
Inductive call :=
| CGenerate (k : path) (pass : bytes) (opts : option Z)
| CSign (sk msg sig : path)
| CVerify (pk msg sig : path)
| CSeal (pk msg enc : path)
| COpen (sk enc msg : path).
Definition run_call (C : Crypto) (c : call) (w : world) : res unit * world :=
  match c with
  | CGenerate k pass opts => GenerateKey C k pass opts w
  | CSign sk m s => Sign C sk m s w
  | CVerify pk m s => Verify C pk m s w
  | CSeal pk m e => Seal C pk m e w
  | COpen sk e m => Open C sk e m w
  end.
(* a call that ran on the files fs: Open must not write over the file it reads *)
Record run := Run { r_call : call; r_start : world; r_res : res unit; r_end : world; r_log : list event }.
Definition ran (C : Crypto) (fs : path -> option file) (r : run) : Prop :=
  run_call C (r_call r) (r_start r) = (r_res r, r_end r) /\ w_fs (r_start r) = fs /\
  w_log (r_end r) = w_log (r_start r) ++ r_log r /\
  match r_call r with COpen _ e m => e <> m | _ => True end.

Lemma ran_opened C fs r : BoxTidy C -> ran C fs r -> opened_first [] (r_log r) /\ w_fs (r_end r) = replay fs (r_log r).
Proof.
  intros BT (H & Hf & L & Hc). rewrite <- Hf. destruct (r_call r) as [k pass opts|sk m s|pk m s|pk m e|sk e m]; cbn [run_call] in H.
  - apply (generate_opened _ _ _ _ _ _ _ _ H L).
  - apply (sign_opened _ _ _ _ _ _ _ _ H L).
  - destruct (verify_opened _ _ _ _ _ _ _ _ H L) as [-> ->]. split; [exact I|reflexivity].
  - apply (seal_opened _ _ _ _ _ _ _ _ H L).
  - apply (open_opened _ _ _ _ _ _ _ _ BT Hc H L).
Qed.

(* the files a call may write *)
Definition outputs (c : call) : list path :=
  match c with
  | CGenerate k _ _ => [sec_path k; pub_path k]
  | CSign _ m s => [sigPathOf m s]
  | CVerify _ _ _ => []
  | CSeal _ m e => [enc_path m e]
  | COpen _ _ m => [m]
  end.

Lemma writes_app a b x : writes (a ++ b) x -> writes a x \/ writes b x.
Proof. intros (d & m & [H|H]); apply in_app_or in H; destruct H as [H|H]; [left|right|left|right]; exists d, m; auto. Qed.
Lemma writes_events p d m evs ok x : write_events p d m evs ok -> writes evs x -> x = p.
Proof.
  intros W (b & mo & H). destruct W as [[_ ->]|[(_ & d1 & d2 & _ & ->)| ->]]; cbn [In] in H; intuition congruence.
Qed.
Lemma writes_outs outs x : Forall is_out outs -> ~ writes outs x.
Proof. intros O (b & mo & [H|H]); rewrite Forall_forall in O; apply O in H; destruct H. Qed.
Lemma writes_appends q ps x : writes (map (EvAppend q) ps) x -> x = q.
Proof. intros (b & mo & [H|H]); apply in_map_iff in H; destruct H as (y & H & _); congruence. Qed.
Lemma log_nil (l evs : list event) : l = l ++ evs -> evs = [].
Proof. intro H. rewrite <- (app_nil_r l) in H at 1. apply app_inv_head in H. symmetry. exact H. Qed.
Lemma writes_nil x : ~ writes [] x.
Proof. intros (b & mo & [[]|[]]). Qed.
Lemma writes_cons e l x : writes (e :: l) x -> writes [e] x \/ writes l x.
Proof. apply (writes_app [e] l x). Qed.
Lemma writes_create p m x : writes [EvCreate p m] x -> x = p.
Proof. intros (b & mo & [[H|[]]|[H|[]]]); congruence. Qed.

Lemma ran_writes C fs r x : BoxTidy C -> ran C fs r -> writes (r_log r) x -> In x (outputs (r_call r)).
Proof.
  intros BT (H & _ & L & Hc) W. destruct (r_call r) as [k pass opts|sk m s|pk m s|pk m e|sk e m]; cbn [run_call outputs] in *.
  - destruct (GenerateKey_spec _ _ _ _ _ _ _ H) as (_ & [(e & _ & _ & F & L')|(priv & pub & w1 & evs1 & evs2 & ok1 & _ & W1 & W2 & L' & F)]); rewrite L' in L.
    + apply log_nil in L. rewrite L in W. destruct (writes_nil _ W).
    + apply app_inv_head in L. rewrite <- L in W. apply writes_app in W. destruct W as [W|W].
      * left. symmetry. apply (writes_events _ _ _ _ _ _ W1 W).
      * destruct W2 as [(_ & E & _)|(_ & W2)]; [rewrite E in W; destruct (writes_nil _ W)|]. right. left. symmetry. apply (writes_events _ _ _ _ _ _ W2 W).
  - destruct (Sign_log _ _ _ _ _ _ _ H) as (outs & ev & O & L' & F & D). rewrite L in L'. apply app_inv_head in L'. rewrite L' in W.
    apply writes_app in W. destruct W as [W|W]; [destruct (writes_outs _ _ O W)|]. destruct D as [E|(p & d & ok & _ & D)].
    + rewrite E in W. destruct (writes_nil _ W).
    + left. symmetry. apply (writes_events _ _ _ _ _ _ D W).
  - destruct (verify_opened _ _ _ _ _ _ _ _ H L) as [E _]. rewrite E in W. destruct (writes_nil _ W).
  - left. symmetry. destruct (Seal_log _ _ _ _ _ _ _ H) as [(L' & F)|(ps & L' & F)]; rewrite L in L'.
    + symmetry in L'. apply log_nil in L'. rewrite L' in W. destruct (writes_nil _ W).
    + apply app_inv_head in L'. rewrite L' in W. apply writes_cons in W. destruct W as [W|W]; [apply (writes_create _ _ _ W)|apply (writes_appends _ _ _ W)].
  - left. symmetry. destruct (Open_spec _ _ _ _ _ _ _ H Hc BT) as (_ & ev & L' & F & D). rewrite L in L'. apply app_inv_head in L'. rewrite L' in W.
    destruct D as [(E & _)|(kf & priv & d & c & t & outs & evs2 & _ & _ & _ & _ & _ & _ & E & O & D)].
    + rewrite E in W. destruct (writes_nil _ W).
    + rewrite E in W. apply writes_cons in W. destruct W as [W|W]; [apply (writes_create _ _ _ W)|].
      apply writes_app in W. destruct W as [W|W]; [destruct (writes_outs _ _ O W)|]. destruct D as [(E2 & _)|(p & h & ms & _ & _ & D & _)].
      * rewrite E2 in W. destruct (writes_nil _ W).
      * destruct (written_in _ _ _ _ _ _ D) as (ps & E2). rewrite E2 in W. apply (writes_appends _ _ _ W).
Qed.

Lemma at_once C fs runs l : BoxTidy C -> Forall (ran C fs) runs -> interleaving (map (fun r => process (r_log r)) runs) l ->
  (forall x, (forall r, In r runs -> ~ In x (outputs (r_call r))) -> acts fs l x = fs x) /\
  (forall pre r post x, runs = pre ++ r :: post -> (forall r', In r' pre \/ In r' post -> ~ In x (outputs (r_call r'))) ->
     acts fs l x = w_fs (r_end r) x).
Proof.
  intros BT R H. rewrite Forall_forall in R. rewrite <- (map_map r_log process) in H. split.
  - intros x N. apply (untouched _ _ _ _ H). intros evs He. apply in_map_iff in He. destruct He as (r & <- & Hr). intro W.
    apply (N r Hr), (ran_writes C fs r x BT (R r Hr) W).
  - intros pre r post x -> N. destruct (ran_opened C fs r BT) as [O ->]; [apply R, in_or_app; right; left; reflexivity|].
    apply (sole_writer _ _ _ (map r_log pre) (r_log r) (map r_log post) x H); [rewrite map_app; reflexivity| |exact O].
    assert (K : forall r', In r' pre \/ In r' post -> ran C fs r').
    { intros r' [Hr|Hr]; apply R, in_or_app; [left; exact Hr|right; right; exact Hr]. }
    intros e He W. assert (X : exists r', (In r' pre \/ In r' post) /\ r_log r' = e).
    { destruct He as [He|He]; apply in_map_iff in He; destruct He as (r' & E & Hr); exists r'; auto. }
    destruct X as (r' & Hr & <-). apply (N r' Hr), (ran_writes C fs r' x BT (K r' Hr) W).
Qed.

Lemma alone C fs r : BoxTidy C -> ran C fs r -> forall x, acts fs (process (r_log r)) x = w_fs (r_end r) x.
Proof. intros BT R x. destruct (ran_opened C fs r BT R) as [O ->]. apply process_alone, O. Qed.
