From Verif Require Import SpecConc GenFacts.
From Coq Require Import Lia.

(* ---- one file at a time ---- *)
Definition act1 (o : option file) (a : fsop) : option file :=
  match a with
  | ATrunc _ mode => Some (File [] (match o with Some f => f_mode f | None => mode end))
  | AWrite _ off b => match o with Some f => Some (File (write_at (f_data f) off b) (f_mode f)) | None => None end
  end.
Definition on (x : path) (a : fsop) : bool := bytes_eqb x (target a).

Lemma acts_at l : forall fs x, acts fs l x = fold_left act1 (filter (on x) l) (fs x).
Proof.
  induction l as [|a l IH]; intros fs x; [reflexivity|]. change (acts fs (a :: l)) with (acts (act fs a) l).
  rewrite IH. cbn [filter]. unfold on at 2. destruct (bytes_eqb x (target a)) eqn:E; cbn [fold_left].
  - apply bytes_eqb_eq in E. subst x. f_equal. destruct a; cbn [act target act1]; unfold fs_create; rewrite bytes_eqb_refl; reflexivity.
  - f_equal. destruct a; cbn [act target] in *; unfold fs_create; rewrite E; reflexivity.
Qed.

Lemma il_filter {A} (f : A -> bool) ls l : interleaving ls l -> interleaving (map (filter f) ls) (filter f l).
Proof.
  induction 1 as [ls H|pre a l post rest H IH].
  - apply il_done. induction H as [|x ls -> H IH]; constructor; [reflexivity|exact IH].
  - rewrite map_app in *. cbn [map filter] in *. destruct (f a); [apply il_step; exact IH|exact IH].
Qed.

Lemma il_in {A} (ls : list (list A)) l a : interleaving ls l -> In a l -> exists l0, In l0 ls /\ In a l0.
Proof.
  induction 1 as [ls H|pre b l post rest H IH]; intro Hin; [destruct Hin|]. destruct Hin as [->|Hin].
  - exists (a :: l). split; [apply in_or_app; right; left; reflexivity|left; reflexivity].
  - destruct (IH Hin) as (l0 & H1 & H2). apply in_app_or in H1. destruct H1 as [H1|[<-|H1]].
    + exists l0. split; [apply in_or_app; left; exact H1|exact H2].
    + exists (b :: l). split; [apply in_or_app; right; left; reflexivity|right; exact H2].
    + exists l0. split; [apply in_or_app; right; right; exact H1|exact H2].
Qed.

(* all lists but one empty *)
Lemma il_single {A} (ls : list (list A)) l : interleaving ls l -> forall pre l0 post, ls = pre ++ l0 :: post ->
  Forall (fun x => x = []) pre -> Forall (fun x => x = []) post -> l = l0.
Proof.
  induction 1 as [ls H|pre a l post rest H IH]; intros pre' l0 post' E F1 F2.
  - subst ls. apply Forall_app in H. destruct H as [_ H]. inversion H; subst. reflexivity.
  - assert (X : pre = pre' /\ a :: l = l0 /\ post = post').
    { clear H IH. revert pre' E F1. induction pre as [|x pre IHp]; intros [|y pre'] E F1; cbn [app] in E.
      - injection E as E1 E2. auto.
      - injection E as E1 E2. inversion F1; subst. discriminate.
      - injection E as E1 E2. subst. exfalso. rewrite Forall_forall in F2. specialize (F2 (a :: l) ltac:(apply in_or_app; right; left; reflexivity)). discriminate.
      - injection E as -> E. inversion F1; subst. destruct (IHp pre' E ltac:(assumption)) as (-> & E1 & E2). auto. }
    destruct X as (-> & <- & ->). f_equal. apply (IH pre' l post' eq_refl F1 F2).
Qed.

(* ---- a process alone ---- *)
Lemma write_at_end d b : write_at d (length d) b = d ++ b.
Proof.
  unfold write_at. rewrite Nat.sub_diag. cbn [repeat]. rewrite app_nil_r, firstn_all, skipn_all2 by lia. rewrite app_nil_r. reflexivity.
Qed.
Lemma write_at_over d b : (length d <= length b)%nat -> write_at d 0 b = b.
Proof. intro H. unfold write_at. cbn [firstn Nat.add app]. rewrite skipn_all2 by exact H. apply app_nil_r. Qed.

(* every write is to a file the process has opened before *)
Fixpoint opened_first (op : list path) (evs : list event) : Prop :=
  match evs with
  | [] => True
  | EvCreate p _ :: evs => opened_first (p :: op) evs
  | EvAppend p _ :: evs => In p op /\ opened_first op evs
  | _ :: evs => opened_first op evs
  end.

Lemma actions_alone evs : forall op offs fs fs2, opened_first op evs ->
  (forall p, In p op -> exists f, fs p = Some f /\ offs p = length (f_data f)) -> (forall x, fs2 x = fs x) ->
  forall x, acts fs2 (actions offs evs) x = replay fs evs x.
Proof.
  induction evs as [|e evs IH]; intros op offs fs fs2 Ho Hinv Heq x; [apply Heq|].
  destruct e as [p mode|p b|b|b]; cbn [actions opened_first] in *.
  - change (acts fs2 (ATrunc p mode :: ?l)) with (acts (fs_create fs2 p mode) l).
    change (replay fs (EvCreate p mode :: evs)) with (replay (fs_create fs p mode) evs).
    apply (IH (p :: op)); [exact Ho|..].
    + intros p0 Hp. destruct (bytes_eqb p0 p) eqn:E.
      * apply bytes_eqb_eq in E. subst p0. rewrite fs_create_same. eexists. split; [reflexivity|reflexivity].
      * assert (Hn : p0 <> p) by (intros ->; rewrite bytes_eqb_refl in E; discriminate).
        destruct Hp as [Hp|Hp]; [congruence|]. rewrite fs_create_other by exact Hn. apply Hinv, Hp.
    + intro y. unfold fs_create. rewrite !Heq. reflexivity.
  - destruct Ho as [Hp Ho]. destruct (Hinv p Hp) as (f & Ff & Of).
    change (acts fs2 (AWrite p (offs p) b :: ?l)) with (acts (act fs2 (AWrite p (offs p) b)) l).
    change (replay fs (EvAppend p b :: evs)) with (replay (fs_append fs p b) evs).
    apply (IH op); [exact Ho|..].
    + intros p0 Hp0. destruct (bytes_eqb p0 p) eqn:E.
      * apply bytes_eqb_eq in E. subst p0. rewrite fs_append_same, Ff. eexists. split; [reflexivity|].
        cbn [f_data]. rewrite app_length, Of. reflexivity.
      * rewrite fs_append_other by (intros ->; rewrite bytes_eqb_refl in E; discriminate). apply Hinv, Hp0.
    + intro y. cbn [act]. unfold fs_append. rewrite !Heq, Ff, Of, write_at_end. reflexivity.
  - apply (IH op offs fs fs2 Ho Hinv Heq).
  - apply (IH op offs fs fs2 Ho Hinv Heq).
Qed.
Lemma process_alone evs fs : opened_first [] evs -> forall x, acts fs (process evs) x = replay fs evs x.
Proof. intro H. apply (actions_alone evs [] (fun _ => 0%nat) fs fs H); [intros p []|reflexivity]. Qed.

(* ---- processes that share no file ---- *)
Definition writes (evs : list event) (x : path) : Prop :=
  exists b mode, In (EvCreate x mode) evs \/ In (EvAppend x b) evs.

Lemma actions_target evs : forall offs a, In a (actions offs evs) -> writes evs (target a).
Proof.
  induction evs as [|e evs IH]; intros offs a H; [destruct H|].
  assert (K : writes evs (target a) -> writes (e :: evs) (target a)).
  { intros (b & m & [X|X]); exists b, m; [left|right]; right; exact X. }
  destruct e as [p m|p b|b|b]; cbn [actions] in H; try (apply K, (IH _ _ H)).
  - destruct H as [<-|H]; [exists [], m; left; left; reflexivity|apply K, (IH _ _ H)].
  - destruct H as [<-|H]; [exists b, 0; right; left; reflexivity|apply K, (IH _ _ H)].
Qed.
Lemma no_actions evs x offs : ~ writes evs x -> filter (on x) (actions offs evs) = [].
Proof.
  intro H. assert (X : forall a, In a (actions offs evs) -> on x a = false).
  { intros a Ha. unfold on. destruct (bytes_eqb x (target a)) eqn:E; [|reflexivity]. apply bytes_eqb_eq in E. subst x.
    exfalso. apply H, (actions_target _ _ _ Ha). }
  induction (actions offs evs) as [|a l IH]; [reflexivity|]. cbn [filter]. rewrite (X a) by (left; reflexivity). apply IH.
  intros b Hb. apply X. right. exact Hb.
Qed.

Lemma untouched logs fs l x : interleaving (map process logs) l -> (forall evs, In evs logs -> ~ writes evs x) ->
  acts fs l x = fs x.
Proof.
  intros H N. rewrite acts_at. apply (il_filter (on x)) in H. rewrite map_map in H.
  enough (filter (on x) l = []) as -> by reflexivity.
  destruct (filter (on x) l) as [|a r] eqn:E; [reflexivity|]. exfalso.
  destruct (il_in _ _ a H ltac:(left; reflexivity)) as (l0 & H1 & H2). apply in_map_iff in H1. destruct H1 as (evs & <- & Hin).
  unfold process in H2. rewrite no_actions in H2 by apply N, Hin. destruct H2.
Qed.

Lemma sole_writer logs fs l pre evs post x : interleaving (map process logs) l -> logs = pre ++ evs :: post ->
  (forall e, In e pre \/ In e post -> ~ writes e x) -> opened_first [] evs ->
  acts fs l x = replay fs evs x.
Proof.
  intros H -> N Ho. rewrite <- (process_alone evs fs Ho), !acts_at. f_equal.
  apply (il_filter (on x)) in H. rewrite map_map, map_app in H. cbn [map] in H.
  apply (il_single _ _ H _ _ _ eq_refl); apply Forall_forall; intros y Hy; apply in_map_iff in Hy; destruct Hy as (e & <- & He);
    apply no_actions, N; auto.
Qed.

(* ---- processes that each write the whole of one file, of the same length ---- *)
Definition whole (x : path) (L : nat) (d : bytes) (l : list fsop) : Prop :=
  length d = L /\ exists mode, l = [ATrunc x mode; AWrite x 0 d].
Definition halfway (x : path) (L : nat) (P : bytes -> Prop) (l : list fsop) : Prop :=
  l = [] \/ (exists d, P d /\ whole x L d l) \/ (exists d, P d /\ length d = L /\ l = [AWrite x 0 d]).

Lemma mix_started x L P ls l : interleaving ls l -> Forall (halfway x L P) ls -> forall o,
  (exists f, o = Some f /\ (length (f_data f) <= L)%nat /\ ((exists d, P d /\ d = f_data f) \/ l <> [])) ->
  exists f, fold_left act1 l o = Some f /\ P (f_data f) /\ f_mode f = match o with Some g => f_mode g | None => 0 end.
Proof.
  induction 1 as [ls H|pre a l post rest H IH]; intros F o (f & -> & Lf & D).
  - exists f. split; [reflexivity|]. split; [|reflexivity]. destruct D as [(d & Hd & ->)|D]; [exact Hd|contradiction D; reflexivity].
  - apply Forall_app in F. destruct F as [F1 F2]. inversion F2 as [|? ? Fa F3]; subst. cbn [fold_left].
    destruct Fa as [Fa|[(d & Hd & Ld & mode & E)|(d & Hd & Ld & E)]]; [discriminate| |].
    + injection E as -> ->. cbn [act1].
      destruct (IH ltac:(apply Forall_app; split; [exact F1|constructor; [right; right; exists d; auto|exact F3]]) (Some (File [] (f_mode f)))) as (g & G1 & G2 & G3).
      { eexists. split; [reflexivity|]. split; [cbn [f_data length]; lia|]. right. intros ->. inversion H as [ls0 H0|]; subst.
        apply Forall_app in H0. destruct H0 as [_ H0]. inversion H0; subst. discriminate. }
      exists g. auto.
    + injection E as -> ->. cbn [act1]. rewrite write_at_over by lia.
      destruct (IH ltac:(apply Forall_app; split; [exact F1|constructor; [left; reflexivity|exact F3]]) (Some (File d (f_mode f)))) as (g & G1 & G2 & G3).
      { eexists. split; [reflexivity|]. split; [cbn [f_data]; lia|]. left. exists d. auto. }
      exists g. auto.
Qed.

Lemma mix_fresh x L P mode ls l : interleaving ls l ->
  Forall (fun l => l = [] \/ exists d, P d /\ length d = L /\ l = [ATrunc x mode; AWrite x 0 d]) ls -> l <> [] -> forall o,
  exists f, fold_left act1 l o = Some f /\ P (f_data f) /\ f_mode f = match o with Some g => f_mode g | None => mode end.
Proof.
  intros H F N o. inversion H as [ls0 H0|pre a l0 post rest H0]; subst; [contradiction N; reflexivity|].
  apply Forall_app in F. destruct F as [F1 F2]. inversion F2 as [|? ? Fa F3]; subst.
  destruct Fa as [Fa|(d & Hd & Ld & E)]; [discriminate|]. injection E as -> ->. cbn [fold_left act1].
  assert (K : forall l, (l = [] \/ exists d, P d /\ length d = L /\ l = [ATrunc x mode; AWrite x 0 d]) -> halfway x L P l).
  { intros l [->|(d1 & H1 & H2 & ->)]; [left; reflexivity|right; left; exists d1; split; [exact H1|]; split; [exact H2|]; exists mode; reflexivity]. }
  destruct (mix_started x L P _ _ H0) with (o := Some (File [] match o with Some g => f_mode g | None => mode end)) as (g & G1 & G2 & G3).
  - apply Forall_app. split; [eapply Forall_impl; [|exact F1]; intro; apply K|].
    constructor; [right; right; exists d; auto|eapply Forall_impl; [|exact F3]; intro; apply K].
  - eexists. split; [reflexivity|]. split; [cbn [f_data length]; lia|]. right. intros ->. inversion H0 as [ls1 H1|]; subst.
    apply Forall_app in H1. destruct H1 as [_ H1]. inversion H1; subst. discriminate.
  - exists g. auto.
Qed.
