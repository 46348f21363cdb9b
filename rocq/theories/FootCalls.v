(* Calls that do not read each other's output can be run in any order. *)
From Verif Require Import Cmd SealOpen CmdFacts RoundTrip SignFacts Torn SealCrash SealFacts OpenFacts ConcGen ConcFacts SpecConc ConcCalls Footprint.
From Coq Require Import Permutation.
Local Open Scope Z_scope.

(* the files a call reads *)
Definition inputs (c : call) : list path :=
  match c with
  | CGenerate _ _ _ => []
  | CSign sk m _ => [sk; m]
  | CVerify pk m s => [pk; m; sigPathOf m s]
  | CSeal pk m _ => [pk; m]
  | COpen sk e _ => [sk; e]
  end.
(* alike but for the files, and in these the same contents *)
Definition alike (ps : list path) (w v : world) : Prop :=
  v = set_fs w (w_fs v) /\ forall p, In p ps -> data_at (w_fs w) p = data_at (w_fs v) p.

Lemma call_resp C c (P : path -> Prop) n0 : (forall p, In p (inputs c) -> P p) -> resp (agree P n0) (run_call C c).
Proof.
  intro H. destruct c as [k pass opts|sk m s|pk m s|pk m e|sk e m]; cbn [run_call inputs In] in *.
  - apply GenerateKey_resp.
  - apply Sign_resp; apply H; auto.
  - apply Verify_resp; apply H; auto.
  - apply Seal_resp; apply H; auto.
  - apply Open_resp; apply H; auto.
Qed.

Lemma alike_agree ps w v : alike ps w v -> agree (fun p => In p ps) (length (w_fds w)) w v.
Proof.
  intros [E D]. split; [exact E|]. split; [exact D|]. split; [lia|]. intros i p off Hi Hn.
  apply nth_error_None in Hi. congruence.
Qed.

Lemma call_alike C c w v r w' : alike (inputs c) w v -> run_call C c w = (r, w') ->
  exists v', run_call C c v = (r, v') /\ alike (inputs c) w' v'.
Proof.
  intros A H. pose proof (call_resp C c (fun p => In p (inputs c)) (length (w_fds w)) (fun p Hp => Hp) w v (alike_agree _ _ _ A)) as S.
  rewrite H in S. destruct (run_call C c v) as [r' v']. destruct S as [E (F & D & _)]. cbn [fst snd] in *. subst r'.
  exists v'. split; [reflexivity|]. split; assumption.
Qed.

Lemma replay_at evs : forall fs fs2 x, fs x = fs2 x -> replay fs evs x = replay fs2 evs x.
Proof.
  induction evs as [|e evs IH]; intros fs fs2 x H; [exact H|]. change (replay (replay1 fs e) evs x = replay (replay1 fs2 e) evs x). apply IH.
  destruct e as [p m|p b|b|b]; cbn; try exact H; unfold fs_create, fs_append; (destruct (bytes_eqb x p) eqn:E; [apply bytes_eqb_eq in E; subst p; rewrite H; reflexivity|exact H]).
Qed.
Lemma replay_data evs : forall fs fs2 x, data_at fs x = data_at fs2 x -> data_at (replay fs evs) x = data_at (replay fs2 evs) x.
Proof.
  induction evs as [|e evs IH]; intros fs fs2 x H; [exact H|]. change (data_at (replay (replay1 fs e) evs) x = data_at (replay (replay1 fs2 e) evs) x). apply IH.
  unfold data_at in *. destruct e as [p m|p b|b|b]; cbn; try exact H; unfold fs_create, fs_append; (destruct (bytes_eqb x p) eqn:E; [apply bytes_eqb_eq in E; subst p|exact H]); [reflexivity|].
  destruct (fs x), (fs2 x); cbn in *; congruence.
Qed.
Lemma replay_skip evs : forall fs x, ~ writes evs x -> replay fs evs x = fs x.
Proof.
  induction evs as [|e evs IH]; intros fs x H; [reflexivity|]. change (replay (replay1 fs e) evs x = fs x). rewrite IH.
  - destruct e as [p m|p b|b|b]; cbn; try reflexivity; unfold fs_create, fs_append; (destruct (bytes_eqb x p) eqn:E; [|reflexivity]);
    (apply bytes_eqb_eq in E; subst p; exfalso; apply H); [exists [], m; left; left; reflexivity|exists b, 0; right; left; reflexivity].
  - intros (b & m & [X|X]); apply H; exists b, m; [left|right]; right; exact X.
Qed.

(* a file is emptied before it is written *)
Lemma opened_emptied evs : forall op, opened_first op evs -> forall x, ~ In x op -> writes evs x ->
  exists a m b, evs = a ++ EvCreate x m :: b /\ ~ writes a x.
Proof.
  induction evs as [|e evs IH]; intros op Ho x Hx W; [destruct (writes_nil _ W)|].
  destruct e as [p m|p d|d|d]; cbn [opened_first] in Ho.
  - destruct (bytes_eqb x p) eqn:E.
    + apply bytes_eqb_eq in E. subst p. exists [], m, evs. split; [reflexivity|apply writes_nil].
    + assert (N : x <> p) by (intros ->; rewrite bytes_eqb_refl in E; discriminate).
      apply writes_cons in W. destruct W as [W|W]; [apply writes_create in W; contradiction|].
      destruct (IH _ Ho x) as (a & m' & b & -> & Na); [intros [H|H]; [congruence|contradiction]|exact W|].
      exists (EvCreate p m :: a), m', b. split; [reflexivity|]. intro X. apply writes_cons in X. destruct X as [X|X]; [apply writes_create in X; contradiction|contradiction].
  - destruct Ho as [Hp Ho]. assert (N : x <> p) by (intros ->; contradiction).
    apply writes_cons in W. destruct W as [W|W]; [apply (writes_appends p [d]) in W; contradiction|].
    destruct (IH _ Ho x Hx W) as (a & m' & b & -> & Na). exists (EvAppend p d :: a), m', b. split; [reflexivity|].
    intro X. apply writes_cons in X. destruct X as [X|X]; [apply (writes_appends p [d]) in X; contradiction|contradiction].
  - apply writes_cons in W. destruct W as [(b & m & [[W|[]]|[W|[]]])|W]; [discriminate|discriminate|].
    destruct (IH _ Ho x Hx W) as (a & m' & b & -> & Na). exists (EvOut d :: a), m', b. split; [reflexivity|].
    intro X. apply writes_cons in X. destruct X as [(b' & m & [[X|[]]|[X|[]]])|X]; [discriminate|discriminate|contradiction].
  - apply writes_cons in W. destruct W as [(b & m & [[W|[]]|[W|[]]])|W]; [discriminate|discriminate|].
    destruct (IH _ Ho x Hx W) as (a & m' & b & -> & Na). exists (EvErr d :: a), m', b. split; [reflexivity|].
    intro X. apply writes_cons in X. destruct X as [(b' & m & [[X|[]]|[X|[]]])|X]; [discriminate|discriminate|contradiction].
Qed.

Lemma writes_dec evs x : writes evs x \/ ~ writes evs x.
Proof.
  induction evs as [|e evs IH]; [right; apply writes_nil|].
  destruct IH as [(b & m & [H|H])|N]; [left; exists b, m; left; right; exact H|left; exists b, m; right; right; exact H|].
  destruct e as [p m|p d|d|d].
  - destruct (bytes_eqb x p) eqn:E; [apply bytes_eqb_eq in E; subst p; left; exists [], m; left; left; reflexivity|].
    right. intro W. apply writes_cons in W. destruct W as [W|W]; [apply writes_create in W; subst p; rewrite bytes_eqb_refl in E; discriminate|contradiction].
  - destruct (bytes_eqb x p) eqn:E; [apply bytes_eqb_eq in E; subst p; left; exists d, 0; right; left; reflexivity|].
    right. intro W. apply writes_cons in W. destruct W as [W|W]; [apply (writes_appends p [d]) in W; subst p; rewrite bytes_eqb_refl in E; discriminate|contradiction].
  - right. intro W. apply writes_cons in W. destruct W as [(b & m & [[W|[]]|[W|[]]])|W]; [discriminate|discriminate|contradiction].
  - right. intro W. apply writes_cons in W. destruct W as [(b & m & [[W|[]]|[W|[]]])|W]; [discriminate|discriminate|contradiction].
Qed.

Definition proper (c : call) : Prop := match c with COpen _ e m => e <> m | _ => True end.

Lemma call_log C c w r w' : BoxTidy C -> proper c -> run_call C c w = (r, w') ->
  exists evs, w_log w' = w_log w ++ evs /\ w_fs w' = replay (w_fs w) evs /\ opened_first [] evs /\ (forall x, writes evs x -> In x (outputs c)).
Proof.
  intros BT Hc H. assert (L : exists evs, w_log w' = w_log w ++ evs).
  { destruct c as [k pass opts|sk m s|pk m s|pk m e|sk e m]; cbn [run_call] in H.
    - destruct (GenerateKey_spec _ _ _ _ _ _ _ H) as (_ & [(e & _ & _ & F & L')|(priv & pub & w1 & evs1 & evs2 & ok1 & _ & W1 & W2 & L' & F)]); [exists []; rewrite app_nil_r; exact L'|eexists; exact L'].
    - destruct (Sign_log _ _ _ _ _ _ _ H) as (outs & ev & O & L' & F & D). eexists. exact L'.
    - destruct (Verify_world _ _ _ _ _ _ _ H) as (fl & ->). exists []. cbn. rewrite app_nil_r. reflexivity.
    - destruct (Seal_log _ _ _ _ _ _ _ H) as [(L' & F)|(ps & L' & F)]; [exists []; rewrite app_nil_r; exact L'|eexists; exact L'].
    - destruct (Open_spec _ _ _ _ _ _ _ H Hc BT) as (_ & ev & L' & F & D). eexists. exact L'. }
  destruct L as (evs & L). exists evs. split; [exact L|].
  assert (R : ran C (w_fs w) (Run c w r w' evs)) by (split; [exact H|split; [reflexivity|split; [exact L|exact Hc]]]).
  destruct (ran_opened C _ _ BT R) as [O F]. cbn in O, F. split; [exact F|]. split; [exact O|]. intros x W. apply (ran_writes C _ _ x BT R W).
Qed.

Lemma call_depends C c w v r w' : BoxTidy C -> proper c -> alike (inputs c) w v -> run_call C c w = (r, w') ->
  exists v' evs, run_call C c v = (r, v') /\ w_log w' = w_log w ++ evs /\ v' = set_fs w' (w_fs v') /\
    w_fs w' = replay (w_fs w) evs /\ w_fs v' = replay (w_fs v) evs /\
    forall x, (In x (outputs c) /\ data_at (w_fs w') x = data_at (w_fs v') x) \/ (w_fs w' x = w_fs w x /\ w_fs v' x = w_fs v x).
Proof.
  intros BT Hc A H. destruct (call_alike C c w v r w' A H) as (v' & Hv & A').
  destruct (call_log C c w r w' BT Hc H) as (evs & L & F & O & W). destruct (call_log C c v r v' BT Hc Hv) as (evs2 & L2 & F2 & O2 & W2).
  assert (E : evs2 = evs).
  { destruct A as [A _], A' as [A' _]. rewrite A, A' in L2. cbn in L2. rewrite L in L2. apply app_inv_head in L2. symmetry. exact L2. }
  subst evs2. exists v', evs. split; [exact Hv|]. split; [exact L|]. split; [apply A'|]. split; [exact F|]. split; [exact F2|].
  intro x. destruct (writes_dec evs x) as [Wx|N].
  - left. split; [apply W, Wx|]. destruct (opened_emptied evs [] O x (fun f => f) Wx) as (a & m & b & E & Na).
    rewrite F, F2, E, !replay_app. cbn [replay fold_left]. change (data_at (replay (fs_create (replay (w_fs w) a) x m) b) x = data_at (replay (fs_create (replay (w_fs v) a) x m) b) x).
    apply replay_data. unfold data_at, fs_create. rewrite bytes_eqb_refl. reflexivity.
  - right. rewrite F, F2. split; apply replay_skip, N.
Qed.

(* ---- one after the other ---- *)
Fixpoint in_turn (C : Crypto) (fs : path -> option file) (l : list (call * world)) : list (res unit) * (path -> option file) :=
  match l with
  | [] => ([], fs)
  | (c, w) :: l =>
      let '(r, w') := run_call C c (set_fs w fs) in
      let '(rs, fs') := in_turn C (w_fs w') l in (r :: rs, fs')
  end.

(* neither writes what the other reads or writes *)
Definition independent (a b : run) : Prop :=
  forall x, (In x (outputs (r_call a)) -> ~ In x (inputs (r_call b) ++ outputs (r_call b))) /\
            (In x (outputs (r_call b)) -> ~ In x (inputs (r_call a) ++ outputs (r_call a))).

Lemma in_turn_spec C fs : BoxTidy C -> forall todo cur, Forall (ran C fs) todo -> ForallOrdPairs independent todo ->
  (forall r x, In r todo -> In x (inputs (r_call r) ++ outputs (r_call r)) -> cur x = fs x) ->
  let '(rs, fs') := in_turn C cur (map (fun r => (r_call r, r_start r)) todo) in
  rs = map r_res todo /\ (forall x, (forall r, In r todo -> ~ In x (outputs (r_call r))) -> fs' x = cur x) /\
  (forall r x, In r todo -> In x (outputs (r_call r)) -> fs' x = w_fs (r_end r) x).
Proof.
  intro BT. induction todo as [|r todo IH]; intros cur R I Hc.
  - cbn. split; [reflexivity|]. split; [reflexivity|]. intros r x [].
  - inversion R as [|? ? Hr R']; subst. inversion I as [|? ? I1 I2]; subst. cbn [map in_turn].
    destruct Hr as (Hrun & Hfs & Hlog & Hp).
    assert (A : alike (inputs (r_call r)) (r_start r) (set_fs (r_start r) cur)).
    { split; [reflexivity|]. intros p Hin. cbn. unfold data_at. rewrite Hfs, (Hc r p (or_introl eq_refl)); [reflexivity|apply in_or_app; left; exact Hin]. }
    destruct (call_depends C _ _ _ _ _ BT Hp A Hrun) as (v' & evs & Hv & L & Ev & F & F2 & _). rewrite Hv.
    destruct (call_log C _ _ _ _ BT Hp Hrun) as (evs' & L' & _ & _ & W). rewrite L in L'. apply app_inv_head in L'. subst evs'.
    cbn in F2. assert (U : forall x, ~ In x (outputs (r_call r)) -> w_fs v' x = cur x).
    { intros x N. rewrite F2. apply replay_skip. intro X. apply N, W, X. }
    assert (V : forall x, In x (outputs (r_call r)) -> w_fs v' x = w_fs (r_end r) x).
    { intros x N. rewrite F2, F, Hfs. apply replay_at. apply (Hc r x (or_introl eq_refl)). apply in_or_app. right. exact N. }
    rewrite Forall_forall in I1.
    specialize (IH (w_fs v') R' I2). destruct (in_turn C (w_fs v') (map (fun r => (r_call r, r_start r)) todo)) as [rs fs'].
    destruct IH as (E1 & E2 & E3).
    { intros r' x Hr' Hx. rewrite U; [apply (Hc r' x (or_intror Hr') Hx)|]. intro Hx'. destruct (I1 r' Hr' x) as [I1' _]. apply (I1' Hx' Hx). }
    split; [cbn; rewrite E1; reflexivity|]. split.
    + intros x N. rewrite E2; [|intros r' Hr'; apply N; right; exact Hr']. apply U, N. left. reflexivity.
    + intros r' x [<-|Hr'] Hx; [|apply (E3 r' x Hr' Hx)]. rewrite E2; [apply V, Hx|].
      intros r' Hr' Hx'. destruct (I1 r' Hr' x) as [I1' _]. apply (I1' Hx). apply in_or_app. right. exact Hx'.
Qed.

Lemma il_perm {A} (ls ls' : list (list A)) l : interleaving ls l -> Permutation ls ls' -> interleaving ls' l.
Proof.
  intro H. revert ls'. induction H as [ls H|pre a l post rest H IH]; intros ls' Hp.
  - apply il_done. rewrite Forall_forall in *. intros x Hx. apply H, (Permutation_in _ (Permutation_sym Hp) Hx).
  - assert (X : In (a :: l) ls') by (apply (Permutation_in _ Hp), in_or_app; right; left; reflexivity).
    apply in_split in X. destruct X as (p' & q' & ->). apply il_step, IH.
    apply (Permutation_trans (l' := l :: pre ++ post)); [symmetry; apply Permutation_middle|].
    apply (Permutation_trans (l' := l :: p' ++ q')); [|apply Permutation_middle]. constructor.
    apply Permutation_app_inv in Hp. exact Hp.
Qed.
Lemma independent_sym a b : independent a b -> independent b a.
Proof. intros H x. destruct (H x). split; assumption. Qed.
Lemma independent_perm l l' : Permutation l l' -> ForallOrdPairs independent l -> ForallOrdPairs independent l'.
Proof.
  induction 1 as [|x l l' Hp IH|x y l|l1 l2 l3 H1 IH1 H2 IH2]; intro F; [exact F| | |auto].
  - inversion F as [|? ? F1 F2]; subst. constructor; [|apply IH, F2]. rewrite Forall_forall in *. intros z Hz. apply F1, (Permutation_in _ (Permutation_sym Hp) Hz).
  - inversion F as [|? ? F1 F2]; subst. inversion F2 as [|? ? F3 F4]; subst. inversion F1 as [|? ? F5 F6]; subst.
    constructor; [constructor; [apply independent_sym, F5|exact F3]|]. constructor; assumption.
Qed.

Lemma serial C fs runs order l : BoxTidy C -> Forall (ran C fs) runs -> ForallOrdPairs independent runs -> Permutation runs order ->
  interleaving (map (fun r => process (r_log r)) runs) l ->
  let '(rs, fs') := in_turn C fs (map (fun r => (r_call r, r_start r)) order) in
  rs = map r_res order /\ forall x, fs' x = acts fs l x.
Proof.
  intros BT R I Hp H. pose proof (il_perm _ _ _ H (Permutation_map _ Hp)) as H'.
  assert (R' : Forall (ran C fs) order).
  { rewrite Forall_forall in *. intros z Hz. apply R, (Permutation_in _ (Permutation_sym Hp) Hz). }
  pose proof (independent_perm _ _ Hp I) as I'. clear R I Hp H.
  pose proof (in_turn_spec C fs BT order fs R' I' (fun _ _ _ _ => eq_refl)) as T.
  destruct (in_turn C fs (map (fun r => (r_call r, r_start r)) order)) as [rs fs']. destruct T as (E1 & E2 & E3).
  split; [exact E1|]. destruct (at_once C fs order l BT R' H') as [A1 A2]. intro x.
  assert (X : (forall r, In r order -> ~ In x (outputs (r_call r))) \/ exists r, In r order /\ In x (outputs (r_call r))).
  { clear. induction order as [|r o IH]; [left; intros r []|]. destruct IH as [N|(r' & H1 & H2)]; [|right; exists r'; split; [right; exact H1|exact H2]].
    destruct (in_dec (list_eq_dec (fun a b : byte => Byte.byte_eq_dec a b)) x (outputs (r_call r))) as [Y|Y]; [right; exists r; split; [left; reflexivity|exact Y]|].
    left. intros r' [<-|Hr]; [exact Y|apply N, Hr]. }
  destruct X as [N|(r & Hr & Hx)]; [rewrite (E2 x N), (A1 x N); reflexivity|]. rewrite (E3 r x Hr Hx). symmetry.
  apply in_split in Hr. destruct Hr as (pre & post & ->). apply (A2 pre r post x eq_refl). intros r' Hr' Hx'.
  clear -I' Hr' Hx' Hx. assert (Y : independent r r').
  { induction pre as [|y pre IH]; cbn [app] in I'; inversion I' as [|? ? F1 F2]; subst; rewrite Forall_forall in F1.
    - destruct Hr' as [[]|Hr']. apply F1, Hr'.
    - destruct Hr' as [[->|Hr']|Hr']; [apply independent_sym, F1, in_or_app; right; left; reflexivity|apply IH; [exact F2|left; exact Hr']|apply IH; [exact F2|right; exact Hr']]. }
  destruct (Y x) as [Y1 _]. apply (Y1 Hx). apply in_or_app. right. exact Hx'.
Qed.

(* ---- the command ---- *)
(* the files a command line makes psignify read *)
Definition command_reads (u : userInfo) (args : list bytes) : list path :=
  match flagParse args with
  | Malformed _ => []
  | Parsed f _ =>
      let base := defaultKeyBase u in
      let sec := if isEmpty (f_s f) && negb (isEmpty base) then base ++ str ".sec" else f_s f in
      let pub := if isEmpty (f_p f) && negb (isEmpty base) then base ++ str ".pub" else f_p f in
      if f_G f then []
      else if f_S f then [sec; f_m f]
      else if f_V f then [pub; f_m f; sigPathOf (f_m f) (f_x f)]
      else if f_E f then [pub; f_m f]
      else if f_D f then [sec; f_c f]
      else []
  end.

Lemma emit_agree P n0 e w v : agree P n0 w v -> agree P n0 (emit w e) (emit v e).
Proof. intro A. apply (agree_set P n0 _ _ _ _ A); try reflexivity. destruct A as (E & _). rewrite E at 1. reflexivity. Qed.

Lemma action_resp P n0 m e o : resp (agree P n0) m -> resp (agree P n0) (action m e o).
Proof.
  intros Hm w v A. unfold action. pose proof (Hm w v A) as H. both H. destruct a; (split; [reflexivity|]); cbn [snd].
  - destruct o; [apply emit_agree|]; exact R.
  - apply emit_agree, R.
  - exact R.
Qed.

Lemma main_resp C arg0 u args (P : path -> Prop) n0 : (forall p, In p (command_reads u args) -> P p) -> resp (agree P n0) (main C arg0 u args).
Proof.
  unfold command_reads, main. destruct (flagParse args) as [f rest|msg].
  - unfold dispatch. cbv zeta. set (sec := if isEmpty (f_s f) && _ then _ else _). set (pub := if isEmpty (f_p f) && _ then _ else _). intro H.
    assert (K : forall n e, resp (agree P n0) (fun w => (n : Z, emit w e))) by (intros n e w v A; split; [reflexivity|apply emit_agree, A]).
    destruct (f_G f).
    { unfold generateAction. destruct (isEmpty pub); [apply K|]. destruct (f_n f); [apply action_resp, GenerateKey_resp|].
      intros w v A. pose proof (prompt_resp P n0 true w v A) as X. both X. destruct a as [i|e|]; [|split; [reflexivity|apply emit_agree, R]|split; [reflexivity|exact R]].
      pose proof (buf_resp P n0 i s t R) as X. both X. destruct a; try (split; [reflexivity|exact R0]). apply action_resp; [apply GenerateKey_resp|exact R0]. }
    destruct (f_S f); [destruct (_ || _); [apply K|apply action_resp, Sign_resp; apply H; cbn; auto]|].
    destruct (f_V f); [apply action_resp, Verify_resp; apply H; cbn; auto|].
    destruct (f_E f); [apply action_resp, Seal_resp; apply H; cbn; auto|].
    destruct (f_D f); [apply action_resp, Open_resp; apply H; cbn; auto|]. apply K.
  - intros _ w v A. split; [reflexivity|]. cbn [snd]. apply emit_agree. destruct msg; [exact A|apply emit_agree, A].
Qed.

Lemma main_depends C arg0 u args w v n w' : alike (command_reads u args) w v -> main C arg0 u args w = (n, w') ->
  exists v', main C arg0 u args v = (n, v') /\ alike (command_reads u args) w' v'.
Proof.
  intros A H. pose proof (main_resp C arg0 u args (fun p => In p (command_reads u args)) (length (w_fds w)) (fun p Hp => Hp) w v (alike_agree _ _ _ A)) as S.
  rewrite H in S. destruct (main C arg0 u args v) as [r' v']. destruct S as [E (F & D & _)]. cbn [fst snd] in *. subst r'.
  exists v'. split; [reflexivity|]. split; assumption.
Qed.
