(* Whole files read and written call by call: proofs. *)
From Verif Require Import Footprint MemWitness CallFacts CallKeys CallExample PrintExample CmdCallFacts CmdCallEnds.
From Verif Require Import SpecIoutil.
Local Open Scope Z_scope.

(* ---- every run of every operation: the answers are those of the operating system ---- *)
Section Faithful.
Variable C : Crypto.
Variable O : os.
Definition fine (h h' : list step) : Prop := h = h' /\ answered O h.
Definition faithful {A} (m : list step -> A * list step) : Prop := forall h, answered O h -> answered O (snd (m h)).
Lemma fine_resp {A} (m : list step -> A * list step) : faithful m <-> resp fine m.
Proof.
  split.
  - intros F h h' [<- N]. split; [reflexivity|]. split; [reflexivity|]. apply F, N.
  - intros R h N. destruct (R h h (conj eq_refl N)) as [_ [_ X]]. exact X.
Qed.
Lemma answered_one h s : answered O h -> agrees O h s -> answered O (h ++ [s]).
Proof. intros A B. apply answered_snoc. split; assumption. Qed.

Lemma f_ret {A} (r : res A) : faithful (hlift r). Proof. intros h A'. exact A'. Qed.
Lemma f_bind {A B} (m : H A) (k : A -> H B) : faithful m -> (forall a, faithful (k a)) -> faithful (hbind m k).
Proof. intros Fm Fk h A'. unfold hbind. pose proof (Fm h A') as X. destruct (m h) as [[a|e|] h1]; [apply Fk|..]; exact X. Qed.
Lemma f_defer {A} c (m : H A) : faithful m -> (forall h, answered O h -> answered O (c h)) -> faithful (hdefer c m).
Proof. intros Fm Fc h A'. unfold hdefer. pose proof (Fm h A') as X. destruct (m h) as [r h1]. apply Fc, X. Qed.
Ltac one := intros h A; apply answered_one; [exact A|]; cbn [agrees]; try reflexivity.
Lemma f_readfile p : faithful (h_readfile O p). Proof. one. Qed.
Lemma f_writefile p b m : faithful (h_writefile O p b m). Proof. one. Qed.
Lemma f_open p : faithful (h_open O p). Proof. one. Qed.
Lemma f_create p m : faithful (h_create O p m). Proof. one. Qed.
Lemma f_stat p : faithful (h_stat O p). Proof. one. Qed.
Lemma f_rand n : faithful (h_rand O n). Proof. one. Qed.
Lemma f_pass : faithful (h_pass O). Proof. one. Qed.
Lemma f_out b : faithful (h_out b). Proof. one. Qed.
Lemma f_close fd h : answered O h -> answered O (h_close O fd h). Proof. revert h. one. Qed.
Lemma f_read fd n : faithful (h_read O fd n).
Proof. intros h A. unfold h_read. destruct (o_read O h fd n) as [b r] eqn:E. apply answered_one; [exact A|exact E]. Qed.
Lemma f_write fd b : faithful (h_write O fd b).
Proof. intros h A. unfold h_write. destruct (o_write O h fd b) as [n r] eqn:E. apply answered_one; [exact A|exact E]. Qed.
Lemma r_read fd : rresp fine (h_read O fd).
Proof. intro n. apply fine_resp, f_read. Qed.
Lemma r_write fd : wresp fine (h_write O fd).
Proof. intro b. apply fine_resp, f_write. Qed.

Lemma f_prompt : faithful (prompt_os O).
Proof. apply f_bind; [apply f_out|intros _]. apply f_bind; [apply f_pass|intro b]. apply f_bind; [apply f_out|intros _]. apply (f_ret (Ok b)). Qed.
Lemma f_confirm : faithful (confirm_os O).
Proof.
  unfold confirm_os. apply f_bind; [apply f_out|intros _]. apply f_bind; [apply f_pass|intro a]. do 2 (apply f_bind; [apply f_out|intros _]).
  apply f_bind; [apply f_pass|intro b]. apply f_bind; [apply f_out|intros _]. destruct (bytes_eqb a b); [apply (f_ret (Ok a))|apply f_ret].
Qed.
Lemma f_verify k m s : faithful (Verify_os C O k m s).
Proof.
  apply f_bind; [apply f_bind; [apply f_readfile|intro; apply f_ret]|intro pub]. apply f_bind; [apply f_readfile|intro d].
  apply f_bind; [apply f_bind; [apply f_readfile|intro; apply f_ret]|intro sg]. apply f_ret.
Qed.
Lemma f_sign k m s : faithful (Sign_os C O k m s).
Proof.
  apply f_bind; [apply f_bind; [apply f_readfile|intro; apply f_ret]|intro p]. apply f_bind.
  - destruct (IsEncrypted p); [|apply (f_ret (Ok p))]. apply f_bind; [apply f_prompt|intro pass]. destruct (decrypt C p pass) as [[u|e|] q]; [apply (f_ret (Ok q))|apply f_ret..].
  - intro q. apply f_bind; [apply f_readfile|intro d; apply f_writefile].
Qed.
Lemma f_generate k pass opts : faithful (GenerateKey_os C O k pass opts).
Proof.
  apply f_bind; [|intro pp; apply f_bind; [apply f_writefile|intros _; apply f_writefile]].
  unfold GenerateKeypair_os. cbv zeta. do 3 (apply f_bind; [apply f_rand|intro]). apply f_bind; [apply f_ret|intro x].
  match goal with |- faithful (hret ?y) => apply (f_ret (Ok y)) end.
Qed.
Lemma f_tobox p : faithful (ToBox_os C O p).
Proof.
  apply f_bind; [|intro q; match goal with |- faithful (hret ?y) => apply (f_ret (Ok y)) end].
  destruct (Check C p); [apply (f_ret (Ok p))|..]; (apply f_bind; [apply f_prompt|intro pass]; destruct (decrypt C p pass) as [[u'|e'|] q]; [apply (f_ret (Ok q))|apply f_ret..]).
Qed.
Definition fine2 (x y : enc * list step) : Prop := fst x = fst y /\ fine (snd x) (snd y).
Lemma r_beside fd : rresp fine2 (beside_reader (h_read O fd)).
Proof.
  intros n [e h] [e' h'] [E F]. cbn [fst snd] in *. subst e'. unfold beside_reader. cbn [fst snd]. pose proof (r_read fd n h h' F) as X.
  destruct (h_read O fd n h) as [a h1], (h_read O fd n h') as [b h2]. destruct X as [X Y]. cbn [fst snd] in *. subst b. split; [reflexivity|]. split; [reflexivity|exact Y].
Qed.
Lemma r_draw n : resp fine2 (beside_rand O n).
Proof.
  intros [e h] [e' h'] [E F]. cbn [fst snd] in *. subst e'. unfold beside_rand. cbn [fst snd]. pose proof (proj1 (fine_resp _) (f_rand n) h h' F) as X.
  destruct (h_rand O n h) as [a h1], (h_rand O n h') as [b h2]. destruct X as [X Y]. cbn [fst snd] in *. subst b. split; [reflexivity|]. split; [reflexivity|exact Y].
Qed.
Lemma f_seal k m e : faithful (Seal_os C O k m e).
Proof.
  apply f_bind; [apply f_bind; [apply f_readfile|intro; apply f_ret]|intro pub]. apply f_bind; [apply f_open|intro fd].
  apply f_defer; [|apply f_close]. apply f_bind; [apply f_stat|intro len]. apply f_bind; [apply f_create|intro out]. apply f_defer; [|apply f_close].
  intros h A. pose proof (f_write out (str "untrusted comment: psignify encrypted file" ++ [x0a]) h A) as X.
  destruct (h_write O out _ h) as [[n [x|]] h1]; [exact X|]. cbn [snd] in X.
  assert (F : fine2 (NewEncoder, h1) (NewEncoder, h1)) by (split; [reflexivity|split; [reflexivity|exact X]]).
  pose proof (seal_resp C (enc * list step) fine2 (beside_rand O) pub (beside_reader (h_read O fd)) len (enc_write (h_write O out)) r_draw (r_beside fd)
    (enc_write_resp _ fine _ (r_write out)) _ _ F) as Y.
  destruct (seal C (enc * list step) _ pub _ len _ (NewEncoder, h1)) as [r es]. destruct Y as [_ Y]. cbn [snd] in Y.
  pose proof (enc_close_resp _ fine _ (r_write out) es es Y) as Z. destruct (enc_close (h_write O out) es) as [r' es']. destruct Z as [_ [_ [_ Z]]]. exact Z.
Qed.
Lemma f_openfile fuel k e m : faithful (Open_os C O fuel k e m).
Proof.
  apply f_bind; [apply f_bind; [apply f_readfile|intro; apply f_ret]|intro p]. apply f_bind; [apply f_open|intro fd].
  apply f_defer; [|apply f_close]. apply f_bind.
  { apply fine_resp, skipComment_resp; [apply r_read|]. intros s t [<- _]. reflexivity. }
  intros _. apply f_bind; [apply f_create|intro out]. apply f_defer; [|apply f_close]. apply f_bind; [apply f_tobox|intro edpriv].
  apply fine_resp, open_body_resp; [|apply r_write]. apply dec_read_resp; [apply r_read|]. intros s t _ [<- _]. reflexivity.
Qed.

Lemma f_action (m : H unit) f ok h : faithful m -> answered O h -> answered O (snd (action_os m f ok h)).
Proof.
  intros F A. unfold action_os. pose proof (F h A) as X. destruct (m h) as [[u|e|] h1]; try exact X. destruct ok; [|exact X]. apply answered_one; [exact X|exact I].
Qed.
Theorem main_answered fuel arg0 u args : answered O (snd (main_os C O fuel arg0 u args)).
Proof.
  pose proof (answered_nil O) as N. unfold main_os. destruct (flagParse args) as [f r|msg]; [|apply (answered_one []); [exact N|exact I]].
  unfold dispatch_os. cbv zeta. destruct (f_G f).
  { unfold generateAction_os. destruct (isEmpty _); [exact N|]. destruct (f_n f); [apply f_action; [apply f_generate|exact N]|].
    pose proof (f_confirm [] N) as X. destruct (confirm_os O []) as [[p|e|] h]; try exact X. apply f_action; [apply f_generate|exact X]. }
  destruct (f_S f). { destruct (_ || _); [exact N|]. apply f_action; [apply f_sign|exact N]. }
  destruct (f_V f); [apply f_action; [apply f_verify|exact N]|]. destruct (f_E f); [apply f_action; [apply f_seal|exact N]|].
  destruct (f_D f); [apply f_action; [apply f_openfile|exact N]|exact N].
Qed.
End Faithful.

(* ---- whole files, call by call ---- *)
Lemma in_use_app fds h l : in_use fds (h ++ l) = match in_use fds h with Some f => in_use f l | None => None end.
Proof.
  revert fds; induction h as [|s h IH]; intro fds; [reflexivity|]. cbn [app in_use].
  destruct s as [p r|p b m r|p [fd|e]|p m [fd|e]|fd r|fd n b r|fd b n r|fd r|n r|r|b]; try apply IH; destruct (has _ _); try apply IH; reflexivity.
Qed.
Lemma has_head fd fds : has fd (fd :: fds) = true.
Proof. unfold has. cbn [existsb]. now rewrite Nat.eqb_refl. Qed.
Lemma drop_head fd fds : drop_one fd (fd :: fds) = fds.
Proof. cbn [drop_one]. now rewrite Nat.eqb_refl. Qed.
Lemma reads_in_use fd fds ds l : read_pieces fd ds l -> in_use (fd :: fds) l = Some (fd :: fds).
Proof. induction 1; [reflexivity|]. cbn [in_use]. rewrite has_head. exact IHread_pieces. Qed.

Section LowFacts.
Variable L : os.
Variable room fuel : list step -> nat.
Notation RA := (read_all L room).
Notation EX := (expand L room fuel).
Notation OV := (over L room fuel).

Lemma read_all_run n fd acc h : file_rules L -> exists ds l, read_pieces fd ds l /\ (answered L h -> answered L (h ++ l)) /\
  (RA n fd acc h = (None, h ++ l) /\ ~ comes_to_end L room n fd h \/
   exists k e, let l' := l ++ [SRead fd (Datatypes.S k) [] (Some e)] in (answered L h -> answered L (h ++ l')) /\
     RA n fd acc h = (Some (match e with EOF => Ok (acc ++ concat ds) | _ => Err e end), h ++ l')).
Proof.
  intro FR. revert acc h; induction n as [|n IH]; intros acc h.
  { exists [], []. split; [constructor|]. rewrite app_nil_r. split; [auto|]. left. split; [reflexivity|intros []]. }
  cbn [read_all comes_to_end]. destruct (o_read L h fd (Datatypes.S (room h))) as [b r] eqn:E.
  pose proof (proj1 FR h fd _ b r E ltac:(lia)) as B.
  assert (N : answered L h -> answered L (h ++ [SRead fd (Datatypes.S (room h)) b r])) by (intro A; apply answered_one; [exact A|exact E]).
  destruct r as [e|].
  - subst b. exists [], []. split; [constructor|]. split; [rewrite app_nil_r; auto|]. right. exists (room h), e. cbn [app concat]. split; [exact N|].
    rewrite app_nil_r. destruct e; reflexivity.
  - destruct (IH (acc ++ b) (h ++ [SRead fd (Datatypes.S (room h)) b None])) as (ds & l & R & A & X).
    exists (b :: ds), (SRead fd (Datatypes.S (room h)) b None :: l). split; [constructor; exact R|]. split.
    { intro Z. specialize (A (N Z)). rewrite <- app_assoc in A. exact A. }
    destruct X as [[X Y]|(k & e & A2 & X)].
    + left. split; [|exact Y]. rewrite X. now rewrite <- app_assoc.
    + right. exists k, e. cbn zeta. cbn [app concat]. split.
      { intro Z. specialize (A2 (N Z)). rewrite <- app_assoc in A2. exact A2. }
      rewrite X, <- !app_assoc. reflexivity.
Qed.

(* the calls of ReadFile: complete, or broken off for want of fuel; the descriptor is closed in both cases *)
Lemma readfile_run p h : file_rules L -> exists c, snd (ReadFile_low L room fuel p h) = h ++ c /\ (answered L h -> answered L (h ++ c)) /\
  (forall fds, in_use fds c = Some fds) /\ Forall (fun s => ~ whole_file s) c /\
  (files_end L room fuel -> file_read_as p (sum_of (fst (ReadFile_low L room fuel p h))) c).
Proof.
  intro FR. unfold ReadFile_low. cbv zeta. destruct (o_open L h p) as [fd|e] eqn:Eo.
  2:{ exists [SOpen p (inr e)]. split; [reflexivity|]. split; [intro A; apply answered_one; [exact A|exact Eo]|]. split; [reflexivity|].
      split; [repeat constructor; intros []|]. intros _. constructor. }
  set (h1 := h ++ [SOpen p (inl fd)]). set (z := o_stat L h1 fd). set (h2 := h1 ++ [SStat fd z]).
  assert (A2 : answered L h -> answered L h2).
  { intro A. apply answered_one; [apply answered_one; [exact A|exact Eo]|reflexivity]. }
  assert (W : forall ds l, read_pieces fd ds l -> Forall (fun s => ~ whole_file s) l) by (induction 1; constructor; [intros []|assumption]).
  destruct (read_all_run (fuel h2) fd [] h2 FR) as (ds & l & R & A & X). destruct X as [[X Y]|(k & e & A3 & X)].
  - rewrite X. set (c := o_close L (h2 ++ l) fd). exists ([SOpen p (inl fd); SStat fd z] ++ l ++ [SClose fd c]). repeat split.
    + unfold h_close. cbn [snd]. fold c. unfold h2, h1. now rewrite <- !app_assoc.
    + intro Z. replace (h ++ _) with ((h2 ++ l) ++ [SClose fd c]) by (unfold h2, h1; now rewrite <- !app_assoc). apply answered_one; [exact (A (A2 Z))|reflexivity].
    + intro fds. cbn [app in_use]. rewrite has_head, in_use_app, (reads_in_use fd fds ds l R). cbn [in_use]. now rewrite has_head, drop_head.
    + repeat (constructor; [intros []|]). apply Forall_app. split; [apply (W ds), R|repeat constructor; intros []].
    + intro FE. exfalso. exact (Y (FE h2 fd)).
  - cbv zeta in A3. rewrite X. set (h3 := h2 ++ l ++ [SRead fd (Datatypes.S k) [] (Some e)]) in *. set (c := o_close L h3 fd).
    exists ([SOpen p (inl fd); SStat fd z] ++ l ++ [SRead fd (Datatypes.S k) [] (Some e); SClose fd c]). repeat split.
    + unfold h_close. cbn [snd]. fold c. unfold h3, h2, h1. now rewrite <- !app_assoc.
    + intro Z. replace (h ++ _) with (h3 ++ [SClose fd c]) by (unfold h3, h2, h1; now rewrite <- !app_assoc). apply answered_one; [exact (A3 (A2 Z))|reflexivity].
    + intro fds. cbn [app in_use]. rewrite has_head, in_use_app, (reads_in_use fd fds ds l R). cbn [in_use]. now rewrite !has_head, drop_head.
    + repeat (constructor; [intros []|]). apply Forall_app. split; [apply (W ds), R|repeat constructor; intros []].
    + intros _. cbn [fst]. destruct e; cbn [sum_of app]; first [apply fr_all; exact R|apply (fr_part p fd z ds l); [exact R|discriminate]].
Qed.

Lemma writefile_run p b m h : exists c, snd (WriteFile_low L p b m h) = h ++ c /\ (answered L h -> answered L (h ++ c)) /\
  (forall fds, in_use fds c = Some fds) /\ Forall (fun s => ~ whole_file s) c /\
  file_written_as p b m (error_of (fst (WriteFile_low L p b m h))) c.
Proof.
  unfold WriteFile_low. cbv zeta. destruct (o_create L h p m) as [fd|e] eqn:Eo.
  2:{ exists [SCreate p m (inr e)]. split; [reflexivity|]. split; [intro A; apply answered_one; [exact A|exact Eo]|]. split; [reflexivity|].
      split; [repeat constructor; intros []|]. constructor. }
  set (h1 := h ++ [SCreate p m (inl fd)]). destruct (o_write L h1 fd b) as [n r] eqn:Ew. set (h2 := h1 ++ [SWrite fd b n r]).
  set (c := o_close L h2 fd). exists [SCreate p m (inl fd); SWrite fd b n r; SClose fd c]. repeat split.
  - cbn [snd]. unfold h2, h1. now rewrite <- !app_assoc.
  - intro A. replace (h ++ _) with (h2 ++ [SClose fd c]) by (unfold h2, h1; now rewrite <- !app_assoc).
    do 2 (apply answered_one; [|first [exact Ew|reflexivity]]). apply answered_one; [exact A|exact Eo].
  - intro fds. cbn [in_use]. now rewrite !has_head, drop_head.
  - repeat constructor; intros [].
  - cbn [fst]. destruct r as [e|]; [constructor|]. destruct (n <? Z.of_nat (length b)) eqn:E.
    + apply fw_short. lia.
    + destruct c as [e|]; cbn [gone error_of]; apply fw_closed; lia.
Qed.

Lemma expand_snoc h s : EX (h ++ [s]) = expand1 L room fuel (EX h) s.
Proof. unfold expand. now rewrite fold_left_app. Qed.
Lemma over_file_rules : file_rules L -> file_rules OV.
Proof. intros [A B]. split; intro h; [exact (A (EX h))|exact (B (EX h))]. Qed.
Lemma over_rand_rules : rand_rules L -> rand_rules OV.
Proof. intros A h. exact (A (EX h)). Qed.

Lemma in_detail_app h l h' l' : in_detail h l -> in_detail h' l' -> in_detail (h ++ h') (l ++ l').
Proof. induction 1; intro D; cbn [app]; [exact D|rewrite <- app_assoc; constructor; auto..|constructor; auto]. Qed.
Lemma plain_expand s h : ~ whole_file s -> expand1 L room fuel h s = h ++ [s].
Proof. destruct s; cbn; intro N; try reflexivity; destruct (N I). Qed.

Theorem expand_run h : file_rules L -> answered OV h ->
  answered L (EX h) /\ (forall fds fds', in_use fds h = Some fds' -> in_use fds (EX h) = Some fds') /\
  Forall (fun s => ~ whole_file s) (EX h) /\ (files_end L room fuel -> in_detail h (EX h)).
Proof.
  intro FR. induction h as [|s h IH] using rev_ind; intro A.
  { split; [apply answered_nil|]. split; [auto|]. split; [constructor|]. intros _. constructor. }
  apply answered_snoc in A. destruct A as [A B]. destruct (IH A) as (I1 & I2 & I3 & I4). clear IH. rewrite expand_snoc.
  destruct s as [p r|p b m r|p r|p m r|fd r|fd n b r|fd b n r|fd r|n r|r|b].
  3-11: rewrite plain_expand by (intros []); (split; [apply answered_one; [exact I1|exact B]|]);
      (split; [intros fds0 fds' U; rewrite in_use_app in U |- *; destruct (in_use fds0 h) as [f|] eqn:V; [rewrite (I2 _ _ V); exact U|discriminate]|]);
      (split; [apply Forall_app; (split; [exact I3|repeat constructor; intros []])|]); intro FE; (apply in_detail_app; [auto|]); (constructor; [intros []|constructor]).
  - cbn [expand1 agrees over o_readfile] in *. destruct (readfile_run p (EX h) FR) as (c & E & R1 & R2 & R3 & R4). rewrite E. split; [auto|].
    split. { intros fds fds' U. rewrite in_use_app in U |- *. destruct (in_use fds h) as [f|] eqn:V; [|discriminate]. rewrite (I2 _ _ V). cbn [in_use] in U. now rewrite R2. }
    split; [apply Forall_app; auto|]. intro FE. apply in_detail_app; [auto|]. rewrite <- (app_nil_r c). constructor; [|constructor]. rewrite <- B. auto.
  - cbn [expand1 agrees over o_writefile] in *. destruct (writefile_run p b m (EX h)) as (c & E & R1 & R2 & R3 & R4). rewrite E. split; [auto|].
    split. { intros fds fds' U. rewrite in_use_app in U |- *. destruct (in_use fds h) as [f|] eqn:V; [|discriminate]. rewrite (I2 _ _ V). cbn [in_use] in U. now rewrite R2. }
    split; [apply Forall_app; auto|]. intro FE. apply in_detail_app; [auto|]. rewrite <- (app_nil_r c). constructor; [|constructor]. rewrite <- B. auto.
Qed.
End LowFacts.

(* ---- files whose content stays the same for the time it takes to read them ---- *)
Lemma reading_app fd h s : reading fd (h ++ [s]) =
  match s with
  | SOpen p (inl f) => if Nat.eqb f fd then Some p else reading fd h
  | SCreate _ _ (inl f) => if Nat.eqb f fd then None else reading fd h
  | SClose f _ => if Nat.eqb f fd then None else reading fd h
  | _ => reading fd h
  end.
Proof. unfold reading. now rewrite fold_left_app. Qed.
Lemma offset_app fd h s : offset fd (h ++ [s]) =
  match s with
  | SOpen p (inl f) => if Nat.eqb f fd then 0%nat else offset fd h
  | SRead f _ b None => if Nat.eqb f fd then (offset fd h + length b)%nat else offset fd h
  | _ => offset fd h
  end.
Proof. unfold offset. now rewrite fold_left_app. Qed.
Lemma answered_mid O h s t : answered O (h ++ s :: t) -> agrees O h s.
Proof. intro A. apply (A h s t eq_refl). Qed.

Section Steady.
Variable L : os.
Variable content : list step -> path -> bytes.
Lemma steady_reads p x fd ds l : serves L content -> read_pieces fd ds l -> forall h n e c,
  reading fd h = Some p -> answered L (h ++ l ++ SRead fd (Datatypes.S n) [] (Some e) :: c) -> steady content p x h l ->
  e = EOF /\ skipn (offset fd h) x = concat ds.
Proof.
  intros SV R. induction R as [|k d ds l R IH]; intros h n e c Hr A ST.
  - apply answered_mid in A. cbn [agrees] in A. rewrite (SV h fd p n Hr) in A. pose proof (ST [] [] eq_refl) as Ex. rewrite app_nil_r in Ex. rewrite Ex in A.
    destruct (skipn (offset fd h) x); [injection A as <-; split; reflexivity|discriminate].
  - pose proof (answered_mid L h _ _ A) as B. cbn [agrees] in B. rewrite (SV h fd p k Hr) in B.
    pose proof (ST [] _ eq_refl) as Ex. rewrite app_nil_r in Ex. rewrite Ex in B.
    set (h' := h ++ [SRead fd (Datatypes.S k) d None]).
    assert (A' : answered L (h' ++ l ++ SRead fd (Datatypes.S n) [] (Some e) :: c)) by (unfold h'; rewrite <- app_assoc; exact A).
    assert (Hr' : reading fd h' = Some p) by (unfold h'; rewrite reading_app; exact Hr).
    assert (ST' : steady content p x h' l).
    { intros c1 c2 E. unfold h'. rewrite <- app_assoc. apply (ST ([SRead fd (Datatypes.S k) d None] ++ c1) c2). rewrite E. reflexivity. }
    destruct (IH h' n e c Hr' A' ST') as [He Hc]. split; [exact He|]. unfold h' in Hc. rewrite offset_app, Nat.eqb_refl in Hc.
    destruct (skipn (offset fd h) x) as [|y r] eqn:E; [discriminate|]. injection B as B. cbn [concat]. rewrite <- Hc.
    assert (S2 : skipn (offset fd h + length d) x = skipn (length d) (y :: r)) by (rewrite <- E, skipn_skipn; f_equal; lia).
    rewrite S2. assert (D : d = firstn (length d) (y :: r)).
    { rewrite <- B. change (y :: firstn k r) with (firstn (Datatypes.S k) (y :: r)). rewrite firstn_length. 
      destruct (Nat.le_ge_cases (Datatypes.S k) (length (y :: r))) as [G|G]; [now rewrite Nat.min_l|].
      rewrite Nat.min_r by exact G. rewrite firstn_all. now apply firstn_all2. }
    rewrite D at 1. symmetry. apply firstn_skipn.
Qed.

Theorem steady_file p x r h c : serves L content -> answered L (h ++ c) -> file_read_as p r c -> steady content p x h c ->
  r = inl x \/ exists e, r = inr e /\ c = [SOpen p (inr e)].
Proof.
  intros SV A F ST. assert (K : forall fd z ds l n e cl, read_pieces fd ds l -> c = [SOpen p (inl fd); SStat fd z] ++ l ++ [SRead fd (Datatypes.S n) [] (Some e); SClose fd cl] ->
    e = EOF /\ x = concat ds).
  { intros fd z ds l n e cl R ->. set (h2 := h ++ [SOpen p (inl fd); SStat fd z]).
    assert (E2 : h2 = (h ++ [SOpen p (inl fd)]) ++ [SStat fd z]) by (unfold h2; now rewrite <- app_assoc).
    assert (Hr : reading fd h2 = Some p) by (rewrite E2, !reading_app, Nat.eqb_refl; reflexivity).
    assert (Ho : offset fd h2 = 0%nat) by (rewrite E2, !offset_app, Nat.eqb_refl; reflexivity).
    assert (ST2 : steady content p x h2 l).
    { intros c1 c2 E. unfold h2. rewrite <- app_assoc. eapply ST. rewrite E, <- !app_assoc. reflexivity. }
    rewrite app_assoc in A. destruct (steady_reads p x fd ds l SV R h2 n e [SClose fd cl] Hr A ST2) as [He Hc]. rewrite Ho in Hc. cbn [skipn] in Hc. auto. }
  destruct F as [e|fd z ds l n cl R|fd z ds l n e cl R N].
  - right. exists e. auto.
  - destruct (K fd z ds l n EOF cl R eq_refl) as [_ ->]. left. reflexivity.
  - destruct (K fd z ds l n e cl R eq_refl) as [E _]. destruct (N E).
Qed.
End Steady.

(* ---- psignify ---- *)
Lemma concluded_in_use f d r n e t fds : concluded f d r n e t -> (forall x, in_use x d = Some x) -> in_use fds t = Some fds.
Proof. intros K D. destruct K; [apply D|reflexivity..]. Qed.
Lemma run_in_use C O arg0 u ss n e h : run_of C O arg0 u ss n e h -> in_use [] h = Some [].
Proof.
  intros [Mo E|r n0 e0 h0 t Mo P N G K|pass r n0 e0 h0 t Mo P N A G K|y s h0 Mo P N NP Sh|Mo E|r n0 e0 h0 t Mo P N G K|r n0 e0 h0 t Mo G K|r n0 e0 h0 t Mo G K|r n0 e0 h0 t Mo G K|N];
    try reflexivity.
  - rewrite in_use_app. destruct G as (_ & _ & -> & _). apply (concluded_in_use _ _ _ _ _ _ _ K). reflexivity.
  - rewrite in_use_app. replace (in_use [] (typed_twice pass pass)) with (Some (@nil nat)) by reflexivity. rewrite in_use_app.
    destruct G as (_ & _ & -> & _). apply (concluded_in_use _ _ _ _ _ _ _ K). reflexivity.
  - destruct NP; reflexivity.
  - rewrite in_use_app. destruct G as (_ & _ & -> & _). apply (concluded_in_use _ _ _ _ _ _ _ K). reflexivity.
  - rewrite in_use_app. destruct G as (_ & _ & -> & _). apply (concluded_in_use _ _ _ _ _ _ _ K). reflexivity.
  - rewrite in_use_app. destruct G as (-> & _). apply (concluded_in_use _ _ _ _ _ _ _ K). reflexivity.
  - rewrite in_use_app. destruct G as (-> & _). apply (concluded_in_use _ _ _ _ _ _ _ K). reflexivity.
Qed.

Lemma detail_cons s h l : in_detail (s :: h) l ->
  match s with
  | SReadFile p r => exists c l', l = c ++ l' /\ file_read_as p r c /\ in_detail h l'
  | SWriteFile p b m r => exists c l', l = c ++ l' /\ file_written_as p b m r c /\ in_detail h l'
  | s => exists l', l = s :: l' /\ in_detail h l'
  end.
Proof. intro D. inversion D; subst; [eexists _, _; eauto|eexists _, _; eauto|]. destruct s; try (exfalso; cbn in *; auto; fail); eauto. Qed.
Lemma detail_nil l : in_detail [] l -> l = [].
Proof. intro D. inversion D. reflexivity. Qed.
Lemma detail_app h1 h2 l : in_detail (h1 ++ h2) l -> exists l1 l2, l = l1 ++ l2 /\ in_detail h1 l1 /\ in_detail h2 l2.
Proof.
  revert l; induction h1 as [|s h1 IH]; intros l D; cbn [app] in D; [exists [], l; repeat split; [constructor|exact D]|].
  inversion D as [|p r h c l' F D'|p b m r h c l' F D'|s' h l' N D']; subst; destruct (IH _ D') as (l1 & l2 & -> & D1 & D2).
  - exists (c ++ l1), l2. rewrite app_assoc. repeat split; [constructor; assumption|exact D2].
  - exists (c ++ l1), l2. rewrite app_assoc. repeat split; [constructor; assumption|exact D2].
  - exists (s :: l1), l2. repeat split; [constructor; assumption|exact D2].
Qed.
Lemma written_ok p b m c : file_written_as p b m None c -> exists fd n, Z.of_nat (length b) <= n /\ c = [SCreate p m (inl fd); SWrite fd b n None; SClose fd None].
Proof. intro F. inversion F; subst. eauto. Qed.

Section Sessions.
Variable C : Crypto.
Variable L : os.
Variable room fuel stop : list step -> nat.
Notation OV := (over L room fuel).
Theorem main_low arg0 u ss args rest n e h : LengthLaws C -> BoxTidy C -> rand_rules L -> file_rules L -> files_end L room fuel ->
  command_line ss args rest -> stops rest -> main_os C OV stop arg0 u args = (n, e, h) ->
  run_of C OV arg0 u ss n e h /\ exists l, in_detail h l /\ answered L l /\ in_use [] l = Some [] /\ Forall (fun s => ~ whole_file s) l.
Proof.
  intros LL BT RR FR FE Hc Hs M.
  pose proof (main_runs C OV stop arg0 u ss args rest n e h LL BT (over_rand_rules L room fuel RR) (over_file_rules L room fuel FR) Hc Hs M) as R.
  split; [exact R|]. pose proof (main_answered C OV stop arg0 u args) as A. rewrite M in A. cbn [snd] in A.
  destruct (expand_run L room fuel h FR A) as (A1 & A2 & A3 & A4). exists (expand L room fuel h). split; [apply A4, FE|]. split; [exact A1|]. split; [|exact A3].
  apply A2, (run_in_use _ _ _ _ _ _ _ _ R).
Qed.

(* -V *)
Theorem main_low_verified arg0 u ss args rest e h : LengthLaws C -> BoxTidy C -> rand_rules L -> file_rules L -> files_end L room fuel ->
  command_line ss args rest -> stops rest -> main_os C OV stop arg0 u args = (0, e, h) -> mode ss x56 ->
  let k := or_default (string_value x70 ss) (defaultKeyBase u) (str ".pub") in
  let m := string_value x6d ss in
  exists pf mf sf c1 c2 c3, file_read_as k (inl pf) c1 /\ file_read_as m (inl mf) c2 /\ file_read_as (sigPathOf m (string_value x78 ss)) (inl sf) c3 /\
    answered L (c1 ++ c2 ++ c3) /\ signature_text (fun k m s => ed_verify C k m s = true) pf mf sf.
Proof.
  intros LL BT RR FR FE Hc Hs M Mo k m. destruct (main_low arg0 u ss args rest 0 e h LL BT RR FR FE Hc Hs M) as (_ & l & D & A & _ & _).
  destruct (main_verified C OV stop arg0 u ss args rest 0 e h LL BT (over_rand_rules L room fuel RR) (over_file_rules L room fuel FR) Hc Hs M Mo) as [V _].
  destruct (proj1 V eq_refl) as (pf & mf & sf & _ & Sg & ->). fold k m in D.
  apply detail_cons in D as (c1 & l1 & -> & F1 & D). apply detail_cons in D as (c2 & l2 & -> & F2 & D). apply detail_cons in D as (c3 & l3 & -> & F3 & D).
  exists pf, mf, sf, c1, c2, c3. repeat (split; [assumption|]). split; [|exact Sg].
  intros h1 s h2 E. apply (A h1 s (h2 ++ l3)). transitivity ((c1 ++ c2 ++ c3) ++ l3); [now rewrite <- !app_assoc|]. rewrite E, <- app_assoc. reflexivity.
Qed.
Theorem main_low_steady arg0 u ss args rest e h content held : LengthLaws C -> BoxTidy C -> rand_rules L -> file_rules L -> files_end L room fuel ->
  command_line ss args rest -> stops rest -> main_os C OV stop arg0 u args = (0, e, h) -> mode ss x56 ->
  serves L content -> (forall l p, content l p = held p) ->
  let k := or_default (string_value x70 ss) (defaultKeyBase u) (str ".pub") in
  let m := string_value x6d ss in
  signature_text (fun k m s => ed_verify C k m s = true) (held k) (held m) (held (sigPathOf m (string_value x78 ss))).
Proof.
  intros LL BT RR FR FE Hc Hs M Mo SV HD k m.
  destruct (main_low_verified arg0 u ss args rest e h LL BT RR FR FE Hc Hs M Mo) as (pf & mf & sf & c1 & c2 & c3 & F1 & F2 & F3 & A & Sg). fold k m in F1, F2, F3.
  assert (ST : forall p h c, steady content p (held p) h c) by (intros p h' c c' c'' _; apply HD).
  assert (K : forall p r h c t, answered L ((h ++ c) ++ t) -> file_read_as p (inl r) c -> r = held p).
  { intros p r h' c t A' F. assert (A2 : answered L (h' ++ c)) by (intros x y z E; apply (A' x y (z ++ t)); rewrite E, <- app_assoc; reflexivity).
    destruct (steady_file L content p (held p) (inl r) h' c SV A2 F (ST p h' c)) as [X|(x & X & _)]; [injection X as X; exact X|discriminate]. }
  rewrite <- (K k pf [] c1 (c2 ++ c3)); [|rewrite app_nil_l; exact A|exact F1].
  rewrite <- (K m mf c1 c2 c3); [|rewrite <- app_assoc; exact A|exact F2].
  rewrite <- (K _ sf (c1 ++ c2) c3 []); [exact Sg|rewrite app_nil_r, <- app_assoc; exact A|exact F3].
Qed.
(* -S: the last three calls *)
Theorem main_low_signed arg0 u ss args rest e h : LengthLaws C -> BoxTidy C -> rand_rules L -> file_rules L -> files_end L room fuel ->
  command_line ss args rest -> stops rest -> main_os C OV stop arg0 u args = (0, e, h) -> mode ss x53 ->
  let m := string_value x6d ss in
  forall name, pub_name (or_default (string_value x73 ss) (defaultKeyBase u) (str ".sec")) name ->
  exists p mf l c fd n, let text := signature_file name (keyAlgo p) (keyNum p) (ed_sign C (key p) mf) in
    file_read_as m (inl mf) c /\ Z.of_nat (length text) <= n /\
    answered L (l ++ c ++ [SCreate (sigPathOf m (string_value x78 ss)) 420 (inl fd); SWrite fd text n None; SClose fd None]).
Proof.
  intros LL BT RR FR FE Hc Hs M Mo m name PN. destruct (main_low arg0 u ss args rest 0 e h LL BT RR FR FE Hc Hs M) as (R & l & D & A & _ & _). clear M.
  inversion R as [Mo'|r n0 e0 h0 t Mo'|pass r n0 e0 h0 t Mo'|y s h0 Mo'|Mo'|r n0 e0 h0 t Mo' P N G K|r n0 e0 h0 t Mo'|r n0 e0 h0 t Mo'|r n0 e0 h0 t Mo'|N];
    try (pose proof (mode_fun _ _ _ Mo Mo'); discriminate).
  subst. fold m in G, K, N. inversion K; subst. rewrite app_nil_r in D. destruct G as (_ & _ & _ & G).
  destruct (proj1 (G name PN) eq_refl) as (_ & kf & priv & asks & p & mf & _ & _ & ->).
  apply detail_app in D as (l1 & l2 & -> & _ & D). apply detail_app in D as (l3 & l4 & -> & _ & D).
  apply detail_cons in D as (c & l5 & -> & F & D). apply detail_cons in D as (w & l6 & -> & W & D). apply detail_nil in D as ->.
  apply written_ok in W as (fd & n & Hn & ->). exists p, mf, (l1 ++ l3), c, fd, n. cbv zeta. split; [exact F|]. split; [exact Hn|].
  rewrite app_nil_r in A. rewrite <- app_assoc. exact A.
Qed.
End Sessions.
