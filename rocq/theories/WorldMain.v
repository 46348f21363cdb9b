(* psignify on a world and over the operating system it amounts to: proofs. *)
From Verif Require Import PrintExample.
From Verif Require Import SimFacts WorldOsFacts CmdCallFacts CmdCallEnds MemWitness SealWitness CallExample.
From Verif Require Import SpecWorldOs SpecCmdCalls.
Local Open Scope Z_scope.

Lemma on_stderr_app a b : on_stderr (a ++ b) = on_stderr a ++ on_stderr b.
Proof. apply flat_map_app. Qed.
Lemma elsewhere_app a b : elsewhere (a ++ b) = elsewhere a ++ elsewhere b.
Proof. apply filter_app. Qed.

(* the rules of operating systems *)
Lemma os_of_rand w : rand_rules (os_of w).
Proof.
  intros h n b. cbn [os_of o_rand]. unfold rand_read. destruct (Nat.ltb_spec (length (w_rng (fst (reached w h)))) n) as [L|L]; cbn [fst answer]; [discriminate|].
  intro E. injection E as <-. apply firstn_length_le, L.
Qed.
Lemma os_of_file w : file_rules (os_of w).
Proof.
  split.
  - intros h fd n b r. cbn [os_of o_read]. destruct (input fd) as [k|]; [|intro E; injection E as <- <-; reflexivity].
    unfold file_read. destruct (pop_fault _) as [f v].
    assert (G : forall p off lim, (lim <= n)%nat ->
      (match (match n, firstn lim (skipn off (match w_fs v p with Some fl => f_data fl | None => [] end)) with
             | S _, [] => (RRet [] (Some EOF), v)
             | _, _ => (RRet (firstn lim (skipn off (match w_fs v p with Some fl => f_data fl | None => [] end))) None,
                        set_fds v (set_nth k (p, (off + length (firstn lim (skipn off (match w_fs v p with Some fl => f_data fl | None => [] end))))%nat) (w_fds v)))
             end) with (RRet b r, _) => (b, r) | (RPanic, _) => ([], Some EFault) end) = (b, r) ->
      (0 < n)%nat -> match r with None => (1 <= length b <= n)%nat | Some _ => b = [] end).
    { intros p off lim L. set (g := firstn lim _). assert (Lg : (length g <= n)%nat) by (unfold g; rewrite firstn_length; lia).
      destruct n as [|n]; [lia|]. clearbody g; destruct g as [|y g]; intro E; injection E as <- <-; intros _; [reflexivity|]. cbn [length] in *. lia. }
    destruct f as [|q|q]; cbn [fst].
    + destruct (nth_error (w_fds v) k) as [[p off]|]; [|intro E; injection E as <- <-; reflexivity]. intro E. apply (G p off n (le_n n)).
      destruct n; [exact E|]. destruct (firstn _ _); exact E.
    + intro E. injection E as <- <-. reflexivity.
    + destruct (nth_error (w_fds v) k) as [[p off]|]; [|intro E; injection E as <- <-; reflexivity]. intro E. apply (G p off (Nat.min n (S q))); [lia|].
      destruct n; [exact E|]. destruct (firstn _ _); exact E.
  - intros h fd z. cbn [os_of o_stat]. destruct (input fd) as [k|]; [|discriminate]. destruct (fst (file_size k _)) as [s|e|]; try discriminate.
    intro E. injection E as <-. unfold bounded. lia.
Qed.

(* no call prints on standard error *)
Lemma act_err s c : on_stderr (w_log (fst (act s c))) = on_stderr (w_log (fst s)).
Proof.
  assert (Cr : forall p m w, on_stderr (w_log (snd (create_file p m w))) = on_stderr (w_log w)).
  { intros p m [fs fa rng tty bf fd lg]. unfold create_file, pop_fault. cbn. destruct fa as [|f fa]; cbn; cases; cbn; rewrite ?on_stderr_app; cbn; rewrite ?app_nil_r; reflexivity. }
  assert (Wr : forall p d w, on_stderr (w_log (snd (file_write p d w))) = on_stderr (w_log w)).
  { intros p d [fs fa rng tty bf fd lg]. unfold file_write, pop_fault. cbn. destruct fa as [|f fa]; cbn; cases; cbn; rewrite ?on_stderr_app; cbn; rewrite ?app_nil_r; reflexivity. }
  destruct s as [w outs]. destruct c; cbn [act fst].
  - destruct w as [fs fa rng tty bf fd lg]. unfold ReadFile, pop_fault. cbn. destruct fa as [|f fa]; cbn; cases; reflexivity.
  - unfold WriteFile. pose proof (Cr p mode w) as E. destruct (create_file p mode w) as [[x|x|] w1]; cbn [snd] in *; [|exact E..].
    pose proof (Wr p b w1) as E1. destruct (file_write p b w1) as [[k [x'|]] w2]; cbn [snd] in *; [congruence|]. rewrite <- E, <- E1.
    destruct w2 as [fs fa rng tty bf fd lg]. unfold pop_fault. cbn. destruct fa as [|f fa]; cbn; cases; reflexivity.
  - destruct w as [fs fa rng tty bf fd lg]. unfold open_read, pop_fault. cbn. destruct fa as [|f fa]; cbn; cases; reflexivity.
  - pose proof (Cr p mode w) as E. destruct (create_file p mode w) as [x w1]. exact E.
  - destruct (input fd) as [k|]; [|reflexivity]. destruct w as [fs fa rng tty bf fds lg]. unfold file_size, pop_fault. cbn. destruct fa as [|f fa]; cbn; cases; reflexivity.
  - destruct (input fd) as [k|]; [|reflexivity]. destruct w as [fs fa rng tty bf fds lg]. unfold file_read, pop_fault. cbn. destruct fa as [|f fa]; cbn; cases; reflexivity.
  - destruct (output outs fd) as [p|]; [|reflexivity]. apply Wr.
  - reflexivity.
  - destruct w as [fs fa rng tty bf fds lg]. unfold rand_read. cbn. cases; reflexivity.
  - destruct w as [fs fa rng tty bf fds lg]. unfold ReadPassword. cbn. cases; reflexivity.
  - cbn [emit w_log]. rewrite on_stderr_app. apply app_nil_r.
Qed.
Lemma reached_err w h : on_stderr (w_log (fst (reached w h))) = on_stderr (w_log w).
Proof. induction h as [|c h IH] using rev_ind; [reflexivity|]. rewrite reached_snoc, act_err. exact IH. Qed.

Section Main.
Variable C : Crypto.
Variable w0 : world.
Hypothesis Pw : plain_world w0.
Let Tty : calm_tty w0 := proj1 Pw.
Notation O := (os_of w0).

Definition ended (x : Z * world) (y : ending) : Prop :=
  let '(n, e, h) := y in fst x = n /\ leads w0 h (snd x) /\ on_stderr (w_log (snd x)) = on_stderr (w_log w0) ++ e.
Lemma here_leads w h : here w0 w h -> leads w0 h w /\ on_stderr (w_log w) = on_stderr (w_log w0).
Proof.
  intros (outs & b & E). pose proof (reached_err w0 h) as Q. unfold leads. rewrite E in *. cbn [fst] in *. destruct w. split; [repeat split|exact Q].
Qed.
Lemma here_out w h t : here w0 w h -> here w0 (emit w (EvOut t)) (h ++ [SOut t]).
Proof. intros (outs & A). exists outs. exact (proj2 (out_sim w0 outs t w h A)). Qed.
Lemma ended_quiet n w h : here w0 w h -> ended (n, w) (n, [], h).
Proof. intro Q. apply here_leads in Q as [L E]. split; [reflexivity|]. split; [exact L|]. cbn [snd]. rewrite E, app_nil_r. reflexivity. Qed.
Lemma ended_err n w h e : here w0 w h -> ended (n, emit w (EvErr e)) (n, e, h).
Proof.
  intro Q. apply here_leads in Q as [L E]. split; [reflexivity|]. cbn [snd emit w_log]. split.
  - destruct L as (A & B & D & F & G & I). repeat (split; [assumption|]). cbn [emit w_log]. rewrite elsewhere_app. cbn [elsewhere filter]. rewrite app_nil_r. exact I.
  - rewrite on_stderr_app, E. cbn [on_stderr flat_map]. rewrite app_nil_r. reflexivity.
Qed.
Lemma action_ended (m : M unit) (m' : H unit) f ok w h : alike (here w0) (m w) (m' h) -> ended (action m f ok w) (action_os m' f ok h).
Proof.
  intro X. unfold action, action_os. both X. destruct a as [[]|e|].
  - apply ended_quiet. destruct ok; [apply here_out|]; exact R.
  - apply ended_err, R.
  - apply ended_quiet, R.
Qed.
Lemma sim_here {A} (m : M A) (m' : H A) w h : (forall outs, sim (at_ w0 outs) m m') -> at_ w0 [] w h -> alike (here w0) (m w) (m' h).
Proof. intros S At. eapply alike_here. exact (S [] w h At). Qed.
Let St : at_ w0 [] w0 [] := at_start w0.

Theorem main_same arg0 u args : ended (main C arg0 u args w0) (main_os C O (last_fuel w0) arg0 u args).
Proof.
  unfold main, main_os. destruct (flagParse args) as [f r|msg].
  2:{ assert (X : here w0 (emit w0 (EvOut (usageText arg0))) [SOut (usageText arg0)]) by (apply (here_out w0 []); eapply at_here; exact St).
      pose proof (ended_err 0 _ _ msg X) as (A & (B1 & B2 & B3 & B4 & B5 & B6) & D). cbn [fst snd emit w_log w_fs w_rng w_tty w_faults w_fds] in *.
      rewrite !elsewhere_app, !on_stderr_app in *. cbn [elsewhere filter on_stderr flat_map] in *. rewrite ?app_nil_r in *.
      destruct msg as [|c msg]; (split; [reflexivity|]); cbn [fst snd emit w_log w_fs w_rng w_tty w_faults w_fds]; unfold leads;
      cbn [fst snd emit w_log w_fs w_rng w_tty w_faults w_fds]; rewrite ?elsewhere_app, ?on_stderr_app; cbn [elsewhere filter on_stderr flat_map]; rewrite ?app_nil_r in *;
      (split; [repeat (split; [assumption|]); exact B6|exact D]). }
  unfold dispatch, dispatch_os. cbv zeta.
  set (sk := if isEmpty (f_s f) && negb (isEmpty (defaultKeyBase u)) then defaultKeyBase u ++ str ".sec" else f_s f).
  set (pk := if isEmpty (f_p f) && negb (isEmpty (defaultKeyBase u)) then defaultKeyBase u ++ str ".pub" else f_p f).
  assert (H0 : here w0 w0 []) by (eapply at_here; exact St).
  destruct (f_G f).
  { unfold generateAction, generateAction_os. destruct (isEmpty pk); [apply ended_err, H0|]. cbv zeta. destruct (f_n f).
    - apply action_ended, sim_here; [intro outs; apply GenerateKey_sim|exact St].
    - pose proof (confirm_sim w0 Tty [] w0 [] St) as T. unfold typed in T.
      destruct (PassphrasePrompt true w0) as [[i|e|] w1], (confirm_os O []) as [[p|e'|] h1]; cbn [fst snd] in T; destruct T as [A X]; try contradiction.
      + unfold buf_get. rewrite X. apply action_ended, sim_here; [intro outs; apply GenerateKey_sim|exact A].
      + subst e'. apply ended_err. eapply at_here; exact A.
      + apply ended_quiet. eapply at_here; exact A. }
  destruct (f_S f).
  { destruct (isEmpty sk || isEmpty (f_m f)); [apply ended_err, H0|]. apply action_ended, sim_here; [intro outs; apply Sign_sim, Tty|exact St]. }
  destruct (f_V f); [apply action_ended, sim_here; [intro outs; apply Verify_sim|exact St]|].
  destruct (f_E f); [apply action_ended, Seal_sim; [exact St|intro fl; apply (proj2 Pw)]|].
  destruct (f_D f); [apply action_ended, Open_sim; [exact Tty|exact St]|].
  apply ended_err, H0.
Qed.
End Main.

Theorem world_main C w arg0 u args : plain_world w -> exists n e h w',
  main C arg0 u args w = (n, w') /\ main_os C (os_of w) (last_fuel w) arg0 u args = (n, e, h) /\
  leads w h w' /\ on_stderr (w_log w') = on_stderr (w_log w) ++ e.
Proof.
  intro P. pose proof (main_same C w P arg0 u args) as E. destruct (main C arg0 u args w) as [n w'], (main_os _ _ _ _ _ _) as [[n' e] h].
  destruct E as (A & B & D). cbn [fst snd] in *. subst n'. exists n, e, h, w'. auto.
Qed.
Theorem world_rules w : rand_rules (os_of w) /\ file_rules (os_of w).
Proof. split; [apply os_of_rand|apply os_of_file]. Qed.

Section Operations.
Variable C : Crypto.
Variable w : world.
Hypothesis Pw : plain_world w.
Lemma agree {A} (m : M A) (m' : H A) : alike (here w) (m w) (m' []) ->
  exists r h w', m w = (r, w') /\ m' [] = (r, h) /\ leads w h w' /\ on_stderr (w_log w') = on_stderr (w_log w).
Proof.
  destruct (m w) as [r w'] eqn:E, (m' []) as [r' h] eqn:E'. intros [X R]. cbn [fst snd] in X, R. subst r'. apply here_leads in R. exists r, h, w'. tauto.
Qed.
Lemma world_verify k m s : exists r h w',
  Verify C k m s w = (r, w') /\ Verify_os C (os_of w) k m s [] = (r, h) /\ leads w h w' /\ on_stderr (w_log w') = on_stderr (w_log w).
Proof. apply agree, sim_here; [intro outs; apply Verify_sim|apply at_start]. Qed.
Lemma world_sign k m s : exists r h w',
  Sign C k m s w = (r, w') /\ Sign_os C (os_of w) k m s [] = (r, h) /\ leads w h w' /\ on_stderr (w_log w') = on_stderr (w_log w).
Proof. apply agree, sim_here; [intro outs; apply Sign_sim, (proj1 Pw)|apply at_start]. Qed.
Lemma world_generate k pass opts : exists r h w',
  GenerateKey C k pass opts w = (r, w') /\ GenerateKey_os C (os_of w) k pass opts [] = (r, h) /\ leads w h w' /\
  on_stderr (w_log w') = on_stderr (w_log w).
Proof. apply agree, sim_here; [intro outs; apply GenerateKey_sim|apply at_start]. Qed.
Lemma world_seal k m e : exists r h w',
  Seal C k m e w = (r, w') /\ Seal_os C (os_of w) k m e [] = (r, h) /\ leads w h w' /\ on_stderr (w_log w') = on_stderr (w_log w).
Proof. apply agree, Seal_sim; [apply at_start|intro fl; apply (proj2 Pw)]. Qed.
Lemma world_open k e m : exists r h w',
  Open C k e m w = (r, w') /\ Open_os C (os_of w) (last_fuel w) k e m [] = (r, h) /\ leads w h w' /\ on_stderr (w_log w') = on_stderr (w_log w).
Proof. apply agree, Open_sim; [apply (proj1 Pw)|apply at_start]. Qed.
End Operations.

Lemma world_session C w arg0 u ss args rest : LengthLaws C -> BoxTidy C -> plain_world w -> command_line ss args rest -> stops rest ->
  exists n e h w', main C arg0 u args w = (n, w') /\ run_of C (os_of w) arg0 u ss n e h /\
  leads w h w' /\ on_stderr (w_log w') = on_stderr (w_log w) ++ e.
Proof.
  intros L B P X Y. destruct (world_main C w arg0 u args P) as (n & e & h & w' & E & E' & R). exists n, e, h, w'. split; [exact E|]. split; [|exact R].
  destruct (world_rules w) as [Rr Rf]. exact (main_runs C (os_of w) (last_fuel w) arg0 u ss args rest n e h L B Rr Rf X Y E').
Qed.

(* signing with a key kept under a passphrase, with all calls successful and with the writing cut off after 3 bytes *)
Definition signing_world (faults : list fault) : world :=
  World (files key_files) faults [] [Ok (str "right")] [] [] [].
Definition signing_args : list bytes := [str "-S"; str "-s"; str "l.sec"; str "-m"; str "m"].
Definition signing_flags : list setting := [SetB x53 true; SetS x73 (str "l.sec"); SetS x6d (str "m")].
Definition signing_start : list step :=
  [SReadFile (str "l.sec") (inl (sec_file toy_locked)); SOut (str "Password: "); SPass (inl (str "right")); SOut [x0a]; SReadFile (str "m") (inl (str "hello"))].
Lemma signing_plain faults : plain_world (signing_world faults).
Proof.
  split; [repeat constructor; discriminate|]. intros p f E. cbn [signing_world w_fs key_files files] in E.
  repeat match type of E with context [bytes_eqb ?a ?b] => destruct (bytes_eqb a b); [injection E as <-; vm_compute; reflexivity|] end. discriminate.
Qed.
Definition signing_run (faults : list fault) : ending :=
  main_os toy (os_of (signing_world faults)) (last_fuel (signing_world faults)) (str "psignify") None signing_args.
Definition cut_write : list fault := [FOk; FOk; FOk; FFail 3].
Definition l_sig : bytes := signature_file (str "l.pub") (str "Ed") (repeat x01 8) (fit 64 (str "hello")).
Definition signed (faults : list fault) : Z * option file := let '(n, w) := main toy (str "psignify") None signing_args (signing_world faults) in (n, w_fs w (str "m.sig")).
Lemma example_signing :
  LengthLaws toy /\ BoxTidy toy /\ command_line signing_flags signing_args [] /\ stops [] /\ (forall faults, plain_world (signing_world faults)) /\
  signing_run [] = (0, [], signing_start ++ [SWriteFile (str "m.sig") l_sig 420 None]) /\
  signed [] = (0, Some (File l_sig 420)) /\
  signing_run cut_write = (1, line (str "Signing m failed: error"), signing_start ++ [SWriteFile (str "m.sig") l_sig 420 (Some EFault)]) /\
  signed cut_write = (1, Some (File (firstn 3 l_sig) 420)).
Proof.
  split; [exact toy_lengths|]. split; [exact toy_tidy|].
  split; [exists ([[str "-S"]; [str "-s"; str "l.sec"]; [str "-m"; str "m"]]); split; [repeat constructor; flag|reflexivity]|].
  split; [constructor|]. split; [exact signing_plain|]. do 3 (split; [vm_compute; reflexivity|]). vm_compute. reflexivity.
Qed.
