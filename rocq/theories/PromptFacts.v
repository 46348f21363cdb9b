(* Functions put in place of PassphrasePrompt: proofs. *)
From Verif Require Import SpecPrompt Footprint SignWitness ToyCrypto.
Local Open Scope Z_scope.

Section Near.
Variable Q : list bytes -> Prop.
Variable T : list (res bytes) -> Prop.
Definition near (w v : world) : Prop := still w v /\ (Q (w_bufs w) /\ T (w_tty v)).
Lemma on_files_app a b : on_files (a ++ b) = on_files a ++ on_files b.
Proof. apply filter_app. Qed.

Ltac worlds := intros [fs fa rg ty bf fd lg] [fs' fa' rg' ty' bf' fd' lg'] [(E1 & E2 & E3 & E4 & E5) E6];
  cbn [w_fs w_faults w_rng w_tty w_bufs w_fds w_log] in *; subst fs' fa' rg' fd'.
Ltac near_done := split; [reflexivity|]; split; [|assumption]; repeat (split; [reflexivity|]); cbn -[on_files]; rewrite ?on_files_app; congruence.
Ltac split_all := repeat match goal with |- context [match ?x with _ => _ end] => destruct x eqn:?; cbn end.

Lemma near_pop : resp near pop_fault.
Proof. worlds. unfold pop_fault. cbn. destruct fa; near_done. Qed.
Lemma near_readfile p : resp near (ReadFile p).
Proof. worlds. unfold ReadFile, pop_fault. cbn. destruct fa as [|f fa]; cbn; split_all; near_done. Qed.
Lemma near_create p m : resp near (create_file p m).
Proof. worlds. unfold create_file, pop_fault, do_create. cbn. destruct fa as [|f fa]; cbn; split_all; near_done. Qed.
Lemma near_write p : wresp near (file_write p).
Proof. intro b. worlds. unfold file_write, pop_fault, do_append. cbn. destruct fa as [|f fa]; cbn; split_all; near_done. Qed.
Lemma near_open p : resp near (open_read p).
Proof. worlds. unfold open_read, pop_fault. cbn. destruct fa as [|f fa]; cbn; split_all; near_done. Qed.
Lemma near_read k : rresp near (file_read k).
Proof. intro n. worlds. unfold file_read, pop_fault. cbn. destruct fa as [|f fa]; cbn; split_all; near_done. Qed.
Lemma near_fuel k w v : near w v -> file_fuel k w = file_fuel k v.
Proof. intros [(A & _ & _ & D & _) _]. unfold file_fuel, remaining. rewrite A, D. reflexivity. Qed.
Lemma near_bind {A B} (m : M A) (k : A -> M B) : resp near m -> (forall a, resp near (k a)) -> resp near (bind m k).
Proof.
  intros Hm Hk w v N. unfold bind. pose proof (Hm w v N) as H. both H. destruct a as [a|e|]; [apply Hk; exact R|split; [reflexivity|exact R]..].
Qed.
Lemma near_lift {A} (r : res A) : resp near (lift r).
Proof. intros w v N. split; [reflexivity|exact N]. Qed.
Lemma near_writefile p d m : resp near (WriteFile p d m).
Proof.
  intros w v N. unfold WriteFile. pose proof (near_create p m w v N) as H. both H. destruct a as [a|e|]; try (split; [reflexivity|exact R]).
  pose proof (near_write p d s t R) as H. both H. destruct a0 as [k [e|]]; [split; [reflexivity|exact R0]|].
  pose proof (near_pop s0 t0 R0) as H. both H. destruct a0; split; solve [reflexivity|exact R1].
Qed.
Lemma near_load p : resp near (LoadPrivateKey p).
Proof. apply near_bind; [apply near_readfile|intro d; apply near_lift]. Qed.
Lemma near_finish C k m s p : resp near (signFinish C k m s p).
Proof. apply near_bind; [apply near_readfile|intro d; apply near_writefile]. Qed.
Lemma near_body C edpriv k m : resp near (open_body C world edpriv (file_decoder k) (file_write m)).
Proof.
  apply open_body_resp; [|apply near_write]. apply dec_read_resp; [apply near_read|]. intros w v _ N. apply near_fuel, N.
Qed.
End Near.

Definition any {A} (_ : A) : Prop := True.
Lemma still_refl w : still w w.
Proof. repeat split. Qed.
Lemma still_trans u v w : still u v -> still v w -> still u w.
Proof. intros (A & B & D & E & F) (A' & B' & D' & E' & F'). unfold still. repeat split; congruence. Qed.
Lemma still_sym u v : still u v -> still v u.
Proof. intros (A & B & D & E & F). unfold still. repeat split; congruence. Qed.
Lemma still_out w t : still w (emit w (EvOut t)).
Proof. unfold still. repeat (split; [reflexivity|]). cbn -[on_files]. rewrite on_files_app. apply app_nil_r. Qed.
Lemma still_zero i w : still w (zero_buf i w).
Proof. unfold zero_buf. destruct (nth_error _ _); repeat split. Qed.

(* the standard prompt when ans is typed *)
Lemma standard w ans : w_tty w = [ans] ->
  still w (snd (PassphrasePrompt false w)) /\
  match fst (PassphrasePrompt false w), ans with
  | Ok i, Ok pass => nth_error (w_bufs (snd (PassphrasePrompt false w))) i = Some pass
  | Err e, Err e' => e = e'
  | Panic, Panic => True
  | _, _ => False
  end.
Proof.
  destruct w as [fs fa rg ty bf fd lg]. cbn [w_tty]. intros ->. unfold PassphrasePrompt, bind, stdout, ReadPassword, ret. cbn -[on_files nth_error].
  destruct ans as [pass|e|]; cbn -[on_files nth_error].
  - split; [|rewrite nth_error_app2, Nat.sub_diag by apply le_n; reflexivity].
    unfold still. cbn -[on_files]. rewrite !on_files_app, !app_nil_r. repeat split.
  - split; [|reflexivity]. unfold still. cbn -[on_files]. rewrite !on_files_app, !app_nil_r. repeat split.
  - split; [|exact I]. unfold still. cbn -[on_files]. rewrite !on_files_app, !app_nil_r. repeat split.
Qed.

Section Any.
Variable C : Crypto.
Variable prompt : bool -> M nat.
Variable w0 : world.
Variable ans : res bytes.
Hypothesis G : gives prompt w0 ans.
Notation before := (near (eq (w_bufs w0)) (eq [ans])).
Notation after := (near any any).

(* both prompts, when asked *)
Lemma asked_both w v : before w v ->
  after (snd (prompt false w)) (snd (PassphrasePrompt false v)) /\
  match fst (prompt false w), fst (PassphrasePrompt false v) with
  | Ok i, Ok j => exists pass, nth_error (w_bufs (snd (prompt false w))) i = Some pass /\ nth_error (w_bufs (snd (PassphrasePrompt false v))) j = Some pass
  | Err e, Err e' => e = e'
  | Panic, Panic => True
  | _, _ => False
  end.
Proof.
  intros [S [B T]]. destruct (G w (eq_sym B)) as [S1 M1]. destruct (standard v ans (eq_sym T)) as [S2 M2].
  split. { split; [|split; exact I]. eapply still_trans; [apply still_sym, S1|]. eapply still_trans; [exact S|exact S2]. }
  destruct (fst (prompt false w)) as [i|e|], ans as [pass|e0|]; try contradiction;
  destruct (fst (PassphrasePrompt false v)) as [j|e2|]; try contradiction; [exists pass; auto|congruence|exact I].
Qed.

Lemma after_zero i j w v : after w v -> after (zero_buf i w) (zero_buf j v).
Proof.
  intros [S _]. split; [|split; exact I]. eapply still_trans; [apply still_sym, still_zero|]. eapply still_trans; [exact S|apply still_zero].
Qed.
Lemma start_near : before w0 (typing w0 ans).
Proof. split; [repeat split|split; reflexivity]. Qed.
Lemma to_after w v : before w v -> after w v.
Proof. intros [S _]. split; [exact S|split; exact I]. Qed.

Theorem sign_by_alike k m s : same still (Sign_by C prompt k m s w0) (Sign C k m s (typing w0 ans)).
Proof.
  enough (H : same after (Sign_by C prompt k m s w0) (Sign C k m s (typing w0 ans))) by (destruct H as [E [S _]]; split; assumption).
  unfold Sign_by, Sign. unfold bind at 1 4. pose proof (near_load (eq (w_bufs w0)) (eq [ans]) k _ _ start_near) as H. both H.
  destruct a as [p|e|]; try (split; [reflexivity|apply to_after, R]).
  destruct (IsEncrypted p).
  2:{ apply near_finish, to_after, R. }
  unfold bind at 1 3. pose proof (asked_both _ _ R) as [A X]. destruct (prompt false s0) as [a s1], (PassphrasePrompt false t) as [b t1]. cbn [fst snd] in *.
  destruct a as [i|e|], b as [j|e'|]; try contradiction.
  - destruct X as (pass & X1 & X2). unfold defer, bind, buf_get. rewrite X1, X2. destruct (decrypt C p pass) as [[[]|e|] p'].
    + pose proof (near_finish any any C k m (sigPathOf m s) p' _ _ A) as H. both H. split; [reflexivity|]. apply after_zero, R0.
    + split; [reflexivity|apply after_zero, A].
    + split; [reflexivity|apply after_zero, A].
  - subst e'. split; [reflexivity|exact A].
  - split; [reflexivity|exact A].
Qed.

Lemma tobox_both p w v : before w v -> same after (ToBox_by C prompt p w) (priv_ToBox C p v).
Proof.
  intro B. unfold ToBox_by, priv_ToBox. destruct (Check C p) as [[]|e|]; [split; [reflexivity|apply to_after, B]|..];
  (pose proof (asked_both _ _ B) as [A X]; destruct (prompt false w) as [a s1], (PassphrasePrompt false v) as [b t1]; cbn [fst snd] in *;
   destruct a as [i|e1|], b as [j|e1'|]; try contradiction;
   [destruct X as (pass & X1 & X2); unfold buf_get; rewrite X1, X2; destruct (decrypt C p pass) as [[[]|e2|] p']; (split; [reflexivity|exact A])
   |subst e1'; split; [reflexivity|exact A]|split; [reflexivity|exact A]]).
Qed.
Theorem tobox_by_alike p : same still (ToBox_by C prompt p w0) (priv_ToBox C p (typing w0 ans)).
Proof. destruct (tobox_both p _ _ start_near) as [E [S _]]. split; assumption. Qed.

Theorem open_by_alike k e m : same still (Open_by C prompt k e m w0) (Open C k e m (typing w0 ans)).
Proof.
  enough (H : same after (Open_by C prompt k e m w0) (Open C k e m (typing w0 ans))) by (destruct H as [E [S _]]; split; assumption).
  unfold Open_by, Open. unfold bind at 1 5. pose proof (near_load (eq (w_bufs w0)) (eq [ans]) k _ _ start_near) as H. both H.
  destruct a as [p|x|]; try (split; [reflexivity|apply to_after, R]).
  unfold bind at 1 4. pose proof (near_open _ _ e _ _ R) as H. both H. destruct a as [fd|x|]; try (split; [reflexivity|apply to_after, R0]).
  unfold bind at 1 3. pose proof (skipComment_resp _ _ (file_read fd) (file_fuel fd) (near_read _ _ fd) (near_fuel _ _ fd) _ _ R0) as H. both H.
  destruct a as [u|x|]; try (split; [reflexivity|apply to_after, R1]).
  unfold bind at 1 2. pose proof (near_create _ _ m 438 _ _ R1) as H. both H. destruct a as [u'|x|]; try (split; [reflexivity|apply to_after, R2]).
  unfold open_file_by, open_file. pose proof (tobox_both p _ _ R2) as H. both H. destruct a as [[edpriv|x|] p']; try (split; [reflexivity|exact R3]).
  apply near_body, R3.
Qed.
End Any.

(* the routines of Keys.v and SealOpen.v are those with the standard function *)
Lemma standard_by C : (forall k m s w, Sign_by C PassphrasePrompt k m s w = Sign C k m s w) /\
  (forall p w, ToBox_by C PassphrasePrompt p w = priv_ToBox C p w) /\
  (forall k e m w, Open_by C PassphrasePrompt k e m w = Open C k e m w).
Proof. repeat split. Qed.

(* buffers *)
Lemma keeps_bufs {A} (m : M A) : (forall Q T, resp (near Q T) m) -> forall w, w_bufs (snd (m w)) = w_bufs w.
Proof.
  intros H w. destruct (H (eq (w_bufs w)) any w w) as [_ [_ [E _]]]; [|symmetry; exact E].
  split; [apply still_refl|split; [reflexivity|exact I]].
Qed.
Lemma finish_bufs C k m s p w : w_bufs (snd (signFinish C k m s p w)) = w_bufs w.
Proof. apply keeps_bufs. intros Q T. apply near_finish. Qed.
Lemma nth_set_same {A} (l : list A) : forall i x y, nth_error l i = Some y -> nth_error (set_nth i x l) i = Some x.
Proof. induction l as [|h l IH]; intros [|i] x y; cbn; try discriminate; [reflexivity|apply IH]. Qed.
Lemma nth_set_other {A} (l : list A) : forall i j x, j <> i -> nth_error (set_nth i x l) j = nth_error l j.
Proof. induction l as [|h l IH]; intros [|i] [|j] x N; cbn; try reflexivity; [contradiction|]. apply IH. congruence. Qed.
Lemma zero_bytes_repeat b : zero_bytes b = repeat x00 (length b).
Proof. unfold zero_bytes. induction b as [|x b IH]; [reflexivity|]. cbn [map length repeat]. rewrite IH. f_equal. destruct x; reflexivity. Qed.

Section Bufs.
Variable C : Crypto.
Variables k m s : path.
Variable w : world.
Variable kf : bytes.
Variable p : Private.
Hypothesis K : fst (ReadFile k w) = Ok kf.
Hypothesis P : readPrivateKeyFile kf = Ok p.

Lemma sign_by_eq prompt : Sign_by C prompt k m s w =
  (if IsEncrypted p then bind (prompt false) (fun i => defer (zero_buf i) (bind (buf_get i) (fun pass =>
     match decrypt C p pass with
     | (Ok _, q) => signFinish C k m (sigPathOf m s) q
     | (Err e, _) => fail e
     | (Panic, _) => panic
     end)))
   else signFinish C k m (sigPathOf m s) p) (snd (ReadFile k w)).
Proof.
  unfold Sign_by, LoadPrivateKey. unfold bind at 1. unfold bind at 1. destruct (ReadFile k w) as [r v]. cbn [fst snd] in *. rewrite K. unfold lift. rewrite P. reflexivity.
Qed.
Lemma sign_wiped prompt i w2 pass r w' : 0 < kdfRounds p -> prompt false (snd (ReadFile k w)) = (Ok i, w2) -> nth_error (w_bufs w2) i = Some pass ->
  Sign_by C prompt k m s w = (r, w') ->
  nth_error (w_bufs w') i = Some (repeat x00 (length pass)) /\ forall j, j <> i -> nth_error (w_bufs w') j = nth_error (w_bufs w2) j.
Proof.
  intros Hr A B. rewrite sign_by_eq. replace (IsEncrypted p) with true by (unfold IsEncrypted; symmetry; apply Z.gtb_lt, Hr).
  unfold bind at 1. rewrite A. unfold defer, bind, buf_get. rewrite B.
  set (x := match decrypt C p pass with (Ok _, q) => _ | (Err e, _) => _ | (Panic, _) => _ end).
  assert (Hx : w_bufs (snd (x w2)) = w_bufs w2) by (unfold x; destruct (decrypt C p pass) as [[u|e|] q]; [apply finish_bufs|reflexivity..]).
  destruct (x w2) as [r1 w3]. cbn [snd] in Hx. intro E. apply pair_equal_spec in E as [<- <-]. unfold zero_buf. rewrite Hx, B. cbn [set_bufs w_bufs].
  rewrite zero_bytes_repeat. split; [eapply nth_set_same, B|]. intros j N. apply nth_set_other, N.
Qed.
Lemma sign_unasked prompt prompt' : kdfRounds p = 0 -> Sign_by C prompt k m s w = Sign_by C prompt' k m s w.
Proof. intro Z. rewrite !sign_by_eq. unfold IsEncrypted. rewrite Z. reflexivity. Qed.
End Bufs.
Lemma sign_once C k m s w prompt prompt' : prompt false (snd (ReadFile k w)) = prompt' false (snd (ReadFile k w)) ->
  Sign_by C prompt k m s w = Sign_by C prompt' k m s w.
Proof.
  intro E. unfold Sign_by, LoadPrivateKey, bind, lift. destruct (ReadFile k w) as [r v]. cbn [snd] in E. destruct r as [kf|e|]; [|reflexivity..].
  destruct (readPrivateKeyFile kf) as [p|e|]; [|reflexivity..]. destruct (IsEncrypted p); [|reflexivity]. rewrite E. reflexivity.
Qed.

Lemma open_by_bufs C prompt k e m w : (forall v, w_bufs (snd (prompt false v)) = w_bufs v) -> w_bufs (snd (Open_by C prompt k e m w)) = w_bufs w.
Proof.
  intro Hp.
  assert (B : forall A B (x : M A) (f : A -> M B) v, w_bufs (snd (x v)) = w_bufs v -> (forall a u, w_bufs (snd (f a u)) = w_bufs u) -> w_bufs (snd (bind x f v)) = w_bufs v).
  { intros A B x f v Hx Hf. unfold bind. destruct (x v) as [[a|e'|] u]; cbn [snd] in *; [rewrite Hf|..]; exact Hx. }
  unfold Open_by. apply B; [apply keeps_bufs; intros; apply near_load|intros p v]. apply B; [apply keeps_bufs; intros; apply near_open|intros fd v0].
  apply B; [apply keeps_bufs; intros; apply skipComment_resp; [apply near_read|apply near_fuel]|intros _ v1].
  apply B; [apply keeps_bufs; intros; apply near_create|intros _ v2]. unfold open_file_by.
  assert (T : w_bufs (snd (ToBox_by C prompt p v2)) = w_bufs v2).
  { unfold ToBox_by. pose proof (Hp v2) as H2. destruct (Check C p) as [u|x|]; [reflexivity|..];
    destruct (prompt false v2) as [[i|x'|] v3]; cbn [snd] in *; try exact H2; unfold buf_get; destruct (nth_error (w_bufs v3) i); try exact H2;
    destruct (decrypt C p b) as [[u|x''|] q]; exact H2. }
  destruct (ToBox_by C prompt p v2) as [[[edpriv|x|] q] v3]; cbn [snd] in *; [|exact T..]. rewrite <- T. apply keeps_bufs. intros Q R. apply near_body.
Qed.
Lemma kept_gives i w pass : nth_error (w_bufs w) i = Some pass -> gives (kept_pass i) w (Ok pass).
Proof. intros E v B. cbn. split; [apply still_refl|]. rewrite B. exact E. Qed.
Lemma open_again C i k e m w pass : nth_error (w_bufs w) i = Some pass ->
  gives (kept_pass i) w (Ok pass) /\ gives (kept_pass i) (snd (Open_by C (kept_pass i) k e m w)) (Ok pass).
Proof. intro E. split; [apply kept_gives, E|]. apply kept_gives. rewrite open_by_bufs; [exact E|reflexivity]. Qed.

(* a passphrase the caller keeps is good for one signature *)
Definition keep_world : world := World (files [(str "l.sec", sec_file toy_locked); (str "m", str "hello")]) [] [] [] [str "right"] [] [].
Definition keep_sign (w : world) : res unit * world := Sign_by toy (kept_pass 0) (str "l.sec") (str "m") [] w.
Lemma example_keep : fst (keep_sign keep_world) = Ok tt /\ fst (keep_sign (snd (keep_sign keep_world))) = Err (EMsg (str "signify: invalid private key checksum")) /\
  w_fs (snd (keep_sign keep_world)) (str "l.sec") = w_fs keep_world (str "l.sec") /\
  w_bufs (snd (keep_sign keep_world)) = [repeat x00 5].
Proof. do 3 (split; [vm_compute; reflexivity|]). vm_compute. reflexivity. Qed.
Lemma keep_refuted : exists C i k m s w pass w1 w2,
  LengthLaws C /\ gives (kept_pass i) w (Ok pass) /\ Sign_by C (kept_pass i) k m s w = (Ok tt, w1) /\
  w_fs w1 k = w_fs w k /\ w_fs w1 m = w_fs w m /\ w_faults w1 = [] /\
  Sign_by C (kept_pass i) k m s w1 = (Err (EMsg (str "signify: invalid private key checksum")), w2).
Proof.
  exists toy, 0%nat, (str "l.sec"), (str "m"), [], keep_world, (str "right"), (snd (keep_sign keep_world)), (snd (keep_sign (snd (keep_sign keep_world)))).
  destruct example_keep as (A & B & D & E).
  split; [exact toy_lengths|]. split; [apply kept_gives; reflexivity|]. split; [apply surj; exact A|]. split; [exact D|].
  split; [vm_compute; reflexivity|]. split; [vm_compute; reflexivity|]. apply surj. exact B.
Qed.
