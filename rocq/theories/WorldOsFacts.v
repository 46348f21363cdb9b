(* The operations on a world and over the operating system it amounts to: proofs. *)
From Verif Require Import WorldOs SimFacts CmdCalls.
From Verif Require Import SpecCalls.
Local Open Scope Z_scope.

(* nothing in a world but the buffers of passphrases depends on those *)
Definition blind {A} (m : world -> A * world) : Prop := forall w b, m (set_bufs w b) = (fst (m w), set_bufs (snd (m w)) b).
Ltac cases := repeat match goal with |- context [match ?x with _ => _ end] => destruct x end.
Lemma ReadFile_blind p : blind (ReadFile p).
Proof. intros [fs fa rng tty bf fd lg] b. unfold ReadFile, pop_fault, set_bufs. cbn. destruct fa as [|f fa]; cbn; cases; reflexivity. Qed.
Lemma create_blind p m : blind (create_file p m).
Proof. intros [fs fa rng tty bf fd lg] b. unfold create_file, pop_fault, set_bufs. cbn. destruct fa as [|f fa]; cbn; cases; reflexivity. Qed.
Lemma write_blind p b0 : blind (file_write p b0).
Proof. intros [fs fa rng tty bf fd lg] b. unfold file_write, pop_fault, set_bufs. cbn. destruct fa as [|f fa]; cbn; cases; reflexivity. Qed.
Lemma WriteFile_blind p d m : blind (WriteFile p d m).
Proof.
  intros w b. unfold WriteFile. rewrite create_blind. destruct (create_file p m w) as [[u|e|] w1]; cbn [fst snd]; [|reflexivity..].
  rewrite write_blind. destruct (file_write p d w1) as [[k [e|]] w2]; cbn [fst snd]; [reflexivity|].
  destruct w2 as [fs fa rng tty bf fd lg]. unfold pop_fault, set_bufs. cbn. destruct fa as [|f fa]; cbn; cases; reflexivity.
Qed.
Lemma open_blind p : blind (open_read p).
Proof. intros [fs fa rng tty bf fd lg] b. unfold open_read, pop_fault, set_bufs. cbn. destruct fa as [|f fa]; cbn; cases; reflexivity. Qed.
Lemma size_blind k : blind (file_size k).
Proof. intros [fs fa rng tty bf fd lg] b. unfold file_size, pop_fault, set_bufs. cbn. destruct fa as [|f fa]; cbn; cases; reflexivity. Qed.
Lemma read_blind k n : blind (file_read k n).
Proof. intros [fs fa rng tty bf fd lg] b. unfold file_read, pop_fault, set_bufs. cbn. destruct fa as [|f fa]; cbn; cases; reflexivity. Qed.
Lemma rand_blind n : blind (rand_read n).
Proof. intros [fs fa rng tty bf fd lg] b. unfold rand_read, set_bufs. cbn. cases; reflexivity. Qed.

Lemma got_answer {A} (r : res A) : r <> Panic -> got (answer r) = r.
Proof. destruct r; [reflexivity..|congruence]. Qed.
Lemma gone_failure (r : res unit) : r <> Panic -> gone (failure r) = r.
Proof. destruct r as [[]| |]; [reflexivity..|congruence]. Qed.
Lemma ReadFile_np p w : fst (ReadFile p w) <> Panic.
Proof. unfold ReadFile. destruct (pop_fault w) as [f v]. cases; discriminate. Qed.
Lemma create_np p m w : fst (create_file p m w) <> Panic.
Proof. unfold create_file. destruct (pop_fault w) as [f v]. cases; discriminate. Qed.
Lemma WriteFile_np p d m w : fst (WriteFile p d m w) <> Panic.
Proof.
  unfold WriteFile. pose proof (create_np p m w) as N. destruct (create_file p m w) as [[u|e|] w1]; cbn [fst] in *; [|discriminate|congruence].
  destruct (file_write p d w1) as [[k [e|]] w2]; [discriminate|]. destruct (pop_fault w2) as [f v]. destruct f; discriminate.
Qed.
Lemma open_np p w : fst (open_read p w) <> Panic.
Proof. unfold open_read. destruct (pop_fault w) as [f v]. cases; discriminate. Qed.
Lemma rand_np n w : fst (rand_read n w) <> Panic.
Proof. unfold rand_read. cases; discriminate. Qed.

Lemma input_even k : input (2 * k) = Some k.
Proof. unfold input. rewrite Nat.even_mul. cbn [Nat.even orb]. rewrite Nat.div2_double. reflexivity. Qed.
Lemma output_odd outs k : output outs (2 * k + 1) = nth_error outs k.
Proof. unfold output. rewrite Nat.add_1_r, Nat.even_succ, <- Nat.negb_even, Nat.even_mul. cbn [Nat.even orb negb]. rewrite Nat.div2_succ_double. reflexivity. Qed.

Lemma first_entries {A} n (l : list A) : forall i, (i < n)%nat -> nth_error (firstn n l) i = nth_error l i.
Proof. revert l. induction n as [|n IH]; intros [|x l] [|i] L; cbn; try reflexivity; try lia. apply IH. lia. Qed.
Lemma other_entry {A} (l : list A) : forall k i x, i <> k -> nth_error (set_nth k x l) i = nth_error l i.
Proof. induction l as [|y l IH]; intros [|k] [|i] x L; cbn; try reflexivity; try congruence. apply IH. congruence. Qed.

Section Bridge.
Variable C : Crypto.
Variable w0 : world.
Let O := os_of w0.

Lemma reached_snoc h c : reached w0 (h ++ [c]) = act (reached w0 h) c.
Proof. unfold reached. rewrite fold_left_app. reflexivity. Qed.

Definition at_ (outs : list path) (w : world) (h : list step) : Prop :=
  exists b, reached w0 h = (set_bufs w b, outs).
Definition here (w : world) (h : list step) : Prop := exists outs, at_ outs w h.
Lemma at_here outs w h : at_ outs w h -> here w h.
Proof. exists outs. assumption. Qed.
Lemma alike_here {A} outs (x : A * world) y : alike (at_ outs) x y -> alike here x y.
Proof. intros [E R]. split; [exact E|eapply at_here; exact R]. Qed.
Lemma at_start : at_ [] w0 [].
Proof. exists (w_bufs w0). destruct w0. reflexivity. Qed.

(* one call *)
Lemma at_step {A} (m : world -> A * world) outs w h c : blind m -> (forall v, act (v, outs) c = (snd (m v), outs)) ->
  at_ outs w h -> at_ outs (snd (m w)) (h ++ [c]).
Proof. intros B Ac [b E]. exists b. rewrite reached_snoc, E, Ac, B. reflexivity. Qed.
Lemma at_same outs w h c : (forall v, act (v, outs) c = (v, outs)) -> at_ outs w h -> at_ outs w (h ++ [c]).
Proof. intros Ac [b E]. exists b. rewrite reached_snoc, E, Ac. reflexivity. Qed.

Lemma ReadFile_sim outs p : sim (at_ outs) (ReadFile p) (h_readfile O p).
Proof.
  intros w h At. pose proof At as [b E]. unfold h_readfile. cbv zeta. split; cbn [fst snd].
  - cbn [O os_of o_readfile]. rewrite E. cbn [fst]. rewrite ReadFile_blind. cbn [fst]. rewrite got_answer; [reflexivity|apply ReadFile_np].
  - apply at_step; [apply ReadFile_blind|reflexivity|exact At].
Qed.
Lemma WriteFile_sim outs p d m : sim (at_ outs) (WriteFile p d m) (h_writefile O p d m).
Proof.
  intros w h At. pose proof At as [b E]. unfold h_writefile. cbv zeta. split; cbn [fst snd].
  - cbn [O os_of o_writefile]. rewrite E. cbn [fst]. rewrite WriteFile_blind. cbn [fst]. rewrite gone_failure; [reflexivity|apply WriteFile_np].
  - apply at_step; [apply WriteFile_blind|reflexivity|exact At].
Qed.
Lemma rand_sim outs n : sim (at_ outs) (rand_read n) (h_rand O n).
Proof.
  intros w h At. pose proof At as [b E]. unfold h_rand. cbv zeta. split; cbn [fst snd].
  - cbn [O os_of o_rand]. rewrite E. cbn [fst]. rewrite rand_blind. cbn [fst]. rewrite got_answer; [reflexivity|apply rand_np].
  - apply at_step; [apply rand_blind|reflexivity|exact At].
Qed.
Lemma out_sim outs t : sim (at_ outs) (stdout t) (h_out t).
Proof.
  intros w h [b E]. split; cbn [fst snd]; [reflexivity|]. exists b. unfold stdout, h_out. cbn [snd]. rewrite reached_snoc, E. destruct w; reflexivity.
Qed.
Lemma lift_sim {A} outs (r : res A) : sim (at_ outs) (lift r) (hlift r).
Proof. intros w h At. split; [reflexivity|exact At]. Qed.
Lemma bind_sim {A B} R (m : M A) (m' : H A) (k : A -> M B) (k' : A -> H B) :
  sim R m m' -> (forall a, sim R (k a) (k' a)) -> sim R (bind m k) (hbind m' k').
Proof.
  intros Hm Hk w h At. unfold bind, hbind. pose proof (Hm w h At) as H. both H. destruct a as [a|e|]; [apply Hk, R0|split; [reflexivity|exact R0]..].
Qed.
Lemma write_sim outs k p : nth_error outs k = Some p -> wsim (at_ outs) (file_write p) (h_write O (2 * k + 1)).
Proof.
  intros N d w h At. pose proof At as [b E]. unfold h_write. cbn [O os_of o_write]. rewrite E. cbn [fst snd]. rewrite output_odd, N, write_blind. cbn [fst].
  assert (At' : forall n r, at_ outs (snd (file_write p d w)) (h ++ [SWrite (2 * k + 1) d n r])).
  { intros n r. apply at_step; [apply write_blind| |exact At]. intro v. cbn [act]. rewrite output_odd, N. reflexivity. }
  destruct (file_write p d w) as [[n r] w1]. cbn [fst snd] in *. split; [reflexivity|apply At'].
Qed.
(* reading and the size, of a handle that is there *)
Definition with_handle (k : nat) (outs : list path) (w : world) (h : list step) : Prop :=
  at_ outs w h /\ length (w_fds w) = S k.
Lemma set_nth_length {A} (l : list A) : forall k x, length (set_nth k x l) = length l.
Proof. induction l as [|y l IH]; intros [|k] x; cbn; [reflexivity..|]. rewrite IH. reflexivity. Qed.
Lemma read_fds k n w : length (w_fds (snd (file_read k n w))) = length (w_fds w).
Proof.
  destruct w as [fs fa rng tty bf fd lg]. unfold file_read, pop_fault. cbn. destruct fa as [|f fa]; cbn; cases; cbn; rewrite ?set_nth_length; reflexivity.
Qed.
Lemma read_there k n w : (k < length (w_fds w))%nat -> fst (file_read k n w) <> RPanic.
Proof.
  destruct w as [fs fa rng tty bf fd lg]. cbn [w_fds]. intro L. apply nth_error_Some in L. unfold file_read, pop_fault. cbn.
  destruct fa as [|f fa]; cbn; destruct (nth_error fd k) as [[p off]|]; try congruence; cases; discriminate.
Qed.
Lemma read_sim outs k : rsim (with_handle k outs) (file_read k) (h_read O (2 * k)).
Proof.
  intros n w h [At L]. pose proof At as [b E]. unfold h_read. cbn [O os_of o_read]. rewrite input_even, E. cbn [fst]. rewrite read_blind. cbn [fst].
  assert (At' : forall x r, at_ outs (snd (file_read k n w)) (h ++ [SRead (2 * k) n x r])).
  { intros x r. apply at_step; [apply read_blind| |exact At]. intro v. cbn [act]. rewrite input_even. reflexivity. }
  pose proof (read_there k n w) as P. pose proof (read_fds k n w) as F. destruct (file_read k n w) as [[x r|] w1]; cbn [fst snd] in *.
  - split; [reflexivity|]. split; [apply At'|]. cbn [snd]. congruence.
  - exfalso. apply P; [lia|reflexivity].
Qed.
Lemma fuel_sim outs k w h : with_handle k outs w h -> file_fuel k w = last_fuel w0 h.
Proof. intros [[b E] L]. unfold last_fuel. rewrite E. cbn [fst set_bufs w_fds]. rewrite L. destruct w; reflexivity. Qed.

(* the terminal *)
Definition calm_tty (w : world) : Prop := Forall (fun r => r <> Panic) (w_tty w).
Hypothesis Tty : calm_tty w0.
Lemma ReadFile_tty p w : w_tty (snd (ReadFile p w)) = w_tty w.
Proof. destruct w as [fs fa rng tty bf fd lg]. unfold ReadFile, pop_fault. cbn. destruct fa as [|f fa]; cbn; cases; reflexivity. Qed.
Lemma create_tty p m w : w_tty (snd (create_file p m w)) = w_tty w.
Proof. destruct w as [fs fa rng tty bf fd lg]. unfold create_file, pop_fault. cbn. destruct fa as [|f fa]; cbn; cases; reflexivity. Qed.
Lemma write_tty p d w : w_tty (snd (file_write p d w)) = w_tty w.
Proof. destruct w as [fs fa rng tty bf fd lg]. unfold file_write, pop_fault. cbn. destruct fa as [|f fa]; cbn; cases; reflexivity. Qed.
Lemma WriteFile_tty p d m w : w_tty (snd (WriteFile p d m w)) = w_tty w.
Proof.
  unfold WriteFile. pose proof (create_tty p m w) as E. destruct (create_file p m w) as [[u|e|] w1]; cbn [snd] in *; [|exact E..].
  pose proof (write_tty p d w1) as E1. destruct (file_write p d w1) as [[k [e|]] w2]; cbn [snd] in *; [congruence|].
  rewrite <- E, <- E1. destruct w2 as [fs fa rng tty bf fd lg]. unfold pop_fault. cbn. destruct fa as [|f fa]; cbn; cases; reflexivity.
Qed.
Lemma act_tty s c : calm_tty (fst s) -> calm_tty (fst (act s c)).
Proof.
  destruct s as [w outs]. unfold calm_tty. cbn [fst]. intro T. destruct c; cbn [act fst].
  - rewrite ReadFile_tty. exact T.
  - rewrite WriteFile_tty. exact T.
  - destruct w as [fs fa rng tty bf fd lg]. unfold open_read, pop_fault. cbn. destruct fa as [|f fa]; cbn; cases; exact T.
  - pose proof (create_tty p mode w) as E. destruct (create_file p mode w) as [x w1]. cbn [fst snd] in *. rewrite E. exact T.
  - destruct (input fd) as [k|]; [|exact T]. destruct w as [fs fa rng tty bf fds lg]. unfold file_size, pop_fault. cbn. destruct fa as [|f fa]; cbn; cases; exact T.
  - destruct (input fd) as [k|]; [|exact T]. destruct w as [fs fa rng tty bf fds lg]. unfold file_read, pop_fault. cbn. destruct fa as [|f fa]; cbn; cases; exact T.
  - destruct (output outs fd) as [p|]; [|exact T]. rewrite write_tty. exact T.
  - exact T.
  - destruct w as [fs fa rng tty bf fds lg]. unfold rand_read. cbn. cases; exact T.
  - destruct w as [fs fa rng tty bf fds lg]. unfold ReadPassword. cbn in *. destruct T as [|x tty X T]; [constructor|]. destruct x; exact T.
  - exact T.
Qed.
Lemma reached_tty h : calm_tty (fst (reached w0 h)).
Proof. induction h as [|c h IH] using rev_ind; [exact Tty|]. rewrite reached_snoc. apply act_tty, IH. Qed.

(* a passphrase: a buffer here, its contents there *)
Definition typed outs (x : res nat * world) (y : res bytes * list step) : Prop :=
  at_ outs (snd x) (snd y) /\
  match fst x, fst y with
  | Ok i, Ok p => nth_error (w_bufs (snd x)) i = Some p
  | Err e, Err e' => e = e'
  | Panic, Panic => True
  | _, _ => False
  end.
Lemma ReadPassword_sim outs w h : at_ outs w h -> typed outs (ReadPassword w) (h_pass O h).
Proof.
  intro At. pose proof At as [b E]. unfold h_pass. cbv zeta. cbn [O os_of o_pass]. pose proof (reached_tty h) as T. unfold calm_tty in T. rewrite E in *. cbn [fst] in *.
  change (w_tty (set_bufs w b)) with (w_tty w) in *.
  destruct w as [fs fa rng tty bf fds lg]. unfold ReadPassword. cbn [w_tty w_bufs] in *.
  assert (Ac : forall c, exists b', reached w0 (h ++ [SPass c]) = (set_bufs (World fs fa rng (tl tty) bf fds lg) b', outs)).
  { intro c. rewrite reached_snoc, E. cbn [act]. unfold ReadPassword. cbn [set_bufs w_tty]. destruct tty as [|[x|x|] tty]; cbn; eexists; reflexivity. }
  destruct T as [|[x|x|] tty X T]; [| | |congruence]; cbn [answer got]; (split; [|cbn [fst snd]]).
  - exact (Ac _).
  - reflexivity.
  - destruct (Ac (inl x)) as [b' Eb]. exists b'. exact Eb.
  - cbn. rewrite nth_error_app2, Nat.sub_diag by lia. reflexivity.
  - exact (Ac _).
  - reflexivity.
Qed.
Lemma at_zero outs i w h : at_ outs w h -> at_ outs (zero_buf i w) h.
Proof. intros [b E]. exists b. rewrite E. unfold zero_buf. destruct (nth_error (w_bufs w) i); reflexivity. Qed.
Lemma prompt_sim outs w h : at_ outs w h -> typed outs (PassphrasePrompt false w) (prompt_os O h).
Proof.
  intro At. unfold PassphrasePrompt, prompt_os, bind, hbind. unfold stdout at 1, h_out at 1.
  pose proof (out_sim outs (str "Password: ") w h At) as [_ A1]. cbn [snd stdout h_out] in A1.
  pose proof (ReadPassword_sim outs _ _ A1) as T. unfold typed in T.
  destruct (ReadPassword (emit w (EvOut (str "Password: ")))) as [[i|e|] w2], (h_pass O (h ++ [SOut (str "Password: ")])) as [[p|e'|] h2]; cbn [fst snd] in T; destruct T as [A2 X]; try contradiction;
  try (split; [exact A2|exact X]).
  cbn [negb]. unfold stdout, h_out, ret, hret. pose proof (out_sim outs [x0a] w2 h2 A2) as [_ A3]. split; [exact A3|]. exact X.
Qed.
Lemma confirm_sim outs w h : at_ outs w h -> typed outs (PassphrasePrompt true w) (confirm_os O h).
Proof.
  intro At. unfold PassphrasePrompt, confirm_os, bind, hbind. unfold stdout at 1, h_out at 1.
  pose proof (out_sim outs (str "Password: ") w h At) as [_ A1]. cbn [snd stdout h_out] in A1.
  pose proof (ReadPassword_sim outs _ _ A1) as T. unfold typed in T.
  destruct (ReadPassword (emit w (EvOut (str "Password: ")))) as [[i|e|] w2], (h_pass O (h ++ [SOut (str "Password: ")])) as [[p|e'|] h2]; cbn [fst snd] in T; destruct T as [A2 X]; try contradiction;
  try (split; [exact A2|exact X]).
  cbn [negb]. unfold stdout at 1, h_out at 1. pose proof (out_sim outs [x0a] w2 h2 A2) as [_ A3]. cbn [snd stdout h_out] in A3.
  unfold stdout at 1, h_out at 1. pose proof (out_sim outs (str "Confirm password: ") _ _ A3) as [_ A4]. cbn [snd stdout h_out] in A4.
  set (w4 := emit (emit w2 (EvOut [x0a])) (EvOut (str "Confirm password: "))) in *. set (h4 := (h2 ++ [SOut [x0a]]) ++ [SOut (str "Confirm password: ")]) in *.
  assert (B4 : w_bufs w4 = w_bufs w2) by reflexivity.
  pose proof (ReadPassword_sim outs _ _ A4) as T. unfold typed in T.
  assert (Bj : forall j v, ReadPassword w4 = (Ok j, v) -> j = length (w_bufs w2) /\ firstn (length (w_bufs w2)) (w_bufs v) = w_bufs w2).
  { intros j v. unfold ReadPassword. destruct (w_tty w4) as [|[x|x|] r]; try discriminate. intro Q. injection Q as <- <-. split; [exact (f_equal _ B4)|].
    change (firstn (length (w_bufs w2)) (w_bufs w2 ++ [x]) = w_bufs w2). rewrite firstn_app, firstn_all, Nat.sub_diag. apply app_nil_r. }
  destruct (ReadPassword w4) as [[j|e|] w5], (h_pass O h4) as [[q|e'|] h5]; cbn [fst snd] in T; destruct T as [A5 Y]; try contradiction;
  try (split; [exact A5|exact Y]).
  destruct (Bj j w5 eq_refl) as [Ej Ef].
  assert (Li : (i < length (w_bufs w2))%nat) by (apply nth_error_Some; congruence).
  assert (X5 : nth_error (w_bufs w5) i = Some p) by (rewrite <- X, <- Ef; symmetry; apply first_entries; exact Li).
  unfold defer, stdout, h_out. pose proof (out_sim outs [x0a] w5 h5 A5) as [_ A6]. cbn [snd stdout h_out] in A6.
  unfold buf_get. change (w_bufs (emit w5 (EvOut [x0a]))) with (w_bufs w5). rewrite X5. cbv beta iota.
  change (w_bufs (emit w5 (EvOut [x0a]))) with (w_bufs w5). rewrite Y. cbv beta iota.
  destruct (bytes_eqb p q); unfold ret, fail, hret, hlift; (split; [cbn [snd]; apply at_zero, A6|]); cbn [fst snd]; [|reflexivity].
  unfold zero_buf. change (w_bufs (emit w5 (EvOut [x0a]))) with (w_bufs w5). rewrite Y. cbn [set_bufs w_bufs].
  rewrite other_entry by lia. exact X5.
Qed.

Lemma Load_sim outs p : sim (at_ outs) (LoadPrivateKey p) (LoadPrivateKey_os O p) /\ sim (at_ outs) (LoadPublicKey p) (LoadPublicKey_os O p).
Proof. split; (apply bind_sim; [apply ReadFile_sim|intro d; apply lift_sim]). Qed.

Lemma Verify_sim outs pk m s : sim (at_ outs) (Verify C pk m s) (Verify_os C O pk m s).
Proof.
  unfold Verify, Verify_os. cbv zeta. apply bind_sim; [apply Load_sim|intro pub]. apply bind_sim; [apply ReadFile_sim|intro d].
  apply bind_sim; [|intro sg; apply lift_sim]. apply bind_sim; [apply ReadFile_sim|intro x; apply lift_sim].
Qed.
Lemma signFinish_sim outs sk m s priv : sim (at_ outs) (signFinish C sk m s priv)
  (hbind (h_readfile O m) (fun d => writeDataFile_os O s (str "untrusted comment: verify with " ++ Base (TrimSuffix sk (str ".sec") ++ str ".pub")) (sig_encode (priv_sign C priv d)))).
Proof. apply bind_sim; [apply ReadFile_sim|intro d; apply WriteFile_sim]. Qed.
Lemma Sign_sim outs sk m s : sim (at_ outs) (Sign C sk m s) (Sign_os C O sk m s).
Proof.
  intros w h At. unfold Sign, Sign_os. cbv zeta. unfold bind at 1, hbind at 1. destruct (Load_sim outs sk) as [L _]. specialize (L w h At). both L.
  destruct a as [priv|e|]; [|split; [reflexivity|exact R]..]. destruct (IsEncrypted priv) eqn:Enc.
  - unfold bind at 1. unfold hbind at 1. unfold hbind at 1. pose proof (prompt_sim outs _ _ R) as T. unfold typed in T.
    destruct (PassphrasePrompt false s0) as [[i|e|] w2], (prompt_os O t) as [[p|e'|] h2]; cbn [fst snd] in T; destruct T as [A2 X]; try contradiction;
    try (split; [cbn [fst]; congruence|exact A2]).
    unfold defer, bind at 1, buf_get. rewrite X. cbv beta iota. destruct (decrypt C priv p) as [[[]|e|] p'].
    + pose proof (signFinish_sim outs sk m (sigPathOf m s) p' w2 h2 A2) as F. unfold hret. both F. split; [reflexivity|apply at_zero; exact R0].
    + split; [reflexivity|apply at_zero; exact A2].
    + split; [reflexivity|apply at_zero; exact A2].
  - exact (signFinish_sim outs sk m (sigPathOf m s) priv _ _ R).
Qed.
Lemma GenerateKey_sim outs k pass opts : sim (at_ outs) (GenerateKey C k pass opts) (GenerateKey_os C O k pass opts).
Proof.
  unfold GenerateKey, GenerateKey_os. apply bind_sim.
  - unfold GenerateKeypair, GenerateKeypair_os. cbv zeta. apply bind_sim; [apply rand_sim|intro seed]. apply bind_sim; [apply rand_sim|intro slt].
    apply bind_sim; [apply rand_sim|intro num]. apply bind_sim; [|intro kb; exact (lift_sim outs (Ok _))].
    destruct pass as [|x pass]; [exact (lift_sim outs (Ok _))|]. intros w h At. unfold bind, lift, hlift. destruct (bcrypt_Key _ _ _ _ _); (split; [reflexivity|exact At]).
  - intro pp. apply bind_sim; [apply WriteFile_sim|intros _; apply WriteFile_sim].
Qed.

(* Seal and Open *)
Lemma at_close outs w h fd r : at_ outs w h -> at_ outs w (h ++ [SClose fd r]).
Proof. apply at_same. reflexivity. Qed.
Lemma here_close w h fd r : here w h -> here w (h ++ [SClose fd r]).
Proof. intros [outs A]. exists outs. apply at_close, A. Qed.
Lemma with_at k outs w h : with_handle k outs w h -> at_ outs w h.
Proof. intros [A _]. exact A. Qed.
Lemma with_here k outs w h : with_handle k outs w h -> here w h.
Proof. intros [A _]. exists outs. exact A. Qed.
Lemma alike_close {A} (x : res A * world) (m : H A) h fd : alike here x (m h) -> alike here x (hdefer (h_close O fd) m h).
Proof. intros [E Q]. unfold hdefer. destruct (m h) as [r h1]. split; [exact E|]. apply here_close, Q. Qed.

Lemma open_sim outs p w h : at_ outs w h ->
  match open_read p w, h_open O p h with
  | (Ok k, w'), (Ok fd, h') => fd = (2 * k)%nat /\ with_handle k outs w' h' /\ nth_error (w_fds w') k = Some (p, 0%nat) /\ w_fs w' = w_fs w
  | (Err e, w'), (Err e', h') => e = e' /\ at_ outs w' h'
  | _, _ => False
  end.
Proof.
  intro At. pose proof At as [b E]. unfold h_open. cbv zeta. cbn [O os_of o_open]. rewrite E. cbn [fst]. rewrite open_blind. cbn [fst].
  assert (At' : forall r, at_ outs (snd (open_read p w)) (h ++ [SOpen p r])).
  { intro r. apply at_step; [apply open_blind|reflexivity|exact At]. }
  pose proof (open_np p w) as P.
  assert (Q : forall k w', open_read p w = (Ok k, w') -> length (w_fds w') = S k /\ nth_error (w_fds w') k = Some (p, 0%nat) /\ w_fs w' = w_fs w).
  { intros k w'. destruct w as [fs fa rng tty bf fd lg]. unfold open_read, pop_fault. cbn.
    destruct fa as [|f fa]; cbn; [|destruct f]; try discriminate; (destruct (fs p) as [fl|]; [|discriminate]); intro Y; injection Y as <- <-; cbn;
    (rewrite app_length; cbn; rewrite Nat.add_1_r; split; [reflexivity|]; split; [|reflexivity]; rewrite nth_error_app2, Nat.sub_diag by lia; reflexivity). }
  destruct (open_read p w) as [[k|e|] w']; cbn [fst snd answer got] in *; [|split; [reflexivity|apply At']|congruence].
  destruct (Q k w' eq_refl) as (L & N & F). split; [reflexivity|]. split; [split; [apply At'|exact L]|]. split; assumption.
Qed.
Lemma size_sim k outs p off w h : with_handle k outs w h -> nth_error (w_fds w) k = Some (p, off) ->
  (forall fl, w_fs w p = Some fl -> Z.of_nat (length (f_data fl)) < 2 ^ 63) -> alike (with_handle k outs) (file_size k w) (h_stat O (2 * k) h).
Proof.
  intros [At L] N B. pose proof At as [b E]. unfold h_stat. cbv zeta. cbn [O os_of o_stat]. rewrite input_even, E. cbn [fst]. rewrite size_blind. cbn [fst].
  assert (At' : forall r, at_ outs (snd (file_size k w)) (h ++ [SStat (2 * k) r])).
  { intro r. apply at_step; [apply size_blind| |exact At]. intro v. cbn [act]. rewrite input_even. reflexivity. }
  assert (Q : length (w_fds (snd (file_size k w))) = length (w_fds w) /\
    match fst (file_size k w) with Ok z => bounded z = z | Err _ => True | Panic => False end).
  { destruct w as [fs fa rng tty bf fd lg]. unfold file_size, pop_fault. cbn in *.
    assert (Bz : bounded (match fs p with Some fl => Z.of_nat (length (f_data fl)) | None => 0 end) = match fs p with Some fl => Z.of_nat (length (f_data fl)) | None => 0 end).
    { unfold bounded. destruct (fs p) as [fl|]; [specialize (B fl eq_refl); lia|reflexivity]. }
    destruct fa as [|f fa]; cbn; [|destruct f; cbn]; rewrite ?N; cbn; auto. }
  destruct Q as [Lq Q]. destruct (file_size k w) as [[z|e|] w']; cbn [fst snd got] in *; [| |contradiction].
  - rewrite Q. split; [reflexivity|]. split; [apply At'|]. cbn [snd]. congruence.
  - split; [reflexivity|]. split; [apply At'|]. cbn [snd]. congruence.
Qed.
Lemma create_sim k outs p m w h : with_handle k outs w h ->
  match create_file p m w, h_create O p m h with
  | (Ok _, w'), (Ok fd, h') => fd = (2 * length outs + 1)%nat /\ with_handle k (outs ++ [p]) w' h'
  | (Err e, w'), (Err e', h') => e = e' /\ with_handle k outs w' h'
  | _, _ => False
  end.
Proof.
  intros [At L]. pose proof At as [b E]. unfold h_create. cbv zeta. cbn [O os_of o_create]. rewrite E. cbn [fst snd]. rewrite create_blind. cbn [fst].
  assert (Lq : length (w_fds (snd (create_file p m w))) = length (w_fds w)).
  { destruct w as [fs fa rng tty bf fd lg]. unfold create_file, pop_fault. cbn. destruct fa as [|f fa]; cbn; cases; reflexivity. }
  assert (At' : forall r, reached w0 (h ++ [SCreate p m r]) = (set_bufs (snd (create_file p m w)) b, match fst (create_file p m w) with Ok _ => outs ++ [p] | _ => outs end)).
  { intro r. rewrite reached_snoc, E. cbn [act]. rewrite create_blind. reflexivity. }
  pose proof (create_np p m w) as P. destruct (create_file p m w) as [[u|e|] w']; cbn [fst snd answer got] in *; [| |congruence].
  - split; [reflexivity|]. split; [|congruence]. exists b. apply At'.
  - split; [reflexivity|]. split; [|congruence]. exists b. apply At'.
Qed.
Lemma write_fds p d w : w_fds (snd (file_write p d w)) = w_fds w.
Proof. destruct w as [fs fa rng tty bf fd lg]. unfold file_write, pop_fault. cbn. destruct fa as [|f fa]; cbn; cases; reflexivity. Qed.
Lemma rand_fds n w : w_fds (snd (rand_read n w)) = w_fds w.
Proof. destruct w as [fs fa rng tty bf fd lg]. unfold rand_read. cbn. cases; reflexivity. Qed.
Lemma write_sim' k outs j p : nth_error outs j = Some p -> wsim (with_handle k outs) (file_write p) (h_write O (2 * j + 1)).
Proof.
  intros N d w h [At L]. pose proof (write_sim outs j p N d w h At) as [E R]. split; [exact E|]. split; [exact R|]. rewrite write_fds. exact L.
Qed.
Lemma rand_sim' k outs n : sim (with_handle k outs) (rand_read n) (h_rand O n).
Proof. intros w h [At L]. pose proof (rand_sim outs n w h At) as [E R]. split; [exact E|]. split; [exact R|]. rewrite rand_fds. exact L. Qed.

Lemma ReadFile_fs p w : w_fs (snd (ReadFile p w)) = w_fs w.
Proof. destruct w as [fs fa rng tty bf fd lg]. unfold ReadFile, pop_fault. cbn. destruct fa as [|f fa]; cbn; cases; reflexivity. Qed.
Lemma LoadPublic_fs p w : w_fs (snd (LoadPublicKey p w)) = w_fs w.
Proof. unfold LoadPublicKey, bind, lift. pose proof (ReadFile_fs p w) as F. destruct (ReadFile p w) as [[d|e|] w1]; exact F. Qed.

Lemma Seal_sim pk mp ep w h : at_ [] w h -> (forall fl, w_fs w mp = Some fl -> Z.of_nat (length (f_data fl)) < 2 ^ 63) ->
  alike here (Seal C pk mp ep w) (Seal_os C O pk mp ep h).
Proof.
  intros At B. unfold Seal, Seal_os. unfold bind at 1, hbind at 1. destruct (Load_sim [] pk) as [_ L]. specialize (L w h At).
  pose proof (LoadPublic_fs pk w) as F0. both L. cbn [snd] in F0. destruct a as [pub|e|]; [|split; [reflexivity|eapply at_here; exact R]..].
  unfold bind at 1, hbind at 1. pose proof (open_sim [] mp s t R) as X.
  destruct (open_read mp s) as [[k|e|] w2], (h_open O mp t) as [[fd|e'|] h2]; try contradiction; [|destruct X as [-> X]; split; [reflexivity|eapply at_here; exact X]].
  destruct X as (-> & Wh & N & F). apply alike_close. unfold bind at 1, hbind at 1.
  assert (Hs : alike (with_handle k []) (file_size k w2) (h_stat O (2 * k) h2)).
  { eapply size_sim; [exact Wh|exact N|]. intros fl Hf. apply B. rewrite <- F0, <- F. exact Hf. }
  both Hs. destruct a as [len|e|]; [|split; [reflexivity|eapply with_here; exact R0]..].
  cbv zeta. set (q := match ep with [] => mp ++ str ".enc" | _ => ep end). unfold bind at 1, hbind at 1.
  pose proof (create_sim k [] q 438 s0 t0 R0) as X.
  match goal with |- context [h_create O ?z 438 t0] => change z with q end.
  destruct (create_file q 438 s0) as [[u|e|] w3], (h_create O q 438 t0) as [[fd|e'|] h3]; try contradiction; [|destruct X as [-> X]; split; [reflexivity|eapply with_here; exact X]].
  destruct X as [-> W3]. cbn [app] in W3. apply alike_close.
  change (length (@nil path)) with 0%nat.
  assert (Hw : wsim (with_handle k [q]) (file_write q) (h_write O (2 * 0 + 1))) by (apply write_sim'; reflexivity).
  pose proof (Hw (str "untrusted comment: psignify encrypted file" ++ [x0a]) w3 h3 W3) as X. both X. destruct a as [n [e|]]; [split; [reflexivity|eapply with_here; exact R1]|].
  pose (RE := fun (x : enc * world) (y : enc * list step) => fst x = fst y /\ with_handle k [q] (snd x) (snd y)).
  assert (Hw' : wsim RE (enc_write (file_write q)) (enc_write (h_write O (2 * 0 + 1)))) by (apply enc_write_sim, Hw).
  assert (Hr : rsim RE (lift_reader (file_read k)) (beside_reader (h_read O (2 * k)))).
  { intros m [e1 x1] [e2 y1] [E1 R2]. cbn [fst snd] in E1, R2. subst e2. unfold lift_reader, beside_reader. cbn [fst snd].
    pose proof (read_sim [q] k m x1 y1 R2) as X. both X. split; [reflexivity|split; [reflexivity|exact R3]]. }
  assert (Hd : forall m, sim RE (lift_draw (X := enc) m) (beside_rand O (X := enc) m)).
  { intros m [e1 x1] [e2 y1] [E1 R2]. cbn [fst snd] in E1, R2. subst e2. unfold lift_draw, beside_rand. cbn [fst snd].
    pose proof (rand_sim' k [q] m x1 y1 R2) as X. both X. split; [reflexivity|split; [reflexivity|exact R3]]. }
  pose proof (seal_sim C _ _ RE _ _ pub _ _ len _ _ Hd Hr Hw' (NewEncoder, s1) (NewEncoder, t1) (conj eq_refl R1)) as X. cbv zeta.
  destruct (seal C (enc * world) lift_draw pub (lift_reader (file_read k)) len (enc_write (file_write q)) (NewEncoder, s1)) as [r1 x1].
  destruct (seal C (enc * list step) (beside_rand O) pub (beside_reader (h_read O (2 * k))) len (enc_write (h_write O (2 * 0 + 1))) (NewEncoder, t1)) as [r2 x2].
  destruct X as [X1 X2]. cbn [fst snd] in X1, X2. subst r2.
  pose proof (enc_close_sim _ _ (with_handle k [q]) _ _ Hw x1 x2 X2) as X3.
  destruct (enc_close (file_write q) x1) as [o1 y1], (enc_close (h_write O (2 * 0 + 1)) x2) as [o2 y2]. destruct X3 as [_ [_ X3]]. split; [reflexivity|]. eapply with_here; exact X3.
Qed.

Lemma prompt_fds w : w_fds (snd (PassphrasePrompt false w)) = w_fds w.
Proof.
  destruct w as [fs fa rng tty bf fd lg]. unfold PassphrasePrompt, bind, stdout, ReadPassword, emit. cbn. destruct tty as [|[x|x|] tty]; reflexivity.
Qed.
Lemma ToBox_sim k outs p w h : with_handle k outs w h ->
  alike (with_handle k outs) (fst (fst (priv_ToBox C p w)), snd (priv_ToBox C p w)) (ToBox_os C O p h).
Proof.
  intros Wh. unfold priv_ToBox, ToBox_os. unfold hbind at 1.
  assert (Main : alike (with_handle k outs)
    (fst (fst (match PassphrasePrompt false w with
               | (Err e, w) => ((Err e, p), w)
               | (Panic, w) => ((Panic, p), w)
               | (Ok i, w) => match buf_get i w with
                              | (Ok pass, w) => match decrypt C p pass with
                                                | (Ok _, p) => ((Ok (fit 32 (clamp (sha512 C (firstn 32 (key p))))), p), w)
                                                | (Err e, p) => ((Err e, p), w)
                                                | (Panic, p) => ((Panic, p), w)
                                                end
                              | (_, w) => ((Panic, p), w)
                              end
               end)),
     snd (match PassphrasePrompt false w with
               | (Err e, w) => ((Err e, p), w)
               | (Panic, w) => ((Panic, p), w)
               | (Ok i, w) => match buf_get i w with
                              | (Ok pass, w) => match decrypt C p pass with
                                                | (Ok _, p) => ((Ok (fit 32 (clamp (sha512 C (firstn 32 (key p))))), p), w)
                                                | (Err e, p) => ((Err e, p), w)
                                                | (Panic, p) => ((Panic, p), w)
                                                end
                              | (_, w) => ((@Panic bytes, p), w)
                              end
               end))
    (hbind (hbind (prompt_os O) (fun pass => match decrypt C p pass with
                                              | (Ok _, p) => hret p
                                              | (Err e, _) => hlift (Err e)
                                              | (Panic, _) => hlift Panic
                                              end)) (fun p => hret (fit 32 (clamp (sha512 C (firstn 32 (key p)))))) h)).
  { unfold hbind at 1. unfold hbind at 1. destruct Wh as [At L]. pose proof (prompt_sim outs w h At) as T. unfold typed in T. pose proof (prompt_fds w) as F.
    destruct (PassphrasePrompt false w) as [[i|e|] w2], (prompt_os O h) as [[q|e'|] h2]; cbn [fst snd] in T, F; destruct T as [A2 X]; try contradiction.
    - unfold buf_get. rewrite X. destruct (decrypt C p q) as [[u|e|] p']; unfold hret, hlift; (split; [reflexivity|split; [exact A2|cbn [snd]; congruence]]).
    - split; [cbn [fst]; congruence|split; [exact A2|cbn [snd]; congruence]].
    - split; [reflexivity|split; [exact A2|cbn [snd]; congruence]]. }
  destruct (Check C p) as [u|e|]; [|exact Main..]. split; [reflexivity|exact Wh].
Qed.

Lemma Open_sim sk ep mp w h : at_ [] w h -> alike here (Open C sk ep mp w) (Open_os C O (last_fuel w0) sk ep mp h).
Proof.
  intros At. unfold Open, Open_os. unfold bind at 1, hbind at 1. destruct (Load_sim [] sk) as [L _]. specialize (L w h At). both L.
  destruct a as [priv|e|]; [|split; [reflexivity|eapply at_here; exact R]..].
  unfold bind at 1, hbind at 1. pose proof (open_sim [] ep s t R) as X.
  destruct (open_read ep s) as [[k|e|] w2], (h_open O ep t) as [[fd|e'|] h2]; try contradiction; [|destruct X as [-> X]; split; [reflexivity|eapply at_here; exact X]].
  destruct X as (-> & Wh & _ & _). apply alike_close. unfold bind at 1, hbind at 1.
  assert (Hr : forall outs, rsim (with_handle k outs) (file_read k) (h_read O (2 * k))) by (intro outs; apply read_sim).
  pose proof (skipComment_sim _ _ (with_handle k []) _ _ (file_fuel k) (last_fuel w0) (Hr []) (fun s t Q => fuel_sim [] k s t Q) w2 h2 Wh) as X. both X.
  destruct a as [u|e|]; [|split; [reflexivity|eapply with_here; exact R0]..]. unfold bind at 1, hbind at 1.
  pose proof (create_sim k [] mp 438 s0 t0 R0) as X.
  destruct (create_file mp 438 s0) as [[v|e|] w3], (h_create O mp 438 t0) as [[fd|e'|] h3]; try contradiction; [|destruct X as [-> X]; split; [reflexivity|eapply with_here; exact X]].
  destruct X as [-> W3]. cbn [app] in W3. apply alike_close. change (length (@nil path)) with 0%nat.
  unfold open_file, hbind. pose proof (ToBox_sim k [mp] priv w3 h3 W3) as X. destruct (priv_ToBox C priv w3) as [[r p'] w4], (ToBox_os C O priv h3) as [r' h4].
  cbn [fst snd] in X. destruct X as [X R1]. cbn [fst snd] in X, R1. subst r'.
  destruct r as [edpriv|e|]; [|split; [reflexivity|eapply with_here; exact R1]..].
  assert (Hw : wsim (with_handle k [mp]) (file_write mp) (h_write O (2 * 0 + 1))) by (apply write_sim'; reflexivity).
  pose proof (open_body_sim C _ _ (with_handle k [mp]) edpriv _ _ _ _ (dec_read_sim _ _ _ _ _ (fun w _ => file_fuel k w) (fun h _ => last_fuel w0 h) (Hr [mp]) (fun s t _ Q => fuel_sim [mp] k s t Q)) Hw _ _ R1) as X.
  unfold file_decoder. both X. split; [reflexivity|eapply with_here; exact R2].
Qed.
End Bridge.
