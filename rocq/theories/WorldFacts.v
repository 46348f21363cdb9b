(* Facts about the operating-system primitives of Go.v. *)
From Verif Require Export KeyOpsFacts.

(* the call finds no injected failure among the next n entries *)
Definition not_failing (f : fault) : Prop := match f with FFail _ => False | _ => True end.
Definition undisturbed (n : nat) (w : world) : Prop := Forall not_failing (firstn n (w_faults w)).

Lemma undisturbed_nil n w : w_faults w = [] -> undisturbed n w.
Proof. intro H. unfold undisturbed. rewrite H, firstn_nil. constructor. Qed.

Definition next (w : world) : world := set_faults w (tl (w_faults w)).

Lemma pop_fault_eq w : pop_fault w = (hd FOk (w_faults w), next w).
Proof.
  unfold pop_fault, next. destruct (w_faults w) as [|f r] eqn:E; [|reflexivity].
  cbn. f_equal. destruct w; cbn in *; subst; reflexivity.
Qed.

Lemma undisturbed_S n w : undisturbed (S n) w <-> not_failing (hd FOk (w_faults w)) /\ undisturbed n (next w).
Proof.
  unfold undisturbed, next. cbn [w_faults set_faults]. destruct (w_faults w) as [|f r]; cbn [firstn hd tl].
  - rewrite firstn_nil. split; [intros _; split; [exact I|constructor]|intros _; constructor].
  - split; [intro H; inversion H; subst; auto|intros [H1 H2]; constructor; assumption].
Qed.

Lemma ReadFile_eq p w : ReadFile p w =
  (match hd FOk (w_faults w) with
   | FFail _ => Err EFault
   | _ => match w_fs w p with Some f => Ok (f_data f) | None => Err (ENotExist p) end
   end, next w).
Proof.
  unfold ReadFile. rewrite pop_fault_eq. change (w_fs (next w)) with (w_fs w).
  destruct (hd FOk (w_faults w)); try reflexivity; destruct (w_fs w p); reflexivity.
Qed.

Lemma ReadFile_ok p w d w' : ReadFile p w = (Ok d, w') <->
  not_failing (hd FOk (w_faults w)) /\ (exists m, w_fs w p = Some (File d m)) /\ w' = next w.
Proof.
  rewrite ReadFile_eq. split.
  - intro H. apply pair_equal_spec in H. destruct H as [H <-].
    destruct (hd FOk (w_faults w)); try discriminate; (destruct (w_fs w p) as [[d0 m]|]; [|discriminate]);
      injection H as <-; (split; [exact I|]); (split; [exists m; reflexivity|reflexivity]).
  - intros (Hf & (m & Hp) & ->). rewrite Hp. destruct (hd FOk (w_faults w)); cbn in Hf; try contradiction; reflexivity.
Qed.

Lemma ReadFile_no_panic p w : fst (ReadFile p w) <> Panic.
Proof. rewrite ReadFile_eq. cbn [fst]. destruct (hd _ _); try discriminate; destruct (w_fs w p); discriminate. Qed.

Lemma next_faults w n : n = 1%nat -> exists fl, next w = set_faults w fl.
Proof. intros _. eexists. reflexivity. Qed.
Lemma set_faults_twice w a b : set_faults (set_faults w a) b = set_faults w b.
Proof. reflexivity. Qed.
Lemma set_faults_same w : set_faults w (w_faults w) = w.
Proof. destruct w; reflexivity. Qed.

Lemma next_id w : w_faults w = [] -> next w = w.
Proof. intro H. unfold next. rewrite H. cbn. rewrite <- H. apply set_faults_same. Qed.

(* ---- files ---- *)
Lemma fs_create_same fs p m : fs_create fs p m p = Some (File [] (match fs p with Some f => f_mode f | None => m end)).
Proof. unfold fs_create. rewrite bytes_eqb_refl. reflexivity. Qed.
Lemma fs_create_other fs p m q : q <> p -> fs_create fs p m q = fs q.
Proof. intro H. apply bytes_eqb_neq in H. unfold fs_create. rewrite H. reflexivity. Qed.
Lemma fs_append_same fs p b : fs_append fs p b p = match fs p with Some f => Some (File (f_data f ++ b) (f_mode f)) | None => None end.
Proof. unfold fs_append. rewrite bytes_eqb_refl. reflexivity. Qed.
Lemma fs_append_other fs p b q : q <> p -> fs_append fs p b q = fs q.
Proof. intro H. apply bytes_eqb_neq in H. unfold fs_append. rewrite H. reflexivity. Qed.

Definition file_mode (fs : path -> option file) (p : path) (m : Z) : Z :=
  match fs p with Some f => f_mode f | None => m end.

(* everything but files, faults and log is the same *)
Definition same_rest (w w' : world) : Prop :=
  w_rng w' = w_rng w /\ w_tty w' = w_tty w /\ w_bufs w' = w_bufs w /\ w_fds w' = w_fds w.

Lemma same_rest_refl w : same_rest w w.
Proof. repeat split. Qed.
Lemma same_rest_trans a b c : same_rest a b -> same_rest b c -> same_rest a c.
Proof. unfold same_rest. intuition congruence. Qed.

(* WriteFile: the events it performs *)
Definition write_events (p : path) (d : bytes) (m : Z) (evs : list event) (ok : bool) : Prop :=
  (ok = false /\ evs = []) \/
  (ok = false /\ exists d1 d2, d = d1 ++ d2 /\ evs = [EvCreate p m; EvAppend p d1]) \/
  evs = [EvCreate p m; EvAppend p d].

Lemma WriteFile_spec p d m w r w' : WriteFile p d m w = (r, w') ->
  r <> Panic /\
  exists evs, write_events p d m evs (match r with Ok _ => true | _ => false end) /\
    w_log w' = w_log w ++ evs /\ w_fs w' = replay (w_fs w) evs /\ same_rest w w'.
Proof.
  unfold WriteFile, create_file. rewrite pop_fault_eq.
  assert (Fail : forall e, (Err e, next w) = (r, w') -> r <> Panic /\
     exists evs, write_events p d m evs (match r with Ok _ => true | _ => false end) /\
      w_log w' = w_log w ++ evs /\ w_fs w' = replay (w_fs w) evs /\ same_rest w w').
  { intros e H. injection H as <- <-. split; [discriminate|]. exists []. split; [left; auto|].
    rewrite app_nil_r. repeat split. }
  assert (Main : (let '((_, e), w1) := file_write p d (do_create p m (next w)) in
      match e with
      | Some e => (Err e, w1)
      | None => let '(f, w2) := pop_fault w1 in match f with FFail _ => (Err EFault, w2) | _ => (Ok tt, w2) end
      end) = (r, w') -> r <> Panic /\
     exists evs, write_events p d m evs (match r with Ok _ => true | _ => false end) /\
      w_log w' = w_log w ++ evs /\ w_fs w' = replay (w_fs w) evs /\ same_rest w w').
  { unfold file_write. rewrite pop_fault_eq.
    destruct (hd FOk (w_faults (do_create p m (next w)))) as [|k|k].
    - rewrite pop_fault_eq. set (x := hd FOk _). intro H.
      split; [destruct x; injection H as <- _; discriminate|].
      assert (E : w' = next (do_append p d (next (do_create p m (next w))))) by (destruct x; injection H as _ <-; reflexivity).
      exists [EvCreate p m; EvAppend p d]. split; [right; right; reflexivity|]. subst w'. cbn.
      rewrite <- app_assoc. repeat split.
    - intro H. injection H as <- <-. split; [discriminate|].
      exists [EvCreate p m; EvAppend p (firstn k d)]. split; [right; left|].
      + split; [reflexivity|]. exists (firstn k d), (skipn k d). rewrite firstn_skipn. auto.
      + cbn. rewrite <- app_assoc. repeat split.
    - rewrite pop_fault_eq. set (x := hd FOk _). intro H.
      split; [destruct x; injection H as <- _; discriminate|].
      assert (E : w' = next (do_append p d (next (do_create p m (next w))))) by (destruct x; injection H as _ <-; reflexivity).
      exists [EvCreate p m; EvAppend p d]. split; [right; right; reflexivity|]. subst w'. cbn.
      rewrite <- app_assoc. repeat split. }
  destruct (hd FOk (w_faults w)); [|exact (Fail _)|]; (destruct p as [|c p]; [exact (Fail _)|exact Main]).
Qed.

Lemma replay_app fs a b : replay fs (a ++ b) = replay (replay fs a) b.
Proof. apply fold_left_app. Qed.

Lemma write_events_other p d m evs ok fs q : write_events p d m evs ok -> q <> p -> replay fs evs q = fs q.
Proof.
  intros [[_ ->]|[(_ & d1 & d2 & _ & ->)| ->]] H; [reflexivity| |];
    cbn; rewrite fs_append_other, fs_create_other by exact H; reflexivity.
Qed.

Lemma write_events_done p d m evs fs : write_events p d m evs true ->
  replay fs evs p = Some (File d (file_mode fs p m)).
Proof.
  intros [[E _]|[(E & _)| ->]]; try discriminate. cbn. rewrite fs_append_same, fs_create_same. reflexivity.
Qed.

Lemma WriteFile_no_fault p d m w : p <> [] -> w_faults w = [] ->
  exists w', WriteFile p d m w = (Ok tt, w') /\ w_faults w' = [].
Proof.
  intros Hp Hf. unfold WriteFile, create_file. rewrite pop_fault_eq, Hf, next_id by exact Hf. cbn [hd].
  destruct p as [|c p]; [contradiction Hp; reflexivity|].
  unfold file_write. rewrite pop_fault_eq.
  assert (H1 : w_faults (do_create (c :: p) m w) = []) by exact Hf. rewrite H1, next_id by exact H1. cbn [hd].
  rewrite pop_fault_eq. set (w2 := do_append _ _ _).
  assert (H2 : w_faults w2 = []) by exact Hf. rewrite H2, next_id by exact H2. cbn [hd].
  eexists. split; [reflexivity|exact Hf].
Qed.
