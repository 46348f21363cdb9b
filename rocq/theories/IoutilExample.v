(* Files that are read piece by piece, with a content that may change meanwhile. *)
From Verif Require Import MemWitness TextKeys CallFacts CallExample PrintExample CmdCallEnds IoutilFacts.
From Verif Require Import SpecIoutil.
Local Open Scope Z_scope.

(* a file without content cannot be opened; a write takes [takes] bytes at most *)
Definition file_os (content : list step -> path -> bytes) (takes : Z) : os := {|
  o_readfile := fun h p => inr EFault;
  o_writefile := fun h p b m => Some EFault;
  o_open := fun h p => match content h p with [] => inr (ENotExist p) | _ => inl (length h) end;
  o_create := fun h p m => inl (length h);
  o_stat := fun h fd => inr EFault;
  o_read := fun h fd n => match reading fd h with
                          | Some p => match skipn (offset fd h) (content h p) with [] => ([], Some EOF) | r => (firstn n r, None) end
                          | None => ([], Some EFault)
                          end;
  o_write := fun h fd b => (Z.min takes (Z.of_nat (length b)), None);
  o_close := fun h fd => None;
  o_rand := fun h n => inl (repeat x05 n);
  o_pass := fun h => inl (str "right") |}.

Section Facts.
Variable content : list step -> path -> bytes.
Variable takes : Z.
Let L := file_os content takes.
Lemma file_serves : serves L content.
Proof. intros h fd p n E. unfold L, file_os. cbn [o_read]. rewrite E. destruct (skipn (offset fd h) (content h p)); reflexivity. Qed.
Lemma file_rules_os : file_rules L.
Proof.
  split; [|intros h fd z E; discriminate E]. intros h fd n b r E P. unfold L, file_os in E. cbn [o_read] in E. destruct (reading fd h) as [p|]; [|injection E as <- <-; reflexivity].
  destruct (skipn (offset fd h) (content h p)) as [|x t]; [injection E as <- <-; reflexivity|]. injection E as <- <-. rewrite firstn_length. cbn [length]. lia.
Qed.
Lemma file_rand_os : rand_rules L.
Proof. intros h n b E. injection E as <-. apply repeat_length. Qed.
Lemma file_ends room N : (forall h p, (length (content h p) <= N)%nat) -> files_end L room (fun _ => S N).
Proof.
  intros B h fd. assert (K : forall n h, (N - offset fd h < n)%nat -> comes_to_end L room n fd h); [|apply K; lia].
  clear h. induction n as [|n IH]; intros h G; [lia|]. cbn [comes_to_end]. unfold L at 1. cbn [file_os o_read]. destruct (reading fd h) as [p|]; [|exact I].
  destruct (skipn (offset fd h) (content h p)) as [|x t] eqn:E; [exact I|]. cbn [firstn]. apply IH. rewrite offset_app, Nat.eqb_refl. cbn [length].
  assert (X : (offset fd h < N)%nat); [|lia]. specialize (B h p). apply (f_equal (@length byte)) in E. rewrite skipn_length in E. cbn [length] in E. lia.
Qed.
End Facts.

Definition lookup (fs : list (path * bytes)) (p : path) : bytes :=
  match find (fun x => bytes_eqb (fst x) p) fs with Some x => snd x | None => [] end.
Definition signed_files : list (path * bytes) := (str "m.sig", m_sig) :: key_files.
(* always the same *)
Definition still_content (h : list step) (p : path) : bytes := lookup signed_files p.
(* the message is rewritten as soon as its first two bytes have been read *)
Definition seen_he (s : step) : bool := match s with SRead _ _ b _ => bytes_eqb b (str "he") | _ => false end.
Definition moving_content (h : list step) (p : path) : bytes :=
  if bytes_eqb p (str "m") then (if existsb seen_he h then str "12llo" else str "he123") else lookup signed_files p.
Definition low_main (content : list step -> path -> bytes) (takes : Z) (args : list bytes) : ending :=
  main_os toy (over (file_os content takes) (fun _ => 1%nat) (fun _ => 1001%nat)) (fun _ => 1000%nat) (str "psignify") None args.
Definition low_calls (content : list step -> path -> bytes) (takes : Z) (args : list bytes) : list step :=
  expand (file_os content takes) (fun _ => 1%nat) (fun _ => 1001%nat) (snd (low_main content takes args)).
Definition sign_args : list bytes := [str "-S"; str "-s"; str "k.sec"; str "-m"; str "m"].

Lemma lookup_short p : (length (lookup signed_files p) <= 1000)%nat.
Proof.
  unfold lookup. destruct (find (fun x => bytes_eqb (fst x) p) signed_files) as [x|] eqn:E; [|cbn [length]; lia]. apply find_some in E as [E _].
  assert (F : forallb (fun x => Nat.leb (length (snd x)) 1000) signed_files = true) by (vm_compute; reflexivity).
  rewrite forallb_forall in F. apply Nat.leb_le, F, E.
Qed.
Lemma still_short h p : (length (still_content h p) <= 1000)%nat.
Proof. apply lookup_short. Qed.
Lemma moving_short h p : (length (moving_content h p) <= 1000)%nat.
Proof. unfold moving_content. destruct (bytes_eqb p _); [|apply lookup_short]. destruct (existsb _ _); cbn; lia. Qed.

Theorem mixed_accepted : exists content L room fuel,
  serves L content /\ file_rules L /\ rand_rules L /\ files_end L room fuel /\
  fst (main_os toy (over L room fuel) (fun _ => 1000%nat) (str "psignify") None verify_args) = (0, []) /\
  forall h pf, ~ signature_text (fun k m s => ed_verify toy k m s = true) pf (content h (str "m")) (content h (str "m.sig")).
Proof.
  exists moving_content, (file_os moving_content 1000), (fun _ => 1%nat), (fun _ => 1001%nat).
  split; [apply file_serves|]. split; [apply file_rules_os|]. split; [apply file_rand_os|]. split; [apply file_ends, moving_short|]. split; [vm_compute; reflexivity|].
  intros h pf S. apply acceptable_text in S. destruct S as (pk & sg & _ & R & _ & _ & _ & V).
  change (moving_content h (str "m.sig")) with m_sig in R. cbn [ed_verify toy] in V. apply bytes_eqb_eq in V.
  assert (X : fit 64 (moving_content h (str "m")) = fit 64 (str "he123") \/ fit 64 (moving_content h (str "m")) = fit 64 (str "12llo")).
  { unfold moving_content. change (bytes_eqb (str "m") (str "m")) with true. cbn iota. destruct (existsb seen_he h); auto. }
  assert (Y : readSignatureFile m_sig = Ok (Sig (pkAlgo sg) (s_keyNum sg) (fit 64 (str "hello")))).
  { rewrite R. f_equal. assert (Z : match readSignatureFile m_sig with Ok s => sig s | _ => [] end = fit 64 (str "hello")) by (vm_compute; reflexivity).
    rewrite R in Z. destruct sg as [a b c]. cbn [sig] in Z. subst c. reflexivity. }
  rewrite R in Y. injection Y as Y. rewrite Y in V. cbn [sig] in V. destruct X as [X|X]; rewrite X in V; vm_compute in V; discriminate V.
Qed.

Theorem example_low :
  files_end (file_os still_content 1000) (fun _ => 1%nat) (fun _ => 1001%nat) /\
  file_rules (file_os still_content 1000) /\ rand_rules (file_os still_content 1000) /\ serves (file_os still_content 1000) still_content /\
  LengthLaws toy /\ BoxTidy toy /\ command_line verify_flags verify_args [] /\ stops [] /\ mode verify_flags x56 /\
  fst (low_main still_content 1000 verify_args) = (0, []) /\ length (low_calls still_content 1000 verify_args) = 133%nat /\
  fst (low_main still_content 1000 sign_args) = (0, []) /\
  (exists text, skipn 94 (low_calls still_content 1000 sign_args) =
    [SOpen (str "m") (inl 94%nat); SStat 94 (inr EFault); SRead 94 2 (str "he") None; SRead 94 2 (str "ll") None; SRead 94 2 (str "o") None;
     SRead 94 2 [] (Some EOF); SClose 94 None;
     SCreate (str "m.sig") 420 (inl 101%nat); SWrite 101 text 138 None; SClose 101 None]) /\
  fst (low_main still_content 100 sign_args) = (1, line (str "Signing m failed: short write")).
Proof.
  split; [apply file_ends, still_short|]. split; [apply file_rules_os|]. split; [apply file_rand_os|]. split; [apply file_serves|].
  destruct example_runs as (A & B & D & E & F & _). repeat (split; [assumption|]).
  split; [vm_compute; reflexivity|]. split; [vm_compute; reflexivity|]. split; [vm_compute; reflexivity|].
  split; [eexists; vm_compute; reflexivity|vm_compute; reflexivity].
Qed.
