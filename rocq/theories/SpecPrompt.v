(* What a function put in place of PassphrasePrompt does. *)
From Verif Require Export Prompts.
Local Open Scope Z_scope.

(* the effects on files *)
Definition on_files (l : list event) : list event :=
  filter (fun e => match e with EvCreate _ _ | EvAppend _ _ => true | _ => false end) l.
(* two worlds may differ in the terminal, the buffers and what was printed, but not in the rest *)
Definition still (w v : world) : Prop :=
  w_fs v = w_fs w /\ w_faults v = w_faults w /\ w_rng v = w_rng w /\ w_fds v = w_fds w /\ on_files (w_log v) = on_files (w_log w).

(* asked while the buffers are those of w, the function answers ans and leaves files and the random source alone *)
Definition gives (prompt : bool -> M nat) (w : world) (ans : res bytes) : Prop :=
  forall v, w_bufs v = w_bufs w ->
  still v (snd (prompt false v)) /\
  match fst (prompt false v), ans with
  | Ok i, Ok pass => nth_error (w_bufs (snd (prompt false v))) i = Some pass
  | Err e, Err e' => e = e'
  | Panic, Panic => True
  | _, _ => False
  end.

(* what is typed at the terminal *)
Definition typing (w : world) (ans : res bytes) : world := set_tty w [ans].
