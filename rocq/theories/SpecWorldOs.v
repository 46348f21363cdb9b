(* When a run on a world and a run over an operating system end alike. *)
From Verif Require Export WorldOs CmdCalls.
From Verif Require Export SpecCalls.
Local Open Scope Z_scope.

(* the terminal does not panic, files have a size os.FileInfo can express *)
Definition plain_world (w : world) : Prop :=
  Forall (fun r => r <> Panic) (w_tty w) /\
  forall p f, w_fs w p = Some f -> Z.of_nat (length (f_data f)) < 2 ^ 63.

Definition on_stderr (l : list event) : bytes := flat_map (fun e => match e with EvErr b => b | _ => [] end) l.
Definition elsewhere (l : list event) : list event := filter (fun e => match e with EvErr _ => false | _ => true end) l.

(* the calls h, begun in the world w, lead to the files, the random source, the terminal, the
   faults still to come, the descriptors and the effects of w' *)
Definition leads (w : world) (h : list step) (w' : world) : Prop :=
  let v := fst (reached w h) in
  w_fs w' = w_fs v /\ w_rng w' = w_rng v /\ w_tty w' = w_tty v /\ w_faults w' = w_faults v /\ w_fds w' = w_fds v /\
  elsewhere (w_log w') = elsewhere (w_log v).
