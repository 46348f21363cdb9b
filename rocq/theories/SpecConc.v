(* Several processes at work on one file system.  A process opens a file for writing (which
   empties it) and writes at its own offset; a write call takes effect at once. *)
From Verif Require Export SpecCrash.
From Coq Require Import Arith.
Local Open Scope nat_scope.

Inductive fsop :=
| ATrunc (p : path) (mode : Z)              (* open(O_CREAT|O_TRUNC) *)
| AWrite (p : path) (off : nat) (b : bytes). (* write of b at offset off *)

Definition target (a : fsop) : path := match a with ATrunc p _ => p | AWrite p _ _ => p end.

(* bytes of a hole read as zero *)
Definition write_at (d : bytes) (off : nat) (b : bytes) : bytes :=
  firstn off (d ++ repeat x00 (off - length d)) ++ b ++ skipn (off + length b) d.

Definition act (fs : path -> option file) (a : fsop) : path -> option file :=
  match a with
  | ATrunc p mode => fs_create fs p mode
  | AWrite p off b => fun q =>
      if bytes_eqb q p
      then match fs p with Some f => Some (File (write_at (f_data f) off b) (f_mode f)) | None => None end
      else fs q
  end.
Definition acts (fs : path -> option file) (l : list fsop) : path -> option file := fold_left act l fs.

(* What a process whose run has this log does to the disk; [offs] are its offsets. *)
Fixpoint actions (offs : path -> nat) (evs : list event) : list fsop :=
  match evs with
  | [] => []
  | EvCreate p mode :: evs => ATrunc p mode :: actions (fun q => if bytes_eqb q p then 0 else offs q) evs
  | EvAppend p b :: evs => AWrite p (offs p) b :: actions (fun q => if bytes_eqb q p then offs p + length b else offs q) evs
  | _ :: evs => actions offs evs
  end.
Definition process (evs : list event) : list fsop := actions (fun _ => 0) evs.

(* the actions of the processes in some order that keeps each process' own order *)
Inductive interleaving {A} : list (list A) -> list A -> Prop :=
| il_done ls : Forall (fun l => l = []) ls -> interleaving ls []
| il_step pre a l post rest : interleaving (pre ++ l :: post) rest -> interleaving (pre ++ (a :: l) :: post) (a :: rest).
