(* The world of Go.v as one of the operating systems of Calls.v: its answer to a call
   is what the primitives of Go.v answer in the world reached by the calls so far.
   Definitions only. *)
From Verif Require Export Calls.
Local Open Scope Z_scope.

(* the world and the paths of the files created so far; input number k has
   descriptor 2k, output number k descriptor 2k+1 *)
Definition place : Type := world * list path.
Definition input (fd : nat) : option nat := if Nat.even fd then Some (Nat.div2 fd) else None.
Definition output (outs : list path) (fd : nat) : option path := if Nat.even fd then None else nth_error outs (Nat.div2 fd).

(* what a call does *)
Definition act (s : place) (c : step) : place :=
  let '(w, outs) := s in
  match c with
  | SReadFile p _ => (snd (ReadFile p w), outs)
  | SWriteFile p b m _ => (snd (WriteFile p b m w), outs)
  | SOpen p _ => (snd (open_read p w), outs)
  | SCreate p m _ =>
      let '(r, w) := create_file p m w in
      (w, match r with Ok _ => outs ++ [p] | _ => outs end)
  | SStat fd _ => (match input fd with Some k => snd (file_size k w) | None => w end, outs)
  | SRead fd n _ _ => (match input fd with Some k => snd (file_read k n w) | None => w end, outs)
  | SWrite fd b _ _ => (match output outs fd with Some p => snd (file_write p b w) | None => w end, outs)
  | SClose _ _ => (w, outs)
  | SRand n _ => (snd (rand_read n w), outs)
  | SPass _ => (snd (ReadPassword w), outs)
  | SOut b => (emit w (EvOut b), outs)
  end.
Definition reached (w : world) (h : list step) : place := fold_left act h (w, []).

(* a panic of a primitive (a descriptor that is not open, or a terminal that
   panics) has no counterpart among the answers *)
Definition answer {A} (r : res A) : A + error :=
  match r with Ok a => inl a | Err e => inr e | Panic => inr EFault end.
Definition failure (r : res unit) : option error :=
  match r with Ok _ => None | Err e => Some e | Panic => Some EFault end.
Definition bounded (z : Z) : Z := Z.max 0 (Z.min z (2 ^ 63 - 1)).

Definition os_of (w0 : world) : os := {|
  o_readfile := fun h p => answer (fst (ReadFile p (fst (reached w0 h))));
  o_writefile := fun h p b m => failure (fst (WriteFile p b m (fst (reached w0 h))));
  o_open := fun h p => answer (match fst (open_read p (fst (reached w0 h))) with Ok k => Ok (2 * k)%nat | Err e => Err e | Panic => Panic end);
  o_create := fun h p m =>
    answer (match fst (create_file p m (fst (reached w0 h))) with
            | Ok _ => Ok (2 * length (snd (reached w0 h)) + 1)%nat
            | Err e => Err e
            | Panic => Panic
            end);
  o_stat := fun h fd =>
    match input fd with
    | Some k => match fst (file_size k (fst (reached w0 h))) with Ok z => inl (bounded z) | Err e => inr e | Panic => inr EFault end
    | None => inr EFault
    end;
  o_read := fun h fd n =>
    match input fd with
    | Some k => match fst (file_read k n (fst (reached w0 h))) with RRet b r => (b, r) | RPanic => ([], Some EFault) end
    | None => ([], Some EFault)
    end;
  o_write := fun h fd b =>
    match output (snd (reached w0 h)) fd with
    | Some p => fst (file_write p b (fst (reached w0 h)))
    | None => (0, Some EFault)
    end;
  o_close := fun h fd => None;
  o_rand := fun h n => answer (fst (rand_read n (fst (reached w0 h))));
  o_pass := fun h =>
    match w_tty (fst (reached w0 h)) with
    | [] => inr ETty
    | r :: _ => answer r
    end
|}.

(* reads until the end of the file opened last, and one more *)
Definition last_fuel (w0 : world) (h : list step) : nat :=
  let w := fst (reached w0 h) in file_fuel (pred (length (w_fds w))) w.
