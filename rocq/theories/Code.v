(* A small programming language for the leaf routines of
   signify/internal/edwards25519/edwards25519.go: assignments to variables and to
   elements of arrays reached through pointers, branches, and loops with a fixed number
   of rounds.  Running a program gives the state it leaves and everything that somebody
   sees who can tell which operations run, which way branches go and which addresses are
   read and written.  CodeListing.v has the routines.  Definitions only. *)
From Coq Require String.
From Verif Require Export Pointers.
Export String.StringSyntax.
Notation string := String.string.
Local Open Scope Z_scope.

(* int8, int32, int64, byte, uint32, uint64, and int for indices *)
Inductive width := W8 | W32 | W64 | U8 | U32 | U64 | WInt.
Inductive arith := OAdd | OSub | OMul | OShl | OShr | OAnd | OOr | OXor | OLess.

(* conversion to a type, and the result of every operation: wrap-around *)
Definition wrap (w : width) (z : Z) : Z :=
  match w with
  | W8 => i8 z
  | W32 => i32 z
  | W64 | WInt => i64 z
  | U8 => z mod 256
  | U32 => z mod 4294967296
  | U64 => z mod 18446744073709551616
  end.
(* >>, &, | and ^ cannot overflow; the comparison gives 1 or 0 *)
Definition calc (w : width) (o : arith) (a b : Z) : Z :=
  match o with
  | OAdd => wrap w (a + b)
  | OSub => wrap w (a - b)
  | OMul => wrap w (a * b)
  | OShl => wrap w (Z.shiftl a b)
  | OShr => Z.shiftr a b
  | OAnd => Z.land a b
  | OOr => Z.lor a b
  | OXor => Z.lxor a b
  | OLess => if a <? b then 1 else 0
  end.

(* a variable is a name and a number: h7 is ("h", 7) *)
Inductive expr :=
| ELit (z : Z)
| EVar (x : string) (k : nat)
| EElem (a : string) (i : expr)
| EBin (w : width) (o : arith) (a b : expr)
| EConv (w : width) (a : expr).

Inductive code :=
| CSkip
| CSeq (c d : code)
| CSet (x : string) (k : nat) (e : expr)
| CPut (a : string) (i e : expr)
| CIf (e : expr) (c d : code)
(* for x = 0; x < n; x++ { c } *)
| CFor (x : string) (k : nat) (n : nat) (c : code).
Fixpoint block (l : list code) : code :=
  match l with [] => CSkip | [c] => c | c :: l => CSeq c (block l) end.

(* the values of the variables, where the pointers point, and the arrays there *)
Definition arrays : Type := loc -> Z -> Z.
Record state := State { vars : string -> nat -> Z; ptrs : string -> loc; cells : arrays }.
Definition set_var (x : string) (k : nat) (z : Z) (s : state) : state :=
  State (fun y j => if (Nat.eqb j k && String.eqb y x)%bool then z else vars s y j) (ptrs s) (cells s).
Definition set_cell (l : loc) (i z : Z) (s : state) : state :=
  State (vars s) (ptrs s) (fun m j => if ((j =? i) && loc_eqb m l)%bool then z else cells s m j).

Inductive sight := Did (w : width) (o : arith) | Converted (w : width) | Loaded (l : loc) (i : Z) | Stored (l : loc) (i : Z) | Branched (b : bool).

Fixpoint cval (e : expr) (s : state) : Z :=
  match e with
  | ELit z => z
  | EVar x k => vars s x k
  | EElem a i => cells s (ptrs s a) (cval i s)
  | EBin w o a b => calc w o (cval a s) (cval b s)
  | EConv w a => wrap w (cval a s)
  end.
Fixpoint cseen (e : expr) (s : state) : list sight :=
  match e with
  | ELit _ | EVar _ _ => []
  | EElem a i => cseen i s ++ [Loaded (ptrs s a) (cval i s)]
  | EBin w o a b => cseen a s ++ cseen b s ++ [Did w o]
  | EConv w a => cseen a s ++ [Converted w]
  end.

(* the rounds of a loop: the first round's number, how many, the body *)
Fixpoint rounds (x : string) (k : nat) (body : state -> state * list sight) (i : Z) (n : nat) (s : state) : state * list sight :=
  match n with
  | O => (s, [Branched false])
  | S n =>
      let '(s, t) := body (set_var x k i s) in
      let '(s, u) := rounds x k body (i + 1) n s in
      (s, Branched true :: t ++ u)
  end.
Fixpoint crun (c : code) (s : state) : state * list sight :=
  match c with
  | CSkip => (s, [])
  | CSeq c d => let '(s, t) := crun c s in let '(s, u) := crun d s in (s, t ++ u)
  | CSet x k e => (set_var x k (cval e s) s, cseen e s)
  | CPut a i e => (set_cell (ptrs s a) (cval i s) (cval e s) s, cseen e s ++ cseen i s ++ [Stored (ptrs s a) (cval i s)])
  | CIf e c d =>
      let b := negb (cval e s =? 0) in
      let '(s', t) := crun (if b then c else d) s in (s', cseen e s ++ Branched b :: t)
  | CFor x k n c => rounds x k (crun c) 0 n s
  end.
