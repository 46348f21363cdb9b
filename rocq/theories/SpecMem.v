(* seal and open between an arbitrary reader and a buffer. *)
From Verif Require Export SpecSeal.
Local Open Scope nat_scope.

(* bytes.Buffer.Read *)
Definition mem_read : Reader bytes := fun n b =>
  match b, n with
  | [], S _ => (RRet [] (Some EOF), [])
  | _, _ => (RRet (firstn n b) None, skipn n b)
  end.
(* a pipe or connection: a read returns at most the segment that has arrived *)
Definition pipe_read : Reader (list bytes) := fun n l =>
  match l with
  | [] => (RRet [] (Some EOF), [])
  | s :: r => if length s <=? n then (RRet s None, r) else (RRet (firstn n s) None, skipn n s :: r)
  end.

(* successive reads with a buffer of n bytes return the pieces ps *)
Inductive delivered {A} (rd : Reader A) (n : nat) : A -> list bytes -> A -> Prop :=
| del_nil a : delivered rd n a [] a
| del_cons a p a1 ps a2 : rd n a = (RRet p None, a1) -> delivered rd n a1 ps a2 -> delivered rd n a (p :: ps) a2.

(* a reader and a writer with separate states *)
Definition on_left {A B} (rd : Reader A) : Reader (A * B) := fun n s =>
  let '(r, a) := rd n (fst s) in (r, (a, snd s)).
Definition on_right {A B} (wr : Writer B) : Writer (A * B) := fun b s =>
  let '(r, x) := wr b (snd s) in (r, (fst s, x)).

(* the pieces cs are the boxes, numbered from i, of the pieces ms *)
Inductive boxed (C : Crypto) (shared : bytes) : Z -> list bytes -> list bytes -> Prop :=
| bx_nil i : boxed C shared i [] []
| bx_cons i m cs ms : boxed C shared (i + 1) cs ms -> boxed C shared i (box_seal C m (nonce i) shared :: cs) (m :: ms).
