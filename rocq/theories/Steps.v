(* signify/internal/edwards25519/edwards25519.go:879-1014 once more: which field
   routines the two scalar multiplications call, in order and with which pointers.
   Pointers.v says what the calls do; here a routine is the list of its calls, and
   the list is what somebody sees who can tell which instructions run and which
   addresses are read and written.  Every branch and every table index of the Go
   code is an [if] or an index below.  Definitions only. *)
From Verif Require Export Pointers.
Open Scope Z_scope.

Definition call : Type := op loc.

(* 682-687, 777-781 *)
Definition e_zero_calls (p : Z) : list call := [Zero (f0 p); One (f1 p); One (f2 p); Zero (f3 p)].
Definition p_zero_calls (p : Z) : list call := [Zero (f0 p); One (f1 p); One (f2 p)].
Definition pc_zero_calls (p : Z) : list call := [One (f0 p); One (f1 p); Zero (f2 p)].
(* ProjectiveGroupElement.Double (658-670) *)
Definition p_double_calls (fr p r : Z) : list call :=
  let t0 := (fr, 0%nat) in
  [ Square (f0 r) (f0 p); Square (f2 r) (f1 p); Square2 (f3 r) (f2 p); Add (f1 r) (f0 p) (f1 p);
    Square t0 (f1 r); Add (f1 r) (f2 r) (f0 r); Sub (f2 r) (f2 r) (f0 r); Sub (f0 r) t0 (f1 r);
    Sub (f3 r) (f3 r) (f2 r) ].
(* ExtendedGroupElement.ToProjective (702-706), .Double (689-693), .ToCached (695-700) *)
Definition e_to_projective_calls (p r : Z) : list call :=
  [Copy (f0 r) (f0 p); Copy (f1 r) (f1 p); Copy (f2 r) (f2 p)].
Definition e_double_calls (fr p r : Z) : list call :=
  e_to_projective_calls p fr ++ p_double_calls (fr + 1) fr r.
Definition e_to_cached_calls (p r : Z) : list call :=
  [Add (f0 r) (f1 p) (f0 p); Sub (f1 r) (f1 p) (f0 p); Copy (f2 r) (f2 p); Mul (f3 r) (f3 p) g_d2].
(* CompletedGroupElement.ToProjective (764-768), .ToExtended (770-775) *)
Definition c_to_projective_calls (p r : Z) : list call :=
  [Mul (f0 r) (f0 p) (f3 p); Mul (f1 r) (f1 p) (f2 p); Mul (f2 r) (f2 p) (f3 p)].
Definition c_to_extended_calls (p r : Z) : list call :=
  [ Mul (f0 r) (f0 p) (f3 p); Mul (f1 r) (f1 p) (f2 p); Mul (f2 r) (f2 p) (f3 p);
    Mul (f3 r) (f0 p) (f1 p) ].
(* geAdd (783-797), geSub (799-813), geMixedAdd (815-828), geMixedSub (830-843) *)
Definition geAdd_calls (fr r p q : Z) : list call :=
  let t0 := f0 fr in
  [ Add (f0 r) (f1 p) (f0 p); Sub (f1 r) (f1 p) (f0 p); Mul (f2 r) (f0 r) (f0 q);
    Mul (f1 r) (f1 r) (f1 q); Mul (f3 r) (f3 q) (f3 p); Mul (f0 r) (f2 p) (f2 q);
    Add t0 (f0 r) (f0 r); Sub (f0 r) (f2 r) (f1 r); Add (f1 r) (f2 r) (f1 r);
    Add (f2 r) t0 (f3 r); Sub (f3 r) t0 (f3 r) ].
Definition geSub_calls (fr r p q : Z) : list call :=
  let t0 := f0 fr in
  [ Add (f0 r) (f1 p) (f0 p); Sub (f1 r) (f1 p) (f0 p); Mul (f2 r) (f0 r) (f1 q);
    Mul (f1 r) (f1 r) (f0 q); Mul (f3 r) (f3 q) (f3 p); Mul (f0 r) (f2 p) (f2 q);
    Add t0 (f0 r) (f0 r); Sub (f0 r) (f2 r) (f1 r); Add (f1 r) (f2 r) (f1 r);
    Sub (f2 r) t0 (f3 r); Add (f3 r) t0 (f3 r) ].
Definition geMixedAdd_calls (fr r p q : Z) : list call :=
  let t0 := f0 fr in
  [ Add (f0 r) (f1 p) (f0 p); Sub (f1 r) (f1 p) (f0 p); Mul (f2 r) (f0 r) (f0 q);
    Mul (f1 r) (f1 r) (f1 q); Mul (f3 r) (f2 q) (f3 p); Add t0 (f2 p) (f2 p);
    Sub (f0 r) (f2 r) (f1 r); Add (f1 r) (f2 r) (f1 r); Add (f2 r) t0 (f3 r); Sub (f3 r) t0 (f3 r) ].
Definition geMixedSub_calls (fr r p q : Z) : list call :=
  let t0 := f0 fr in
  [ Add (f0 r) (f1 p) (f0 p); Sub (f1 r) (f1 p) (f0 p); Mul (f2 r) (f0 r) (f1 q);
    Mul (f1 r) (f1 r) (f0 q); Mul (f3 r) (f2 q) (f3 p); Add t0 (f2 p) (f2 p);
    Sub (f0 r) (f2 r) (f1 r); Add (f1 r) (f2 r) (f1 r); Sub (f2 r) t0 (f3 r); Add (f3 r) t0 (f3 r) ].

(* PreComputedGroupElementCMove (943-947) *)
Definition pc_cmove_calls (t u : Z) (b : Z) : list call :=
  [CMove (f0 t) (f0 u) b; CMove (f1 t) (f1 u) b; CMove (f2 t) (f2 u) b].
(* selectPoint (949-962) *)
Definition selectPoint_calls (fr t : Z) (pos : nat) (b : Z) : list call :=
  let minusT := fr in
  let bNegative := negative b in
  let bAbs := (b - (((0 - bNegative) && b) << 1))%i32 in
  pc_zero_calls t ++
  flat_map (fun i => pc_cmove_calls t (g_base pos i) (equal bAbs (i32 (Z.of_nat i + 1)))) (seq 0 8) ++
  [Copy (f0 minusT) (f1 t); Copy (f1 minusT) (f0 t); Neg (f2 minusT) (f2 t)] ++
  pc_cmove_calls t minusT bNegative.
(* GeScalarMultBase (970-1014) *)
Definition base_step_calls (fr h : Z) (e : list Z) (i : nat) : list call :=
  let t := fr in let r := fr + 1 in
  selectPoint_calls (fr + 3) t (i / 2) (at_ e i) ++ geMixedAdd_calls (fr + 3) r h t ++ c_to_extended_calls r h.
Definition GeScalarMultBase_calls (fr h : Z) (a : bytes) : list call :=
  let r := fr + 1 in let s := fr + 2 in let fr' := fr + 3 in
  let e := recode 63 0 (nibbles a) in
  e_zero_calls h ++
  flat_map (base_step_calls fr h e) (map (fun k => 2 * k + 1)%nat (seq 0 32)) ++
  e_double_calls fr' h r ++ c_to_projective_calls r s ++
  p_double_calls fr' s r ++ c_to_projective_calls r s ++
  p_double_calls fr' s r ++ c_to_projective_calls r s ++
  p_double_calls fr' s r ++ c_to_extended_calls r h ++
  flat_map (base_step_calls fr h e) (map (fun k => 2 * k)%nat (seq 0 32)).

(* GeDoubleScalarMultVartime (879-928) *)
Definition odd_calls (fr : Z) (i : nat) : list call :=
  geAdd_calls (v_end fr) (v_t fr) (v_A2 fr) (v_Ai fr (Z.of_nat i)) ++
  c_to_extended_calls (v_t fr) (v_u fr) ++
  e_to_cached_calls (v_u fr) (v_Ai fr (Z.of_nat i + 1)).
Definition add_a_calls (fr d : Z) : list call :=
  if 0 <? d then
    c_to_extended_calls (v_t fr) (v_u fr) ++ geAdd_calls (v_end fr) (v_t fr) (v_u fr) (v_Ai fr (Z.quot d 2))
  else if d <? 0 then
    c_to_extended_calls (v_t fr) (v_u fr) ++ geSub_calls (v_end fr) (v_t fr) (v_u fr) (v_Ai fr (Z.quot (i8 (- d)) 2))
  else [].
Definition add_b_calls (fr d : Z) : list call :=
  if 0 <? d then
    c_to_extended_calls (v_t fr) (v_u fr) ++
    geMixedAdd_calls (v_end fr) (v_t fr) (v_u fr) (g_bi (Z.to_nat (Z.quot d 2)))
  else if d <? 0 then
    c_to_extended_calls (v_t fr) (v_u fr) ++
    geMixedSub_calls (v_end fr) (v_t fr) (v_u fr) (g_bi (Z.to_nat (Z.quot (i8 (- d)) 2)))
  else [].
Fixpoint double_loop_calls (fr r : Z) (i : nat) (ra rb : list Z) : list call :=
  match i with
  | O => []
  | S i =>
      p_double_calls (v_end fr) r (v_t fr) ++ add_a_calls fr (at_ ra i) ++ add_b_calls fr (at_ rb i) ++
      c_to_projective_calls (v_t fr) r ++ double_loop_calls fr r i ra rb
  end.
Definition GeDoubleScalarMultVartime_calls (fr r : Z) (a : bytes) (A : Z) (b : bytes) : list call :=
  let aSlide := slide a in
  let bSlide := slide b in
  e_to_cached_calls A (v_Ai fr 0) ++ e_double_calls (v_end fr) A (v_t fr) ++
  c_to_extended_calls (v_t fr) (v_A2 fr) ++ flat_map (odd_calls fr) (seq 0 7) ++ p_zero_calls r ++
  double_loop_calls fr r (top_digit 256 aSlide bSlide) aSlide bSlide.
