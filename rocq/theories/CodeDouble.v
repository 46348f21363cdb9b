(* slide (845-873) and GeDoubleScalarMultVartime (879-928) of edwards25519.go with the scalars,
   their digits and the points in memory: every digit is read where it is stored.  The routine
   is for public scalars: what is seen is not kept.  Definitions only. *)
From Verif Require Export CodeWhole.
Local Open Scope Z_scope.

(* r[i] = z *)
Definition poke (r : loc) (i : nat) (z : Z) (m : arrays) : arrays :=
  fun l j => if ((j =? Z.of_nat i) && loc_eqb l r)%bool then z else m l j.
Definition peek (r : loc) (i : nat) (m : arrays) : Z := m r (Z.of_nat i).

(* 846-848 *)
Definition bits_prog (r a : loc) (m : arrays) : arrays :=
  fold_left (fun m i => poke r i (Z.land 1 (Z.shiftr (peek a (i / 8) m) (Z.of_nat (i mod 8)))) m) (seq 0 256) m.
(* 859-865 (fuel: 256 - k) *)
Fixpoint carry_prog (fuel k : nat) (r : loc) (m : arrays) : arrays :=
  match fuel with
  | O => m
  | S fuel => if peek r k m =? 0 then poke r k 1 m else carry_prog fuel (k + 1) r (poke r k 0 m)
  end.
(* 852-870 (fuel: 7 - b) *)
Fixpoint inner_prog (fuel i b : nat) (r : loc) (m : arrays) : arrays :=
  match fuel with
  | O => m
  | S fuel =>
      if (i + b <? 256)%nat then
        if peek r (i + b) m =? 0 then inner_prog fuel i (b + 1) r m
        else
          let s := i8 (Z.shiftl (peek r (i + b) m) (Z.of_nat b)) in
          if i8 (peek r i m + s) <=? 15 then
            let m := poke r i (i8 (peek r i m + s)) m in
            inner_prog fuel i (b + 1) r (poke r (i + b) 0 m)
          else if -15 <=? i8 (peek r i m - s) then
            let m := poke r i (i8 (peek r i m - s)) m in
            inner_prog fuel i (b + 1) r (carry_prog (256 - (i + b)) (i + b) r m)
          else m
      else m
  end.
Definition slide_prog (r a : loc) (m : arrays) : arrays :=
  fold_left (fun m i => if peek r i m =? 0 then m else inner_prog 6 i 1 r m) (seq 0 256) (bits_prog r a m).

(* 901-905: returns i + 1 *)
Fixpoint top_prog (i : nat) (ra rb : loc) (m : arrays) : nat :=
  match i with
  | O => O
  | S i' => if negb (peek ra i' m =? 0) || negb (peek rb i' m =? 0) then i else top_prog i' ra rb m
  end.
(* 907-927 *)
Definition body_with (l1 : list call) (fa fb : Z -> list call) (l4 : list call) (i : nat) (ra rb : loc) (m : arrays) : arrays :=
  let m := fst (perform_all l1 m) in
  let m := fst (perform_all (fa (peek ra i m)) m) in
  let m := fst (perform_all (fb (peek rb i m)) m) in
  fst (perform_all l4 m).
Fixpoint loop_with (body : nat -> loc -> loc -> arrays -> arrays) (i : nat) (ra rb : loc) (m : arrays) : arrays :=
  match i with
  | O => m
  | S i => loop_with body i ra rb (body i ra rb m)
  end.
Definition loop_prog (fr r : Z) : nat -> loc -> loc -> arrays -> arrays := loop_with
  (body_with (p_double_calls (v_end fr) r (v_t fr)) (add_a_calls fr) (add_b_calls fr) (c_to_projective_calls (v_t fr) r)).
(* 884-899 *)
Definition table_calls (fr r A : Z) : list call :=
  e_to_cached_calls A (v_Ai fr 0) ++ e_double_calls (v_end fr) A (v_t fr) ++
  c_to_extended_calls (v_t fr) (v_A2 fr) ++ flat_map (odd_calls fr) (seq 0 7) ++ p_zero_calls r.
(* the scalars are the arrays a and b, their digits go to ra and rb *)
Definition double_prog (fr r : Z) (a : loc) (A : Z) (b ra rb : loc) (m : arrays) : arrays :=
  let m := slide_prog ra a m in
  let m := slide_prog rb b m in
  let m := fst (perform_all (table_calls fr r A) m) in
  loop_prog fr r (top_prog 256 ra rb m) ra rb m.
(* and ProjectiveGroupElement.ToBytes (672-680) *)
Definition combine_prog (fr r : Z) (a : loc) (A : Z) (b ra rb out tmp : loc) (m : arrays) : arrays :=
  fst (encode_prog fr r out tmp (double_prog fr r a A b ra rb m)).
