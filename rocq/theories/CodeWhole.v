(* GeScalarMultBase (970-1014) and ToBytes (672-680, 708-716) of edwards25519.go put
   together from the routines of CodeListing.v and the calls of Steps.v, with the scalar,
   its digits and the result in memory.  Definitions only. *)
From Verif Require Export CodeCalls.
Local Open Scope string_scope.
Local Open Scope list_scope.
Local Open Scope Z_scope.

(* what happens to the memory, and what is seen *)
Definition prog : Type := arrays -> arrays * list sight.
Definition after (p q : prog) : prog := fun m => let '(m, t) := p m in let '(m, u) := q m in (m, t ++ u).
Fixpoint each {A} (f : A -> prog) (l : list A) : prog :=
  match l with [] => fun m => (m, []) | x :: l => after (f x) (each f l) end.
(* a routine with these values and pointers: what it leaves, and a program that goes on with it *)
Definition vals_of (v : list (string * Z)) (x : string) (k : nat) : Z :=
  match find (fun y => String.eqb x (fst y)) v with Some y => snd y | None => 0 end.
Definition ptrs_of (p : list (string * loc)) (x : string) : loc :=
  match find (fun y => String.eqb x (fst y)) p with Some y => snd y | None => g_zero end.
Definition called (c : code) (v : list (string * Z)) (p : list (string * loc)) (m : arrays) : state :=
  fst (crun c (State (vals_of v) (ptrs_of p) m)).
Definition calling (c : code) (v : list (string * Z)) (p : list (string * loc)) (q : state -> prog) : prog := fun m =>
  let '(s, t) := crun c (State (vals_of v) (ptrs_of p) m) in let '(m, u) := q s (cells s) in (m, t ++ u).
Definition nothing : state -> prog := fun _ m => (m, []).
Definition result (s : state) : Z := vars s "result" 0%nat.

(* selectPoint (949-962) *)
Definition select_prog (fr t : Z) (pos : nat) (b : Z) : prog :=
  let minusT := fr in
  calling bAbs_code [("b", b)] [] (fun s =>
    after (perform_all (pc_zero_calls t))
   (after (each (fun i => calling equal_code [("b", vars s "bAbs" 0%nat); ("c", i32 (Z.of_nat i + 1))] [] (fun s =>
                   perform_all (pc_cmove_calls t (g_base pos i) (result s)))) (seq 0 8))
   (after (perform_all [Copy (f0 minusT) (f1 t); Copy (f1 minusT) (f0 t); Neg (f2 minusT) (f2 t)])
          (perform_all (pc_cmove_calls t minusT (vars s "bNegative" 0%nat)))))).
(* 992-996 and 1009-1013: selectPoint(&t, i/2, int32(e[i])); geMixedAdd(&r, h, &t); r.ToExtended(h) *)
Definition step_prog (fr h : Z) (e : loc) (i : nat) : prog :=
  let t := fr in let r := fr + 1 in
  calling (CSet "b" 0 (EConv W32 (EElem "e" (ELit (Z.of_nat i))))) [] [("e", e)] (fun s =>
    after (select_prog (fr + 3) t (i / 2) (vars s "b" 0%nat))
          (perform_all (geMixedAdd_calls (fr + 3) r h t ++ c_to_extended_calls r h))).
(* the scalar is the array a, its digits go to e *)
Definition base_prog (fr h : Z) (a e : loc) : prog :=
  let r := fr + 1 in let s := fr + 2 in let fr' := fr + 3 in
  calling recode_code [] [("a", a); ("e", e)] (fun _ =>
    after (perform_all (e_zero_calls h))
   (after (each (step_prog fr h e) (map (fun k => 2 * k + 1)%nat (seq 0 32)))
   (after (perform_all (e_double_calls fr' h r ++ c_to_projective_calls r s ++
                        p_double_calls fr' s r ++ c_to_projective_calls r s ++
                        p_double_calls fr' s r ++ c_to_projective_calls r s ++
                        p_double_calls fr' s r ++ c_to_extended_calls r h))
          (each (step_prog fr h e) (map (fun k => 2 * k)%nat (seq 0 32)))))).

(* FeInvert (507-560) *)
Definition invert_calls (fr : Z) (out z : loc) : list call :=
  let t0 := (fr, 0%nat) in let t1 := (fr + 1, 0%nat) in
  let t2 := (fr + 2, 0%nat) in let t3 := (fr + 3, 0%nat) in
  [ Square t0 z; Square t1 t0; Squares 1 t1; Mul t1 z t1; Mul t0 t0 t1; Square t2 t0; Mul t1 t1 t2;
    Square t2 t1; Squares 4 t2; Mul t1 t2 t1; Square t2 t1; Squares 9 t2; Mul t2 t2 t1;
    Square t3 t2; Squares 19 t3; Mul t2 t3 t2; Square t2 t2; Squares 9 t2; Mul t1 t2 t1;
    Square t2 t1; Squares 49 t2; Mul t2 t2 t1; Square t3 t2; Squares 99 t3; Mul t2 t3 t2;
    Square t2 t2; Squares 49 t2; Mul t1 t2 t1; Square t1 t1; Squares 4 t1; Mul out t1 t0 ].
(* ToBytes of the point p to the array out; tmp is the variable s of FeIsNegative (221-225) *)
Definition encode_prog (fr p : Z) (out tmp : loc) : prog :=
  let recip := f0 fr in let x := f0 (fr + 1) in let y := f0 (fr + 2) in
  after (perform_all (invert_calls (fr + 3) recip (f2 p) ++ [Mul x (f0 p) recip; Mul y (f1 p) recip]))
 (after (calling FeToBytes_code [] [("s", out); ("h", y)] nothing)
        (calling FeIsNegative_code [] [("s", tmp); ("h", x)] (fun s =>
           calling (CPut "s" (ELit 31) (EBin U8 OXor (EElem "s" (ELit 31)) (EBin U8 OShl (EVar "b" 0) (ELit 7))))
             [("b", result s)] [("s", out)] nothing))).
(* a public key from a scalar *)
Definition public_prog (fr h : Z) (a e out tmp : loc) : prog := after (base_prog fr h a e) (encode_prog fr h out tmp).

(* fePow22523 (562-621) *)
Definition pow22523_calls (fr : Z) (out z : loc) : list call :=
  let t0 := (fr, 0%nat) in let t1 := (fr + 1, 0%nat) in let t2 := (fr + 2, 0%nat) in
  [ Square t0 z; Squares 0 t0; Square t1 t0; Squares 1 t1; Mul t1 z t1; Mul t0 t0 t1;
    Square t0 t0; Squares 0 t0; Mul t0 t1 t0; Square t1 t0; Squares 4 t1; Mul t0 t1 t0;
    Square t1 t0; Squares 9 t1; Mul t1 t1 t0; Square t2 t1; Squares 19 t2; Mul t1 t2 t1;
    Square t1 t1; Squares 9 t1; Mul t0 t1 t0; Square t1 t0; Squares 49 t1; Mul t1 t1 t0;
    Square t2 t1; Squares 99 t2; Mul t1 t2 t1; Square t1 t1; Squares 49 t1; Mul t0 t1 t0;
    Square t0 t0; Squares 1 t0; Mul out t0 z ].
(* ExtendedGroupElement.FromBytes (718-762) on the array s; tmp is the array of the sign and zero
   tests (222, 228), tmpX is 738.  tmp2, which is written and never read, is left out.  The key
   that is decoded is public: what is seen is not kept. *)
Definition decode_prog (fr p : Z) (s tmp tmpX : loc) (m : arrays) : bool * arrays :=
  let u := f0 fr in let v := f0 (fr + 1) in let v3 := f0 (fr + 2) in
  let vxx := f0 (fr + 3) in let check := f0 (fr + 4) in
  let X := f0 p in let Y := f1 p in let Z' := f2 p in let T := f3 p in
  let m := cells (called FeFromBytes_code [] [("src", s); ("h", Y)] m) in
  let m := fst (perform_all [ One Z'; Square u Y; Mul v u g_d; Sub u u Z'; Add v v Z';
                 Square v3 v; Mul v3 v3 v; Square X v3; Mul X X v; Mul X X u ] m) in
  let m := fst (perform_all (pow22523_calls (fr + 5) X X) m) in
  let m := fst (perform_all [ Mul X X v3; Mul X X u; Square vxx X; Mul vxx vxx v; Sub check vxx u ] m) in
  let finish (m : arrays) : bool * arrays :=
    let q := called FeIsNegative_code [] [("s", tmp); ("h", X)] m in
    let m := if result q =? Z.shiftr (cells q s 31) 7 then cells q else fst (perform_all [Neg X X] (cells q)) in
    (true, fst (perform_all [Mul T X Y] m)) in
  let q := called FeIsNonZero_code [] [("s", tmp); ("h", check)] m in
  if result q =? 1 then
    let m := fst (perform_all [Add check vxx u] (cells q)) in
    let q := called FeIsNonZero_code [] [("s", tmp); ("h", check)] m in
    if result q =? 1 then (false, cells q)
    else
      let m := fst (perform_all [Mul X X g_SqrtM1] (cells q)) in
      finish (cells (called FeToBytes_code [] [("s", tmpX); ("h", X)] m))
  else finish (cells q).
(* Public.ToBox (signify/key.go:317-338): edpub holds the bytes of the key, and then the result *)
Definition box_prog (fr : Z) (edpub tmp tmpX : loc) (m : arrays) : bool * arrays :=
  let A := fr in let oneMinusY := f0 (fr + 1) in let x := f0 (fr + 2) in
  let '(ok, m) := decode_prog (fr + 3) A edpub tmp tmpX m in
  if ok then
    let m := fst (perform_all [One oneMinusY; Sub oneMinusY oneMinusY (f1 A); One x; Add x x (f1 A)] m) in
    let m := fst (perform_all (invert_calls (fr + 3) oneMinusY oneMinusY) m) in
    let m := fst (perform_all [Mul x x oneMinusY] m) in
    (true, cells (called FeToBytes_code [] [("s", edpub); ("h", x)] m))
  else (false, m).
