(* signify/internal/edwards25519/edwards25519.go and signify/key.go:317-338 once
   more, this time on a memory: the routines get pointers, read through them and
   write through them, and several pointers may be the same.  Field.v, Group.v and
   ScalarMult.v describe the same routines as functions of values.  Definitions
   only. *)
From Verif Require Export ScalarMult.
Open Scope Z_scope.

(* A location is a variable (its number) and the field of the struct in it (0 for
   the first field; a plain FieldElement is field 0).  Package variables have
   negative numbers.  A routine gets as its first argument [fr] the number of the
   first variable that does not exist yet: its own variables are fr, fr + 1, ...
   and those of the routines it calls come after them. *)
Definition loc : Type := Z * nat.
Definition loc_eqb (a b : loc) : bool := (fst a =? fst b) && Nat.eqb (snd a) (snd b).
Definition mem : Type := loc -> fe.

(* f[i], and f[i] = z *)
Definition limb (i : nat) (f : fe) : Z :=
  let '(Fe a b c d e g h j k l) := f in nth i [a; b; c; d; e; g; h; j; k; l] 0.
Definition set_limb (i : nat) (z : Z) (f : fe) : fe :=
  let '(Fe a b c d e g h j k l) := f in
  match i with
  | 0%nat => Fe z b c d e g h j k l
  | 1%nat => Fe a z c d e g h j k l
  | 2%nat => Fe a b z d e g h j k l
  | 3%nat => Fe a b c z e g h j k l
  | 4%nat => Fe a b c d z g h j k l
  | 5%nat => Fe a b c d e z h j k l
  | 6%nat => Fe a b c d e g z j k l
  | 7%nat => Fe a b c d e g h z k l
  | 8%nat => Fe a b c d e g h j z l
  | 9%nat => Fe a b c d e g h j k z
  | _ => f
  end.

(* all ten limbs at once: copy(dst[:], ...); one limb *)
Definition put (m : mem) (l : loc) (v : fe) : mem := fun x => if loc_eqb x l then v else m x.
Definition store (m : mem) (l : loc) (i : nat) (z : Z) : mem := put m l (set_limb i z (m l)).

(* const.go, tables.go: var d, d2, SqrtM1, bi, base; edwards25519.go:18: var zero *)
Definition g_zero : loc := (-1, 0%nat).
Definition g_d : loc := (-2, 0%nat).
Definition g_d2 : loc := (-3, 0%nat).
Definition g_SqrtM1 : loc := (-4, 0%nat).
Definition g_bi (i : nat) : Z := -10 - Z.of_nat i.
Definition g_base (pos i : nat) : Z := -100 - 8 * Z.of_nat pos - Z.of_nat i.

(* the ten assignments of FeAdd, FeSub, FeCMove and FeNeg are made in order and
   each reads the memory the previous ones have left *)
Definition in_order : list nat := seq 0 10.
(* FeZero (20-22), FeOne (24-27) *)
Definition FeZero_at (d : loc) (m : mem) : mem := put m d (m g_zero).
Definition FeOne_at (d : loc) (m : mem) : mem := store (FeZero_at d m) d 0 1.
(* FeAdd (29-40) *)
Definition FeAdd_at (d a b : loc) (m : mem) : mem :=
  fold_left (fun m i => store m d i (limb i (m a) + limb i (m b))%i32) in_order m.
(* FeSub (42-53) *)
Definition FeSub_at (d a b : loc) (m : mem) : mem :=
  fold_left (fun m i => store m d i (limb i (m a) - limb i (m b))%i32) in_order m.
(* FeCopy (55-57) *)
Definition FeCopy_at (d s : loc) (m : mem) : mem := put m d (m s).
(* FeCMove (63-75) *)
Definition FeCMove_at (f g : loc) (b : Z) (m : mem) : mem :=
  let b := i32 (- b) in
  fold_left (fun m i => store m f i (Z.lxor (limb i (m f)) (Z.land b (Z.lxor (limb i (m f)) (limb i (m g)))))) in_order m.
(* FeNeg (247-258) *)
Definition FeNeg_at (h f : loc) (m : mem) : mem :=
  fold_left (fun m i => store m h i (0 - limb i (m f))%i32) in_order m.
(* FeCombine (260-361) writes h only in its last ten lines, and FeMul (363-440),
   FeSquare (475-478) and FeSquare2 (490-505) have read their arguments into local
   variables before they call it *)
Definition store_all (d : loc) (v : fe) (m : mem) : mem :=
  fold_left (fun m i => store m d i (limb i v)) in_order m.
Definition FeMul_at (h f g : loc) (m : mem) : mem := store_all h (FeMul (m f) (m g)) m.
Definition FeSquare_at (h f : loc) (m : mem) : mem := store_all h (FeSquare (m f)) m.
Definition FeSquare2_at (h f : loc) (m : mem) : mem := store_all h (FeSquare2 (m f)) m.
(* FeFromBytes (94-108): the same with ten locals loaded from the bytes *)
Definition FeFromBytes_at (d : loc) (s : bytes) (m : mem) : mem := store_all d (FeFromBytes s) m.
(* FeToBytes (128-219), FeIsNegative (221-225), FeIsNonZero (227-238): one pointer
   to limbs, which is read and written *)
Definition FeToBytes_at (h : loc) (m : mem) : bytes * mem :=
  let '(s, f) := FeToBytes (m h) in (s, put m h f).
Definition FeIsNegative_at (h : loc) (m : mem) : Z * mem :=
  let '(z, f) := FeIsNegative (m h) in (z, put m h f).
Definition FeIsNonZero_at (h : loc) (m : mem) : Z * mem :=
  let '(z, f) := FeIsNonZero (m h) in (z, put m h f).

(* Calls of these routines as data, over any kind of names *)
Inductive op (A : Type) : Type :=
| Zero (d : A) | One (d : A) | Copy (d s : A)
| Add (d a b : A) | Sub (d a b : A) | Neg (d a : A) | CMove (d a : A) (b : Z)
| Mul (d a b : A) | Square (d a : A) | Square2 (d a : A)
(* for i = 1; i < n + 1; i++ { FeSquare(d, d) } *)
| Squares (n : nat) (d : A).
Arguments Zero {A}. Arguments One {A}. Arguments Copy {A}. Arguments Add {A}. Arguments Sub {A}.
Arguments Neg {A}. Arguments CMove {A}. Arguments Mul {A}. Arguments Square {A}.
Arguments Square2 {A}. Arguments Squares {A}.

Definition exec (o : op loc) (m : mem) : mem :=
  match o with
  | Zero d => FeZero_at d m
  | One d => FeOne_at d m
  | Copy d s => FeCopy_at d s m
  | Add d a b => FeAdd_at d a b m
  | Sub d a b => FeSub_at d a b m
  | Neg d a => FeNeg_at d a m
  | CMove d a b => FeCMove_at d a b m
  | Mul d a b => FeMul_at d a b m
  | Square d a => FeSquare_at d a m
  | Square2 d a => FeSquare2_at d a m
  | Squares n d => Nat.iter n (FeSquare_at d d) m
  end.
Definition run (l : list (op loc)) (m : mem) : mem := fold_left (fun m o => exec o m) l m.

(* FeInvert (507-560) *)
Definition FeInvert_at (fr : Z) (out z : loc) : mem -> mem :=
  let t0 := (fr, 0%nat) in let t1 := (fr + 1, 0%nat) in
  let t2 := (fr + 2, 0%nat) in let t3 := (fr + 3, 0%nat) in
  run [ Square t0 z; Square t1 t0; Squares 1 t1; Mul t1 z t1; Mul t0 t0 t1; Square t2 t0; Mul t1 t1 t2;
        Square t2 t1; Squares 4 t2; Mul t1 t2 t1; Square t2 t1; Squares 9 t2; Mul t2 t2 t1;
        Square t3 t2; Squares 19 t3; Mul t2 t3 t2; Square t2 t2; Squares 9 t2; Mul t1 t2 t1;
        Square t2 t1; Squares 49 t2; Mul t2 t2 t1; Square t3 t2; Squares 99 t3; Mul t2 t3 t2;
        Square t2 t2; Squares 49 t2; Mul t1 t2 t1; Square t1 t1; Squares 4 t1; Mul out t1 t0 ].

(* fePow22523 (562-621) *)
Definition fePow22523_at (fr : Z) (out z : loc) : mem -> mem :=
  let t0 := (fr, 0%nat) in let t1 := (fr + 1, 0%nat) in let t2 := (fr + 2, 0%nat) in
  run [ Square t0 z; Squares 0 t0; Square t1 t0; Squares 1 t1; Mul t1 z t1; Mul t0 t0 t1;
        Square t0 t0; Squares 0 t0; Mul t0 t1 t0; Square t1 t0; Squares 4 t1; Mul t0 t1 t0;
        Square t1 t0; Squares 9 t1; Mul t1 t1 t0; Square t2 t1; Squares 19 t2; Mul t1 t2 t1;
        Square t1 t1; Squares 9 t1; Mul t0 t1 t0; Square t1 t0; Squares 49 t1; Mul t1 t1 t0;
        Square t2 t1; Squares 99 t2; Mul t1 t2 t1; Square t1 t1; Squares 49 t1; Mul t0 t1 t0;
        Square t0 t0; Squares 1 t0; Mul out t0 z ].

(* the fields of the point types (632-650), in order: X Y Z (T); yPlusX yMinusX xy2d;
   yPlusX yMinusX Z T2d *)
Definition f0 (p : Z) : loc := (p, 0%nat).
Definition f1 (p : Z) : loc := (p, 1%nat).
Definition f2 (p : Z) : loc := (p, 2%nat).
Definition f3 (p : Z) : loc := (p, 3%nat).

(* Zero (652-656), (682-687), (777-781) *)
Definition p_zero_at (p : Z) : mem -> mem := run [Zero (f0 p); One (f1 p); One (f2 p)].
Definition e_zero_at (p : Z) : mem -> mem := run [Zero (f0 p); One (f1 p); One (f2 p); Zero (f3 p)].
Definition pc_zero_at (p : Z) : mem -> mem := run [One (f0 p); One (f1 p); Zero (f2 p)].

(* ProjectiveGroupElement.Double (658-670) *)
Definition p_double_at (fr p r : Z) : mem -> mem :=
  let t0 := (fr, 0%nat) in
  run [ Square (f0 r) (f0 p); Square (f2 r) (f1 p); Square2 (f3 r) (f2 p); Add (f1 r) (f0 p) (f1 p);
        Square t0 (f1 r); Add (f1 r) (f2 r) (f0 r); Sub (f2 r) (f2 r) (f0 r); Sub (f0 r) t0 (f1 r);
        Sub (f3 r) (f3 r) (f2 r) ].

(* ExtendedGroupElement.ToProjective (702-706), .Double (689-693), .ToCached (695-700) *)
Definition e_to_projective_at (p r : Z) : mem -> mem :=
  run [Copy (f0 r) (f0 p); Copy (f1 r) (f1 p); Copy (f2 r) (f2 p)].
Definition e_double_at (fr p r : Z) (m : mem) : mem :=
  p_double_at (fr + 1) fr r (e_to_projective_at p fr m).
Definition e_to_cached_at (p r : Z) : mem -> mem :=
  run [Add (f0 r) (f1 p) (f0 p); Sub (f1 r) (f1 p) (f0 p); Copy (f2 r) (f2 p); Mul (f3 r) (f3 p) g_d2].

(* ToBytes (672-680), (708-716) *)
Definition xyz_to_bytes_at (fr p : Z) (m : mem) : bytes * mem :=
  let recip := f0 fr in let x := f0 (fr + 1) in let y := f0 (fr + 2) in
  let m := FeInvert_at (fr + 3) recip (f2 p) m in
  let m := run [Mul x (f0 p) recip; Mul y (f1 p) recip] m in
  let '(s, m) := FeToBytes_at y m in
  let '(neg, m) := FeIsNegative_at x m in
  (flip_sign s neg, m).

(* FromBytes (718-762) *)
Definition e_from_bytes_at (fr p : Z) (s : bytes) (m : mem) : bool * mem :=
  let u := f0 fr in let v := f0 (fr + 1) in let v3 := f0 (fr + 2) in
  let vxx := f0 (fr + 3) in let check := f0 (fr + 4) in
  let X := f0 p in let Y := f1 p in let Z' := f2 p in let T := f3 p in
  let m := FeFromBytes_at Y s m in
  let m := run [ One Z'; Square u Y; Mul v u g_d; Sub u u Z'; Add v v Z';
                 Square v3 v; Mul v3 v3 v; Square X v3; Mul X X v; Mul X X u ] m in
  let m := fePow22523_at (fr + 5) X X m in
  let m := run [ Mul X X v3; Mul X X u; Square vxx X; Mul vxx vxx v; Sub check vxx u ] m in
  let finish (m : mem) : bool * mem :=
    let '(neg, m) := FeIsNegative_at X m in
    let m := if neg =? Z.shiftr (byte_at s 31) 7 then m else FeNeg_at X X m in
    (true, FeMul_at T X Y m) in
  let '(c, m) := FeIsNonZero_at check m in
  if c =? 1 then
    let m := FeAdd_at check vxx u m in
    let '(c, m) := FeIsNonZero_at check m in
    if c =? 1 then (false, m)
    else
      let m := FeMul_at X X g_SqrtM1 m in
      let '(_, m) := FeToBytes_at X m in
      finish m
  else finish m.

(* CompletedGroupElement.ToProjective (764-768), .ToExtended (770-775) *)
Definition c_to_projective_at (p r : Z) : mem -> mem :=
  run [Mul (f0 r) (f0 p) (f3 p); Mul (f1 r) (f1 p) (f2 p); Mul (f2 r) (f2 p) (f3 p)].
Definition c_to_extended_at (p r : Z) : mem -> mem :=
  run [ Mul (f0 r) (f0 p) (f3 p); Mul (f1 r) (f1 p) (f2 p); Mul (f2 r) (f2 p) (f3 p);
        Mul (f3 r) (f0 p) (f1 p) ].

(* geAdd (783-797), geSub (799-813), geMixedAdd (815-828), geMixedSub (830-843) *)
Definition geAdd_at (fr r p q : Z) : mem -> mem :=
  let t0 := f0 fr in
  run [ Add (f0 r) (f1 p) (f0 p); Sub (f1 r) (f1 p) (f0 p); Mul (f2 r) (f0 r) (f0 q);
        Mul (f1 r) (f1 r) (f1 q); Mul (f3 r) (f3 q) (f3 p); Mul (f0 r) (f2 p) (f2 q);
        Add t0 (f0 r) (f0 r); Sub (f0 r) (f2 r) (f1 r); Add (f1 r) (f2 r) (f1 r);
        Add (f2 r) t0 (f3 r); Sub (f3 r) t0 (f3 r) ].
Definition geSub_at (fr r p q : Z) : mem -> mem :=
  let t0 := f0 fr in
  run [ Add (f0 r) (f1 p) (f0 p); Sub (f1 r) (f1 p) (f0 p); Mul (f2 r) (f0 r) (f1 q);
        Mul (f1 r) (f1 r) (f0 q); Mul (f3 r) (f3 q) (f3 p); Mul (f0 r) (f2 p) (f2 q);
        Add t0 (f0 r) (f0 r); Sub (f0 r) (f2 r) (f1 r); Add (f1 r) (f2 r) (f1 r);
        Sub (f2 r) t0 (f3 r); Add (f3 r) t0 (f3 r) ].
Definition geMixedAdd_at (fr r p q : Z) : mem -> mem :=
  let t0 := f0 fr in
  run [ Add (f0 r) (f1 p) (f0 p); Sub (f1 r) (f1 p) (f0 p); Mul (f2 r) (f0 r) (f0 q);
        Mul (f1 r) (f1 r) (f1 q); Mul (f3 r) (f2 q) (f3 p); Add t0 (f2 p) (f2 p);
        Sub (f0 r) (f2 r) (f1 r); Add (f1 r) (f2 r) (f1 r); Add (f2 r) t0 (f3 r); Sub (f3 r) t0 (f3 r) ].
Definition geMixedSub_at (fr r p q : Z) : mem -> mem :=
  let t0 := f0 fr in
  run [ Add (f0 r) (f1 p) (f0 p); Sub (f1 r) (f1 p) (f0 p); Mul (f2 r) (f0 r) (f1 q);
        Mul (f1 r) (f1 r) (f0 q); Mul (f3 r) (f2 q) (f3 p); Add t0 (f2 p) (f2 p);
        Sub (f0 r) (f2 r) (f1 r); Add (f1 r) (f2 r) (f1 r); Sub (f2 r) t0 (f3 r); Add (f3 r) t0 (f3 r) ].

(* GeDoubleScalarMultVartime (879-928).  Its variables: t, u, A2, Ai[0..7] *)
Definition v_t (fr : Z) : Z := fr.
Definition v_u (fr : Z) : Z := fr + 1.
Definition v_A2 (fr : Z) : Z := fr + 2.
Definition v_Ai (fr i : Z) : Z := fr + 3 + i.
Definition v_end (fr : Z) : Z := fr + 11.
(* 893-897 *)
Definition odd_at (fr : Z) (m : mem) (i : nat) : mem :=
  let m := geAdd_at (v_end fr) (v_t fr) (v_A2 fr) (v_Ai fr (Z.of_nat i)) m in
  let m := c_to_extended_at (v_t fr) (v_u fr) m in
  e_to_cached_at (v_u fr) (v_Ai fr (Z.of_nat i + 1)) m.
(* 910-924 *)
Definition add_a_at (fr : Z) (d : Z) (m : mem) : mem :=
  if 0 <? d then geAdd_at (v_end fr) (v_t fr) (v_u fr) (v_Ai fr (Z.quot d 2)) (c_to_extended_at (v_t fr) (v_u fr) m)
  else if d <? 0 then
    geSub_at (v_end fr) (v_t fr) (v_u fr) (v_Ai fr (Z.quot (i8 (- d)) 2)) (c_to_extended_at (v_t fr) (v_u fr) m)
  else m.
Definition add_b_at (fr : Z) (d : Z) (m : mem) : mem :=
  if 0 <? d then
    geMixedAdd_at (v_end fr) (v_t fr) (v_u fr) (g_bi (Z.to_nat (Z.quot d 2))) (c_to_extended_at (v_t fr) (v_u fr) m)
  else if d <? 0 then
    geMixedSub_at (v_end fr) (v_t fr) (v_u fr) (g_bi (Z.to_nat (Z.quot (i8 (- d)) 2)))
                  (c_to_extended_at (v_t fr) (v_u fr) m)
  else m.
(* 907-927 *)
Fixpoint double_loop_at (fr r : Z) (i : nat) (ra rb : list Z) (m : mem) : mem :=
  match i with
  | O => m
  | S i =>
      let m := p_double_at (v_end fr) r (v_t fr) m in
      let m := add_a_at fr (at_ ra i) m in
      let m := add_b_at fr (at_ rb i) m in
      double_loop_at fr r i ra rb (c_to_projective_at (v_t fr) r m)
  end.
Definition GeDoubleScalarMultVartime_at (fr r : Z) (a : bytes) (A : Z) (b : bytes) (m : mem) : mem :=
  let aSlide := slide a in
  let bSlide := slide b in
  let m := e_to_cached_at A (v_Ai fr 0) m in
  let m := e_double_at (v_end fr) A (v_t fr) m in
  let m := c_to_extended_at (v_t fr) (v_A2 fr) m in
  let m := fold_left (odd_at fr) (seq 0 7) m in
  let m := p_zero_at r m in
  double_loop_at fr r (top_digit 256 aSlide bSlide) aSlide bSlide m.

(* PreComputedGroupElementCMove (943-947) *)
Definition pc_cmove_at (t u : Z) (b : Z) : mem -> mem :=
  run [CMove (f0 t) (f0 u) b; CMove (f1 t) (f1 u) b; CMove (f2 t) (f2 u) b].
(* selectPoint (949-962) *)
Definition selectPoint_at (fr t : Z) (pos : nat) (b : Z) (m : mem) : mem :=
  let minusT := fr in
  let bNegative := negative b in
  let bAbs := (b - (((0 - bNegative) && b) << 1))%i32 in
  let m := pc_zero_at t m in
  let m := fold_left (fun m i => pc_cmove_at t (g_base pos i) (equal bAbs (i32 (Z.of_nat i + 1))) m) (seq 0 8) m in
  let m := run [Copy (f0 minusT) (f1 t); Copy (f1 minusT) (f0 t); Neg (f2 minusT) (f2 t)] m in
  pc_cmove_at t minusT bNegative m.

(* GeScalarMultBase (970-1014).  Its variables: t, r, s *)
Definition base_step_at (fr h : Z) (e : list Z) (m : mem) (i : nat) : mem :=
  let t := fr in let r := fr + 1 in
  let m := selectPoint_at (fr + 3) t (i / 2) (at_ e i) m in
  let m := geMixedAdd_at (fr + 3) r h t m in
  c_to_extended_at r h m.
Definition GeScalarMultBase_at (fr h : Z) (a : bytes) (m : mem) : mem :=
  let r := fr + 1 in let s := fr + 2 in let fr' := fr + 3 in
  let e := recode 63 0 (nibbles a) in
  let m := e_zero_at h m in
  let m := fold_left (base_step_at fr h e) (map (fun k => 2 * k + 1)%nat (seq 0 32)) m in
  let m := e_double_at fr' h r m in
  let m := c_to_projective_at r s m in
  let m := p_double_at fr' s r m in
  let m := c_to_projective_at r s m in
  let m := p_double_at fr' s r m in
  let m := c_to_projective_at r s m in
  let m := p_double_at fr' s r m in
  let m := c_to_extended_at r h m in
  fold_left (base_step_at fr h e) (map (fun k => 2 * k)%nat (seq 0 32)) m.

(* Public.ToBox (signify/key.go:317-338) on the 32 bytes of the key; None = error.
   Its variables: A, oneMinusY, x *)
Definition ToBox_at (fr : Z) (key : bytes) (m : mem) : option bytes * mem :=
  let A := fr in let oneMinusY := f0 (fr + 1) in let x := f0 (fr + 2) in
  let '(ok, m) := e_from_bytes_at (fr + 3) A key m in
  if ok then
    let m := run [One oneMinusY; Sub oneMinusY oneMinusY (f1 A); One x; Add x x (f1 A)] m in
    let m := FeInvert_at (fr + 3) oneMinusY oneMinusY m in
    let m := FeMul_at x x oneMinusY m in
    let '(s, m) := FeToBytes_at x m in
    (Some s, m)
  else (None, m).

(* the point a pointer of each type points to *)
Definition get_p (m : mem) (p : Z) : ProjectiveGE := PGE (m (f0 p)) (m (f1 p)) (m (f2 p)).
Definition get_e (m : mem) (p : Z) : ExtendedGE := EGE (m (f0 p)) (m (f1 p)) (m (f2 p)) (m (f3 p)).
Definition get_c (m : mem) (p : Z) : CompletedGE := CGE (m (f0 p)) (m (f1 p)) (m (f2 p)) (m (f3 p)).
Definition get_pc (m : mem) (p : Z) : PreComputedGE := PCGE (m (f0 p)) (m (f1 p)) (m (f2 p)).
Definition get_ca (m : mem) (p : Z) : CachedGE := CaGE (m (f0 p)) (m (f1 p)) (m (f2 p)) (m (f3 p)).
