(* Property theorems: the arithmetic of edwards25519 on a memory with shared pointers. *)
From Verif Require Import ScalarKeys DecodeFacts PointerTop PointerWitness SpecPointers Pointers.
Local Open Scope Z_scope.

(* C82: destination and arguments may be the same element, in any combination *)
Theorem C82_any_pointers : forall m d a b c, m g_zero = FeZero ->
  writes d FeZero m (FeZero_at d m) /\
  writes d FeOne m (FeOne_at d m) /\
  writes d (m a) m (FeCopy_at d a m) /\
  writes d (FeAdd (m a) (m b)) m (FeAdd_at d a b m) /\
  writes d (FeSub (m a) (m b)) m (FeSub_at d a b m) /\
  writes d (FeNeg (m a)) m (FeNeg_at d a m) /\
  writes d (FeCMove (m d) (m a) c) m (FeCMove_at d a c m) /\
  writes d (FeMul (m a) (m b)) m (FeMul_at d a b m) /\
  writes d (FeSquare (m a)) m (FeSquare_at d a m) /\
  writes d (FeSquare2 (m a)) m (FeSquare2_at d a m).
Proof. exact any_pointers. Qed.
Print Assumptions C82_any_pointers.

Theorem C82_invert : forall m fr out z, m g_zero = FeZero -> 0 <= fr -> fst out < fr -> fst z < fr ->
  writes_new fr out (FeInvert (m z)) m (FeInvert_at fr out z m) /\
  (loose165 (m z) -> FV (FeInvert_at fr out z m out) = Finv (FV (m z))) /\
  writes_new fr out (fePow22523 (m z)) m (fePow22523_at fr out z m).
Proof. exact invert_in_place. Qed.
Print Assumptions C82_invert.

(* the routines between point types: r is written, p and q (which may be package
   variables) are not *)
Theorem C82_formulas : forall m fr r p q, globals m -> 0 <= r < fr -> p < fr -> q < fr -> r <> p -> r <> q ->
  (get_c (p_double_at fr p r m) r = p_double (get_p m p) /\ only r fr m (p_double_at fr p r m)) /\
  (get_c (e_double_at fr p r m) r = e_double (get_e m p) /\ only r fr m (e_double_at fr p r m)) /\
  (get_ca (e_to_cached_at p r m) r = e_to_cached (get_e m p) /\ only r fr m (e_to_cached_at p r m)) /\
  (get_p (e_to_projective_at p r m) r = e_to_projective (get_e m p) /\ only r fr m (e_to_projective_at p r m)) /\
  (get_p (c_to_projective_at p r m) r = c_to_projective (get_c m p) /\ only r fr m (c_to_projective_at p r m)) /\
  (get_e (c_to_extended_at p r m) r = c_to_extended (get_c m p) /\ only r fr m (c_to_extended_at p r m)) /\
  (get_c (geAdd_at fr r p q m) r = geAdd (get_e m p) (get_ca m q) /\ only r fr m (geAdd_at fr r p q m)) /\
  (get_c (geSub_at fr r p q m) r = geSub (get_e m p) (get_ca m q) /\ only r fr m (geSub_at fr r p q m)) /\
  (get_c (geMixedAdd_at fr r p q m) r = geMixedAdd (get_e m p) (get_pc m q) /\ only r fr m (geMixedAdd_at fr r p q m)) /\
  (get_c (geMixedSub_at fr r p q m) r = geMixedSub (get_e m p) (get_pc m q) /\ only r fr m (geMixedSub_at fr r p q m)) /\
  (forall b, get_pc (pc_cmove_at r p b m) r = pc_cmove (get_pc m r) (get_pc m p) b /\ only r fr m (pc_cmove_at r p b m)) /\
  (forall pos b, (pos < 32)%nat ->
     get_pc (selectPoint_at fr r pos b m) r = selectPoint pos b /\ only r fr m (selectPoint_at fr r pos b m)).
Proof. exact formulas. Qed.
Print Assumptions C82_formulas.

(* encoding a point does not change it *)
Theorem C82_encode : forall m fr p, globals m -> 0 <= fr -> p < fr ->
  let '(s, m') := xyz_to_bytes_at fr p m in untouched fr m m' /\
  s = p_to_bytes (get_p m p) /\ s = e_to_bytes (get_e m p) /\
  (forall P, on P -> ext_rep (get_e m p) P -> s = point_bytes P).
Proof. exact encode_at. Qed.
Print Assumptions C82_encode.

(* decoding writes the point only *)
Theorem C82_decode : forall m fr p s, globals m -> 0 <= p < fr -> length s = 32%nat ->
  let '(ok, m') := e_from_bytes_at fr p s m in only p fr m m' /\
  if ok then e_from_bytes s = Some (get_e m' p) /\ decoded s (get_e m' p)
  else forall x, ~ on_curve x (enc_y s).
Proof. exact decode_at. Qed.
Print Assumptions C82_decode.

(* but also when it fails *)
Theorem C82_rejected_refuted : exists s m, length s = 32%nat /\ globals m /\ e_from_bytes s = None /\
  let '(ok, m') := e_from_bytes_at 6 5 s m in ok = false /\ get_e m' 5 <> get_e m 5.
Proof. exact rejected_written. Qed.
Print Assumptions C82_rejected_refuted.

(* Public.ToBox works in place and leaves the caller's variables alone *)
Theorem C82_to_box : forall m fr a num k, globals m -> 0 <= fr -> length k = 32%nat ->
  let '(o, m') := ToBox_at fr k m in untouched fr m m' /\
  match pub_ToBox (Pub a num k) with Ok b => o = Some b | _ => o = None end.
Proof. exact to_box_at. Qed.
Print Assumptions C82_to_box.

Theorem C82_base_mult : forall m fr h a, globals m -> 0 <= h < fr -> length a = 32%nat -> byte_at a 31 <= 127 ->
  let m' := GeScalarMultBase_at fr h a m in
  get_e m' h = GeScalarMultBase a /\ ext_rep (get_e m' h) (zmul (le_val a) pB) /\ only h fr m m'.
Proof. exact base_mult_at. Qed.
Print Assumptions C82_base_mult.

(* the argument A keeps its value *)
Theorem C82_double_mult : forall m fr r A a b P, globals m -> 0 <= r < fr -> A < fr -> r <> A ->
  length a = 32%nat -> length b = 32%nat -> le_val a <= 2 ^ 255 -> le_val b <= 2 ^ 255 ->
  on P -> ext_rep (get_e m A) P ->
  let m' := GeDoubleScalarMultVartime_at fr r a A b m in
  get_p m' r = GeDoubleScalarMultVartime a (get_e m A) b /\
  proj_rep (get_p m' r) (padd (zmul (le_val a) P) (zmul (le_val b) pB)) /\ only r fr m m' /\ get_e m' A = get_e m A.
Proof. exact double_mult_at. Qed.
Print Assumptions C82_double_mult.

(* 1 / 2 in place, x - x in place, and 2B in the variable 5 of a memory full of 2s *)
Example C82_instance : let two := Fe 2 0 0 0 0 0 0 0 0 0 in let m := start two in
  globals m /\
  FV (FeInvert_at 6 (5, 0%nat) (5, 0%nat) m (5, 0%nat)) = Finv (FV two) /\
  FeInvert_at 6 (5, 0%nat) (5, 0%nat) m (4, 0%nat) = two /\
  FeSub_at (5, 0%nat) (5, 0%nat) (5, 0%nat) m (5, 0%nat) = FeZero /\
  ext_rep (get_e (GeScalarMultBase_at 6 5 (x02 :: repeat x00 31) m) 5) (zmul 2 pB).
Proof.
  cbv zeta. split; [apply start_globals|].
  destruct (C82_invert (start (Fe 2 0 0 0 0 0 0 0 0 0)) 6 (5, 0%nat) (5, 0%nat) eq_refl ltac:(discriminate) eq_refl eq_refl)
    as ((_ & K) & V & _).
  split; [apply V; cbv -[Z.le]; repeat split; discriminate|].
  split; [exact (K (4, 0%nat) ltac:(discriminate) eq_refl)|].
  split; [vm_compute; reflexivity|]. exact (base_two _ (start_globals _)).
Qed.
