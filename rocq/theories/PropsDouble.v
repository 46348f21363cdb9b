(* C99.  The digits of slide and the two multiples of GeDoubleScalarMultVartime in memory. *)
From Verif Require Import SlideFacts ScalarKeys GroupFacts EdGroup ZMul PointerFacts PointerGroup PointBytes CodeFacts CodeWholeFacts CodeDecode StepFacts CodeDouble CodeDoubleFacts.
Local Open Scope list_scope.
Local Open Scope Z_scope.

(* slide leaves the digits of the scalar in its array, and changes nothing else *)
Theorem C99_slide : forall r a b m, r <> a -> length b = 32%nat -> has_bytes m a b ->
  let m' := slide_prog r a m in only_at [r] m m' /\
  exists z, contains m' r z /\ length z = 256%nat /\ (forall d, In d z -> d = 0 \/ (Z.odd d = true /\ -15 <= d <= 15)) /\
    (forall i j, (i < j <= i + 4)%nat -> nth i z 0 <> 0 -> nth j z 0 = 0) /\
    dval 2 z mod 2 ^ 256 = le_val b /\ (le_val b <= 2 ^ 255 -> dval 2 z = le_val b).
Proof.
  intros r a b m N L H. pose proof (slide_digits_at r a b m N L H) as (C & L' & O). cbv zeta. split; [exact O|].
  exists (slide b). split; [exact C|]. split; [exact L'|]. split; [apply slide_shape|]. split; [apply slide_shape|]. exact (conj (slide_mod b L) (slide_val b L)).
Qed.
Print Assumptions C99_slide.

(* the point aP + bB, and where it goes *)
Theorem C99_double : forall fr r a A b ra rb va vb m P, globals (as_fe m) -> 0 <= r < fr -> A < fr -> r <> A ->
  array ra -> array rb -> ra <> a -> ra <> b -> rb <> b -> ra <> rb ->
  length va = 32%nat -> length vb = 32%nat -> le_val va <= 2 ^ 255 -> le_val vb <= 2 ^ 255 -> has_bytes m a va -> has_bytes m b vb ->
  on P -> ext_rep (get_e (as_fe m) A) P ->
  let m' := as_fe (double_prog fr r a A b ra rb m) in
  proj_rep (get_p m' r) (padd (zmul (le_val va) P) (zmul (le_val vb) pB)) /\ globals m' /\ get_e m' A = get_e (as_fe m) A /\
  (forall x, x <> ra -> x <> rb -> fst x <> r -> fst x < fr -> m' x = as_fe m x).
Proof. exact double_value. Qed.
Print Assumptions C99_double.
(* and its bytes *)
Theorem C99_combine : forall fr r a A b ra rb out tmp va vb m P, globals (as_fe m) -> 0 <= r < fr -> A < fr -> r <> A ->
  array ra -> array rb -> array out -> array tmp -> ra <> a -> ra <> b -> rb <> b -> ra <> rb -> out <> tmp ->
  length va = 32%nat -> length vb = 32%nat -> le_val va <= 2 ^ 255 -> le_val vb <= 2 ^ 255 -> has_bytes m a va -> has_bytes m b vb ->
  on P -> ext_rep (get_e (as_fe m) A) P ->
  has_bytes (combine_prog fr r a A b ra rb out tmp m) out (point_bytes (padd (zmul (le_val va) P) (zmul (le_val vb) pB))).
Proof. exact combine_value. Qed.
Print Assumptions C99_combine.

(* one array for both scalars, one array for the result and for a scalar *)
Example C99_instance : let one := x01 :: repeat x00 31 in let s := (1, 4%nat) in
  let m := fst (perform_all (e_zero_calls 7) (held s one)) in
  has_bytes (combine_prog 100 8 s 7 s (1, 5%nat) (1, 6%nat) s (1, 7%nat) m) s (x58 :: repeat x66 31).
Proof.
  intros one s m.
  assert (E : forall x, as_fe m x = e_zero_at 7 (as_fe (held s one)) x) by (intro x; unfold m; rewrite perform_all_fe; now rewrite r_e_zero).
  assert (G0 : globals (as_fe (held s one))) by (apply held_globals; cbn; lia).
  destruct (e_zero_at_ok (as_fe (held s one)) (proj1 G0) 7 8) as [Z0 K0]; [lia|].
  assert (G : globals (as_fe m)) by (apply (globals_ext _ _ E); apply (PointerMult.only_globals 7 8 (as_fe (held s one))); [exact K0|lia|lia|exact G0]).
  assert (H : has_bytes m s one) by (apply (contains_kept (held s one)); [intro i; apply perform_all_kept; [reflexivity|cbn; lia]|apply held_bytes]).
  clearbody m. rewrite <- one_B. fold one. rewrite <- (padd_O_l (zmul (le_val one) pB)), <- (zmul_O (le_val one)).
  assert (V : le_val one <= 2 ^ 255) by (apply Z.leb_le; vm_compute; reflexivity).
  apply C99_combine; try exact G; try exact H; try exact V; try (split; cbn; lia); try discriminate; try lia; try reflexivity.
  - exact on_pO.
  - rewrite (get_e_ext _ _ 7 E), Z0. exact e_zero_ok.
Qed.
(* not every memory is treated alike: 3 has one digit, 31 two *)
Example C99_slide_instance : let r := (1, 5%nat) in let s := (1, 4%nat) in
  contains (slide_prog r s (held s (x03 :: repeat x00 31))) r (3 :: repeat 0 255) /\
  contains (slide_prog r s (held s (x1f :: repeat x00 31))) r ([-1; 0; 0; 0; 0; 1] ++ repeat 0 250).
Proof.
  intros r s. split.
  - replace (3 :: repeat 0 255) with (slide (x03 :: repeat x00 31)) by (vm_compute; reflexivity). apply slide_digits_at; [discriminate|reflexivity|apply held_bytes].
  - replace ([-1; 0; 0; 0; 0; 1] ++ repeat 0 250) with (slide (x1f :: repeat x00 31)) by (vm_compute; reflexivity). apply slide_digits_at; [discriminate|reflexivity|apply held_bytes].
Qed.
