(* C98.  From the statements of the Go text to points of the curve. *)
From Verif Require Import SpecScalar SpecX25519 ScalarRed ScalarKeys DecodeFacts PointBytes CodeScalar CodeWholeFacts CodeDecode SpecWhole.
Local Open Scope string_scope.
Local Open Scope list_scope.
Local Open Scope Z_scope.

(* a scalar in memory becomes the bytes of its multiple of the base point *)
Theorem C98_public : forall fr h a e out tmp b m, globals (as_fe m) -> 0 <= h < fr -> array e -> array out -> array tmp -> e <> a -> out <> tmp ->
  length b = 32%nat -> byte_at b 31 <= 127 -> has_bytes m a b ->
  has_bytes (fst (public_prog fr h a e out tmp m)) out (point_bytes (zmul (le_val b) pB)).
Proof. exact public_value. Qed.
Print Assumptions C98_public.
(* and whoever sees the operations, branches and addresses sees nothing of the scalar *)
Theorem C98_public_silent : forall fr h a e out tmp, silent (public_prog fr h a e out tmp).
Proof. exact public_silent. Qed.
Print Assumptions C98_public_silent.
Example C98_public_instance :
  has_bytes (fst (public_prog 100 7 (1, 4%nat) (1, 5%nat) (1, 6%nat) (1, 7%nat) (held (1, 4%nat) (x01 :: repeat x00 31)))) (1, 6%nat) (x58 :: repeat x66 31) /\
  ~ silent (fun m => if m (1, 4%nat) 0 =? 0 then (m, [Branched false]) else (m, [Branched true])).
Proof.
  split.
  - rewrite <- one_B. apply C98_public; try apply held_bytes; try (apply held_globals; cbn; lia); try (split; cbn; lia); try discriminate; reflexivity.
  - intro H. discriminate (H (fun _ _ => 0) (fun _ _ => 1)).
Qed.

(* its two halves *)
Theorem C98_base : forall fr h a e b m, globals (as_fe m) -> 0 <= h < fr -> array e -> e <> a -> length b = 32%nat -> byte_at b 31 <= 127 -> has_bytes m a b ->
  let m' := as_fe (fst (base_prog fr h a e m)) in
  ext_rep (get_e m' h) (zmul (le_val b) pB) /\ globals m' /\ (forall x, x <> e -> fst x <> h -> fst x < fr -> m' x = as_fe m x).
Proof. exact base_value. Qed.
Print Assumptions C98_base.
Theorem C98_base_silent : forall fr h a e, silent (base_prog fr h a e).
Proof. exact base_silent. Qed.
Print Assumptions C98_base_silent.
Theorem C98_encode : forall fr p out tmp m P, globals (as_fe m) -> 0 <= fr -> p < fr -> array out -> array tmp -> out <> tmp -> on P -> ext_rep (get_e (as_fe m) p) P ->
  has_bytes (fst (encode_prog fr p out tmp m)) out (point_bytes P).
Proof. exact encode_value. Qed.
Print Assumptions C98_encode.
Theorem C98_encode_silent : forall fr p out tmp, silent (encode_prog fr p out tmp).
Proof. exact encode_silent. Qed.
Print Assumptions C98_encode_silent.
Example C98_base_instance :
  ext_rep (get_e (as_fe (fst (base_prog 100 7 (1, 4%nat) (1, 5%nat) (held (1, 4%nat) (x03 :: repeat x00 31))))) 7) (zmul 3 pB).
Proof.
  assert (E : le_val (x03 :: repeat x00 31) = 3) by reflexivity. rewrite <- E. clear E. apply C98_base; try apply held_bytes; try (apply held_globals; cbn; lia); try (split; cbn; lia); try discriminate; reflexivity.
Qed.

(* bytes in memory become the point they encode, or are refused because there is none *)
Theorem C98_decode : forall fr p s tmp tmpX b m, globals (as_fe m) -> 0 <= p < fr -> array s -> array tmp -> array tmpX -> s <> tmp -> s <> tmpX ->
  length b = 32%nat -> has_bytes m s b ->
  let '(ok, m') := decode_prog fr p s tmp tmpX m in
  if ok then decoded b (get_e (as_fe m') p) else forall x, ~ on_curve x (enc_y b).
Proof. exact decode_value. Qed.
Print Assumptions C98_decode.
(* Public.ToBox: the Montgomery coordinate of the key *)
Theorem C98_box : forall fr s tmp tmpX b m, globals (as_fe m) -> 0 <= fr -> array s -> array tmp -> array tmpX -> s <> tmp -> s <> tmpX ->
  length b = 32%nat -> has_bytes m s b ->
  let '(ok, m') := box_prog fr s tmp tmpX m in
  if ok then exists u, has_bytes m' s u /\ (exists x, on_curve x (enc_y b)) /\ F_encodes u ((F1 + enc_y b) / (F1 - enc_y b))%F
  else forall x, ~ on_curve x (enc_y b).
Proof. exact box_value. Qed.
Print Assumptions C98_box.
Theorem C98_box_outcome : forall fr s tmp tmpX b m a num, globals (as_fe m) -> 0 <= fr -> array s -> array tmp -> array tmpX -> s <> tmp -> s <> tmpX ->
  length b = 32%nat -> has_bytes m s b ->
  let '(ok, m') := box_prog fr s tmp tmpX m in
  match pub_ToBox (Pub a num b) with Ok u => ok = true /\ has_bytes m' s u | _ => ok = false end.
Proof. exact box_outcome. Qed.
Print Assumptions C98_box_outcome.
(* the base point's key becomes 9; 2 is no key *)
Example C98_box_instance : let at4 := (1, 4%nat) in let at5 := (1, 5%nat) in
  fst (box_prog 100 at4 at5 at5 (held at4 base_y)) = true /\ has_bytes (snd (box_prog 100 at4 at5 at5 (held at4 base_y))) at4 (x09 :: repeat x00 31) /\
  fst (box_prog 100 at4 at5 at5 (held at4 (x02 :: repeat x00 31))) = false.
Proof.
  intros at4 at5.
  assert (H : forall b, length b = 32%nat -> let '(ok, m') := box_prog 100 at4 at5 at5 (held at4 b) in
    match pub_ToBox (Pub [] [] b) with Ok u => ok = true /\ has_bytes m' at4 u | _ => ok = false end).
  { intros b L. apply C98_box_outcome; try apply held_bytes; try (apply held_globals; cbn; lia); try (split; cbn; lia); try discriminate; exact L. }
  pose proof (H base_y eq_refl) as H1. pose proof (H (x02 :: repeat x00 31) eq_refl) as H2. rewrite base_ToBox in H1. rewrite two_ToBox in H2.
  destruct (box_prog 100 at4 at5 at5 (held at4 base_y)). destruct (box_prog 100 at4 at5 at5 (held at4 (x02 :: repeat x00 31))).
  destruct H1 as [H1 H1']. split; [exact H1|]. split; [exact H1'|exact H2].
Qed.

(* numbers modulo the group order *)
Theorem C98_muladd : forall s a b c, length a = 32%nat -> length b = 32%nat -> length c = 32%nat ->
  has_bytes (cells s) (ptrs s "a") a -> has_bytes (cells s) (ptrs s "b") b -> has_bytes (cells s) (ptrs s "c") c ->
  has_bytes (cells (fst (crun ScMulAdd_code s))) (ptrs s "s") (le_bytes 32 ((le_val a * le_val b + le_val c) mod ell)).
Proof. exact muladd_value. Qed.
Print Assumptions C98_muladd.
Theorem C98_reduce : forall s b, length b = 64%nat -> has_bytes (cells s) (ptrs s "s") b ->
  has_bytes (cells (fst (crun ScReduce_code s))) (ptrs s "out") (le_bytes 32 (le_val b mod ell)).
Proof. exact reduce_value. Qed.
Print Assumptions C98_reduce.
Theorem C98_minimal : forall s b, length b = 32%nat -> has_bytes (cells s) (ptrs s "scalar") b -> contains (cells s) (ptrs s "order") order ->
  vars (fst (crun ScMinimal_code s)) "result" 0%nat = (if le_val b <? ell then 1 else 0).
Proof. exact minimal_value. Qed.
Print Assumptions C98_minimal.
(* 2^252 squared, plus itself, with one array for all four *)
Example C98_scalar_instance : let b := le_bytes 32 (2 ^ 252) in
  has_bytes (cells (fst (crun ScMulAdd_code (State (fun _ _ => 0) (fun _ => (1, 4%nat)) (held (1, 4%nat) b))))) (1, 4%nat)
    (le_bytes 32 ((2 ^ 504 + 2 ^ 252) mod ell)).
Proof.
  intro b. replace ((2 ^ 504 + 2 ^ 252) mod ell) with ((le_val b * le_val b + le_val b) mod ell) by (vm_compute; reflexivity).
  apply C98_muladd; try reflexivity; apply held_bytes.
Qed.
