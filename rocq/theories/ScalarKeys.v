(* GeScalarMultBase applied to a clamped secret gives the Ed25519 public key. *)
From Verif Require Export ScalarFacts BoxKeys.
From Verif Require Import Decode DecodeFacts OrderPrime.
Local Open Scope Z_scope.

Lemma byte_clamp31 b : b2z (z2b (Z.lor (b2z (z2b (Z.land (b2z b) 127))) 64)) = b2z b mod 64 + 64.
Proof. destruct b; vm_compute; reflexivity. Qed.
Lemma clamp_value s : length s = 64%nat -> length (fit 32 (clamp s)) = 32%nat /\ le_val (fit 32 (clamp s)) = rfc_scalar (firstn 32 s) /\ byte_at (fit 32 (clamp s)) 31 <= 127.
Proof.
  intro L. destruct (list32 (firstn 32 s)) as (a & l & b & E & Ll); [apply firstn_length_le; lia|].
  rewrite <- (firstn_skipn 32 s) at 1 2 4. rewrite E. replace ((a :: l ++ [b]) ++ skipn 32 s) with (a :: l ++ b :: skipn 32 s) by (cbn [app]; rewrite <- app_assoc; reflexivity).
  rewrite clamp_fit, rfc_scalar_split by exact Ll.
  split; [cbn [length]; rewrite app_length, Ll; reflexivity|]. split.
  - cbn [le_val]. rewrite le_val_app, Ll. cbn [le_val]. rewrite byte_prune, byte_clamp31. change (256 ^ Z.of_nat 30) with (2 ^ 240). lia.
  - unfold byte_at. do 30 (destruct l as [|? l]; [discriminate Ll|]). destruct l; [|discriminate Ll]. cbn [nth app]. rewrite byte_clamp31. pose proof (Z.mod_pos_bound (b2z b) 64). lia.
Qed.
Lemma public_key hash seed : length (hash seed) = 64%nat ->
  e_to_bytes (GeScalarMultBase (fit 32 (clamp (hash seed)))) = Ed25519_public hash seed.
Proof.
  intro L. destruct (clamp_value _ L) as (L32 & V & B). rewrite (e_to_bytes_ok _ _ (scalar_mult_base_ok _ L32 B)), V.
  unfold Ed25519_public. rewrite zmul_pos by (unfold rfc_scalar; pose proof (Z.mod_pos_bound (le_val (firstn 32 (hash seed))) (2 ^ 254)); pose proof (Z.div_pos (le_val (firstn 32 (hash seed)) mod 2 ^ 254) 8); lia). reflexivity.
Qed.
Lemma double_doc_refuted : exists a b A, length a = 32%nat /\ length b = 32%nat /\ ext_rep A pB /\
  ~ proj_rep (GeDoubleScalarMultVartime a A b) (padd (zmul (le_val a) pB) (zmul (le_val b) pB)).
Proof.
  destruct (decode_encode pB on_pB) as (A & _ & H). exists all_ones, (repeat x00 32), A. split; [reflexivity|]. split; [reflexivity|]. split; [exact H|].
  destruct (double_all_ones (repeat x00 32) A H eq_refl) as [D N]; [discriminate|]. intro R. apply N. exact (proj_rep_unique _ _ _ R D).
Qed.
Lemma at_nth r i : at_ r i = nth i r 0.
Proof. reflexivity. Qed.
Lemma slide_shape a : length (slide a) = 256%nat /\
  (forall d, In d (slide a) -> d = 0 \/ (Z.odd d = true /\ -15 <= d <= 15)) /\
  (forall i j, (i < j <= i + 4)%nat -> nth i (slide a) 0 <> 0 -> nth j (slide a) 0 = 0).
Proof.
  split; [apply slide_length|]. split; [|intros i j; pose proof (slide_spaced a i j) as H; rewrite !at_nth in H; exact H]. intros d Hd. pose proof (slide_digits a) as H. rewrite Forall_forall in H. exact (H d Hd).
Qed.
