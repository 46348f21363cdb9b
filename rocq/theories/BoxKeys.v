(* The box keys of the two halves of a key pair agree, for primitives that
   conform to RFC 8032 and RFC 7748 (C54); hence the premises ToBoxAgree and
   DHCorrect of the round trip follow from conformance. *)
From Verif Require Import SealOpen ToyCrypto.
From Verif Require Export PointBytes Ladder DecodeFacts RoundTrip.

Lemma B_y_1 : snd pB <> F1.
Proof. intro H. assert (X : rep B_y = rep F1) by (f_equal; exact H). vm_compute in X. discriminate. Qed.
Lemma umap_B : umap pB = toF 9.
Proof.
  assert (N : (F1 - snd pB)%F <> F0) by (intro Q; apply B_y_1; symmetry; apply F_sub_0; exact Q).
  apply (F_mul_cancel _ _ _ N). unfold umap. transitivity (F1 + snd pB)%F; [field; exact N|]. F_eq_compute.
Qed.
Lemma rfc_u_base : rfc_u u_base = umap pB.
Proof. rewrite umap_B. F_eq_compute. Qed.

Lemma rfc_scalar_range s : 0 <= rfc_scalar s < 2 ^ 255 /\ rfc_scalar s mod 2 = 0.
Proof.
  unfold rfc_scalar. pose proof (Z.mod_pos_bound (le_val s) (2 ^ 254) ltac:(lia)) as R. set (a := le_val s mod 2 ^ 254) in *. clearbody a.
  pose proof (Z.div_mod a 8 ltac:(lia)). pose proof (Z.mod_pos_bound a 8 ltac:(lia)). assert (0 <= a / 8) by (apply Z.div_pos; lia).
  change (2 ^ 255) with (2 * 2 ^ 254) in *. split; [lia|].
  replace (8 * (a / 8) + 2 ^ 254) with ((4 * (a / 8) + 2 ^ 253) * 2) by (change (2 ^ 254) with (2 * 2 ^ 253); lia). apply Z.mod_mul. lia.
Qed.

(* X25519 on the curve *)
Lemma X25519_on k P : on P -> X25519 k (F_bytes (umap P)) = F_bytes (umap (pmul (Z.to_nat (rfc_scalar k)) P)).
Proof.
  intro C. unfold X25519. rewrite rfc_u_F_bytes. f_equal. destruct (rfc_scalar_range k). apply ladder_any; assumption.
Qed.
Lemma X25519_base k : X25519 k u_base = F_bytes (umap (pmul (Z.to_nat (rfc_scalar k)) pB)).
Proof.
  unfold X25519. rewrite rfc_u_base. f_equal. destruct (rfc_scalar_range k). apply ladder_any; [exact on_pB|assumption|assumption].
Qed.
Lemma X25519_commutes a b : X25519 a (X25519 b u_base) = X25519 b (X25519 a u_base).
Proof.
  rewrite !X25519_base, !X25519_on by (apply on_pmul; exact on_pB). rewrite pmul_swap by exact on_pB. reflexivity.
Qed.

(* the pruning in the code agrees with the one in the RFCs *)
Lemma rfc_scalar_split a l b : length l = 30%nat -> rfc_scalar (a :: l ++ [b]) =
  8 * (b2z a / 8) + 256 * le_val l + 2 ^ 248 * (b2z b mod 64) + 2 ^ 254.
Proof.
  intro L. unfold rfc_scalar. cbn [le_val]. rewrite le_val_app, L. cbn [le_val]. rewrite Z.mul_0_r, Z.add_0_r.
  change (256 ^ Z.of_nat 30) with (2 ^ 240).
  pose proof (b2z_range a). pose proof (b2z_range b). pose proof (le_val_range l) as R. rewrite L in R. change (256 ^ Z.of_nat 30) with (2 ^ 240) in R.
  set (v := le_val l) in *. clearbody v. generalize dependent (b2z a). generalize dependent (b2z b). intros B HB A HA. f_equal.
  replace ((A + 256 * (v + 2 ^ 240 * B)) mod 2 ^ 254) with (A + 256 * v + 2 ^ 248 * (B mod 64)).
  - replace (A + 256 * v + 2 ^ 248 * (B mod 64)) with (A + (32 * v + 2 ^ 245 * (B mod 64)) * 8) by (change (2 ^ 248) with (2 ^ 245 * 8); lia).
    rewrite Z.div_add by lia. change (2 ^ 248) with (2 ^ 245 * 8). lia.
  - pose proof (Z.div_mod B 64 ltac:(lia)). pose proof (Z.mod_pos_bound B 64 ltac:(lia)).
    apply (Z.mod_unique _ _ (B / 64)); [left|]; change (2 ^ 254) with (64 * (256 * 2 ^ 240)); change (2 ^ 248) with (256 * 2 ^ 240); lia.
Qed.
Lemma list32 (s : bytes) : length s = 32%nat -> exists a l b, s = a :: l ++ [b] /\ length l = 30%nat.
Proof.
  intro L. destruct s as [|a s]; [discriminate|]. exists a, (firstn 30 s), (nth 30 s x00). cbn [length] in L.
  split; [f_equal|apply firstn_length_le; lia].
  do 31 (destruct s as [|? s]; [discriminate L|]). destruct s; [reflexivity|discriminate L].
Qed.
Lemma byte_prune a : b2z (z2b (Z.land (b2z a) 248)) = 8 * (b2z a / 8).
Proof. destruct a; vm_compute; reflexivity. Qed.
Lemma byte_prune31 b : b2z (z2b (Z.lor (b2z (z2b (Z.land (b2z b) 127))) 64)) mod 64 = b2z b mod 64.
Proof. destruct b; vm_compute; reflexivity. Qed.
Lemma clamp_fit a l b rest : length l = 30%nat ->
  fit 32 (clamp (a :: l ++ b :: rest)) = z2b (Z.land (b2z a) 248) :: l ++ [z2b (Z.lor (b2z (z2b (Z.land (b2z b) 127))) 64)].
Proof.
  intro L. do 30 (destruct l as [|? l]; [discriminate L|]). destruct l; [|discriminate L]. reflexivity.
Qed.
Lemma rfc_scalar_clamp s : length s = 64%nat -> rfc_scalar (fit 32 (clamp s)) = rfc_scalar (firstn 32 s).
Proof.
  intro L. destruct (list32 (firstn 32 s)) as (a & l & b & E & Ll); [apply firstn_length_le; lia|].
  rewrite <- (firstn_skipn 32 s) at 1. rewrite E. replace ((a :: l ++ [b]) ++ skipn 32 s) with (a :: l ++ b :: skipn 32 s) by (cbn [app]; rewrite <- app_assoc; reflexivity).
  rewrite clamp_fit by exact Ll. rewrite !rfc_scalar_split by exact Ll. rewrite byte_prune, byte_prune31.
  replace (8 * (8 * (b2z a / 8) / 8)) with (8 * (b2z a / 8)) by (rewrite Z.mul_comm, Z.div_mul by lia; lia). reflexivity.
Qed.

(* ---- C54 ---- *)
Definition conforms_ed25519 (C : Crypto) : Prop :=
  forall seed, length seed = 32%nat -> ed_public C seed = Ed25519_public (sha512 C) seed.
Definition conforms_x25519 (C : Crypto) : Prop :=
  (forall k, length k = 32%nat -> x25519_base C k = X25519 k u_base) /\
  (exists derive, forall p k, length p = 32%nat -> length k = 32%nat -> box_precompute C p k = derive (X25519 k p)).

Lemma conform_agree C : (forall m, length (sha512 C m) = 64%nat) -> conforms_ed25519 C -> conforms_x25519 C -> ToBoxAgree C.
Proof.
  intros LS CE [CX _] num seed L. rewrite (CE seed L), CX by apply box_secret_length.
  set (P := pmul (Z.to_nat (rfc_scalar (firstn 32 (sha512 C seed)))) pB).
  assert (OP : on P) by (apply on_pmul; exact on_pB).
  change (Ed25519_public (sha512 C) seed) with (point_bytes P).
  assert (ES : rfc_scalar (box_secret C (seed ++ point_bytes P)) = rfc_scalar (firstn 32 (sha512 C seed))).
  { unfold box_secret. rewrite firstn_app, L, Nat.sub_diag, firstn_O, app_nil_r, firstn_all2 by lia.
    apply rfc_scalar_clamp. apply LS. }
  rewrite X25519_base, ES. fold P.
  pose proof (pub_ToBox_ok (str "Ed") num (point_bytes P) (point_bytes_length P)) as H. rewrite point_bytes_y in H.
  destruct (pub_ToBox _) as [b|e|]; [|elim (proj1 H (fst P) OP)|contradiction].
  f_equal. apply (F_encodes_inj _ _ _ (proj2 H)). exact (F_bytes_ok (umap P)).
Qed.
Lemma conform_dh C : conforms_x25519 C -> DHCorrect C.
Proof.
  intros [CX [h CP]] a b La Lb. rewrite !CX by assumption.
  rewrite !CP by (try assumption; apply length_le_bytes). rewrite X25519_commutes. reflexivity.
Qed.

(* a conforming instance: the toy primitives with the real curve operations *)
Definition toy_rfc : Crypto := {|
  sha512 := sha512 toy; pbkdf := pbkdf toy;
  ed_public := Ed25519_public (sha512 toy);
  ed_sign := ed_sign toy; ed_verify := ed_verify toy;
  x25519_base := fun k => X25519 k u_base;
  box_precompute := fun p k => X25519 k p;
  box_seal := box_seal toy; box_open := box_open toy; auth_sum := auth_sum toy |}.
Lemma toy_rfc_ed : conforms_ed25519 toy_rfc.
Proof. intros seed _. reflexivity. Qed.
Lemma toy_rfc_x : conforms_x25519 toy_rfc.
Proof. split; [intros k _; reflexivity|]. exists (fun x => x). intros p k _ _. reflexivity. Qed.
Lemma toy_rfc_lengths : LengthLaws toy_rfc.
Proof.
  destruct toy_lengths. constructor; try assumption; intros; apply length_le_bytes.
Qed.
Lemma toy_rfc_box : BoxCorrect toy_rfc. Proof. exact toy_box. Qed.
Lemma toy_rfc_tidy : BoxTidy toy_rfc. Proof. exact toy_tidy. Qed.

Lemma seal_then_open_rfc C k pass opts w w1 v m mp ep out :
  LengthLaws C -> BoxTidy C -> BoxCorrect C -> conforms_ed25519 C -> conforms_x25519 C ->
  GenerateKey C k pass opts w = (Ok tt, w1) -> not_mistaken C pass opts (w_rng w) ->
  w_fs v (sec_path k) = w_fs w1 (sec_path k) -> w_fs v (pub_path k) = w_fs w1 (pub_path k) ->
  contents v mp m -> m <> [] -> Z.of_nat (length m) < 2 ^ 63 -> no_faults v -> (32 <= length (w_rng v))%nat ->
  (pass <> [] -> exists tl, w_tty v = Ok pass :: tl) ->
  let q := enc_path mp ep in
  q <> mp -> q <> sec_path k -> out <> [] -> out <> q ->
  exists v1 v2, Seal C (pub_path k) mp ep v = (Ok tt, v1) /\ Open C (sec_path k) q out v1 = (Ok tt, v2) /\
    contents v2 out m /\ (forall x, x <> q -> x <> out -> w_fs v2 x = w_fs v x).
Proof.
  intros LL BT BC CE CX. apply seal_then_open; try assumption; [exact (conform_dh C CX)|exact (conform_agree C (len_sha512 C LL) CE CX)].
Qed.

(* ---- statements for the property file ---- *)
Lemma group_law P Q R : on P -> on Q -> on R ->
  on (padd P Q) /\ padd (padd P Q) R = padd P (padd Q R) /\ padd P Q = padd Q P /\
  padd pO P = P /\ on pO /\ padd (pneg P) P = pO /\ on (pneg P).
Proof.
  intros A B D. repeat split; auto using on_padd, padd_assoc, padd_comm, padd_O_l, on_pO, padd_neg, on_pneg.
Qed.
Lemma box_keys_agree C num seed : (forall m, length (sha512 C m) = 64%nat) ->
  conforms_ed25519 C -> conforms_x25519 C -> length seed = 32%nat ->
  pub_ToBox (Pub (str "Ed") num (ed_public C seed)) = Ok (x25519_base C (fit 32 (clamp (sha512 C seed)))).
Proof.
  intros LS CE CX L. rewrite (conform_agree C LS CE CX num seed L). f_equal. f_equal. unfold box_secret.
  rewrite firstn_app, L, Nat.sub_diag, firstn_O, app_nil_r, firstn_all2 by lia. reflexivity.
Qed.
Lemma shared_key C a b : conforms_x25519 C -> length a = 32%nat -> length b = 32%nat ->
  box_precompute C (x25519_base C a) b = box_precompute C (x25519_base C b) a.
Proof. intro H. exact (conform_dh C H a b). Qed.
Lemma double_fixed P : on P -> padd P P = P -> P = pO.
Proof.
  intros O H. rewrite <- (padd_O_l P), <- (padd_neg P O), padd_assoc, H by auto using on_pneg. reflexivity.
Qed.
Lemma double_O P : on P -> padd P P = pO -> P = pneg P.
Proof.
  intros O H. transitivity (padd (padd P P) (pneg P)); [|rewrite H; apply padd_O_l].
  rewrite padd_assoc, (padd_comm P (pneg P)), padd_neg by auto using on_pneg. symmetry. apply padd_O_r.
Qed.
Lemma pB_double : padd pB pB <> pB /\ padd pB pB <> pO.
Proof.
  split; intro H.
  - apply double_fixed in H; [|exact on_pB]. apply B_y_1. rewrite H. reflexivity.
  - apply double_O in H; [|exact on_pB]. apply (f_equal (fun P => rep (fst P))) in H. cbn [pB pneg fst] in H. vm_compute in H. discriminate.
Qed.
