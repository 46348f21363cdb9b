(* Property theorems for the group law and the agreement of box keys (C54, C31). *)
From Verif Require Import SealOpen BoxKeys.

(* C54: the points of the curve form a commutative group *)
Theorem C54_group_law : forall P Q R, on P -> on Q -> on R ->
  on (padd P Q) /\ padd (padd P Q) R = padd P (padd Q R) /\ padd P Q = padd Q P /\
  padd pO P = P /\ on pO /\ padd (pneg P) P = pO /\ on (pneg P).
Proof. exact group_law. Qed.
Print Assumptions C54_group_law.

(* the RFC 7748 ladder computes multiples of points *)
Theorem C54_ladder : forall P k, on P -> 0 <= k < 2 ^ 255 -> k mod 2 = 0 ->
  ladder k ((F1 + snd P) / (F1 - snd P))%F =
  (let Q := pmul (Z.to_nat k) P in (F1 + snd Q) / (F1 - snd Q))%F.
Proof. exact ladder_any. Qed.
Print Assumptions C54_ladder.

Theorem C54_box_keys_agree : forall C num seed,
  (forall m, length (sha512 C m) = 64%nat) ->
  conforms_ed25519 C -> conforms_x25519 C -> length seed = 32%nat ->
  pub_ToBox (Pub (str "Ed") num (ed_public C seed)) =
  Ok (x25519_base C (fit 32 (clamp (sha512 C seed)))).
Proof. exact box_keys_agree. Qed.
Print Assumptions C54_box_keys_agree.

Theorem C54_shared_key : forall C a b, conforms_x25519 C -> length a = 32%nat -> length b = 32%nat ->
  box_precompute C (x25519_base C a) b = box_precompute C (x25519_base C b) a.
Proof. exact shared_key. Qed.
Print Assumptions C54_shared_key.

(* the base point and its double are different points of the curve with different u *)
Example C54_instance : on pB /\ umap pB = toF 9 /\ conforms_ed25519 toy_rfc /\ conforms_x25519 toy_rfc /\
  (forall m, length (sha512 toy_rfc m) = 64%nat) /\ padd pB pB <> pB /\ padd pB pB <> pO.
Proof.
  split; [exact on_pB|]. split; [exact umap_B|]. split; [exact toy_rfc_ed|]. split; [exact toy_rfc_x|].
  split; [exact (len_sha512 _ toy_rfc_lengths)|]. exact pB_double.
Qed.

(* C31, with conformance of the primitives to the RFCs in place of agreement premises *)
Theorem C31_round_trip_rfc : forall C k pass opts w w1 v m mp ep out,
  LengthLaws C -> BoxTidy C -> BoxCorrect C -> conforms_ed25519 C -> conforms_x25519 C ->
  GenerateKey C k pass opts w = (Ok tt, w1) -> not_mistaken C pass opts (w_rng w) ->
  w_fs v (sec_path k) = w_fs w1 (sec_path k) -> w_fs v (pub_path k) = w_fs w1 (pub_path k) ->
  contents v mp m -> m <> [] -> Z.of_nat (length m) < 2 ^ 63 -> no_faults v -> (32 <= length (w_rng v))%nat ->
  (pass <> [] -> exists tl, w_tty v = Ok pass :: tl) ->
  let q := enc_path mp ep in
  q <> mp -> q <> sec_path k -> out <> [] -> out <> q ->
  exists v1 v2, Seal C (pub_path k) mp ep v = (Ok tt, v1) /\ Open C (sec_path k) q out v1 = (Ok tt, v2) /\
    contents v2 out m /\ (forall x, x <> q -> x <> out -> w_fs v2 x = w_fs v x).
Proof. exact seal_then_open_rfc. Qed.
Print Assumptions C31_round_trip_rfc.

Example C31_rfc_instance : LengthLaws toy_rfc /\ BoxTidy toy_rfc /\ BoxCorrect toy_rfc /\
  conforms_ed25519 toy_rfc /\ conforms_x25519 toy_rfc.
Proof.
  split; [exact toy_rfc_lengths|]. split; [exact toy_rfc_tidy|]. split; [exact toy_rfc_box|]. split; [exact toy_rfc_ed|exact toy_rfc_x].
Qed.
