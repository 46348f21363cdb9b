(* The routines of the package compose to Ed25519 signatures. *)
From Verif Require Export EdLib SpecEd25519 ScalarRedFacts ScalarKeys GenFacts SignFacts ToyCrypto.
From Verif Require Import Decode DecodeFacts FieldFacts FieldAlg EdGroup GroupFacts PointBytes OrderPrime.
Local Open Scope Z_scope.

Lemma ell_pos : 0 < ell. Proof. reflexivity. Qed.
Lemma ell_255 : ell < 2 ^ 253. Proof. reflexivity. Qed.
Lemma ScReduce_length s : length (ScReduce s) = 32%nat. Proof. reflexivity. Qed.
Lemma ScMulAdd_length a b c : length (ScMulAdd a b c) = 32%nat. Proof. reflexivity. Qed.
Lemma top_byte s : length s = 32%nat -> le_val s < 2 ^ 255 -> byte_at s 31 <= 127.
Proof.
  intros L H. destruct (list32 s L) as (a & l & b & -> & Ll).
  unfold byte_at. do 30 (destruct l as [|? l]; [discriminate Ll|]). destruct l; [|discriminate Ll].
  cbn [app nth]. cbn [app le_val] in H.
  repeat match goal with H : context [b2z ?x] |- _ => lazymatch goal with _ : 0 <= b2z x < 256 |- _ => fail | _ => pose proof (b2z_range x) end end.
  lia.
Qed.
Lemma byte_expand31 b : b2z (z2b (Z.lor (Z.land (b2z b) 63) 64)) = b2z b mod 64 + 64.
Proof. destruct b; vm_compute; reflexivity. Qed.
Lemma expanded_value s : length s = 64%nat -> length (expanded s) = 32%nat /\ le_val (expanded s) = rfc_scalar (firstn 32 s) /\ byte_at (expanded s) 31 <= 127.
Proof.
  intro L. unfold expanded. destruct (list32 (firstn 32 s)) as (a & l & b & E & Ll); [apply firstn_length_le; lia|]. rewrite E.
  assert (E2 : firstn 30 (skipn 1 (a :: l ++ [b])) = l).
  { change (skipn 1 (a :: l ++ [b])) with (l ++ [b]). rewrite firstn_app, Ll, Nat.sub_diag, firstn_O, app_nil_r. apply firstn_all2. lia. }
  rewrite E2. unfold byte_at. replace (nth 31 (a :: l ++ [b]) x00) with b by (cbn [nth]; rewrite app_nth2 by lia; rewrite Ll; reflexivity).
  cbn [nth]. rewrite rfc_scalar_split by exact Ll.
  split; [cbn [length]; rewrite app_length, Ll; reflexivity|]. split.
  - cbn [le_val]. rewrite le_val_app, Ll. cbn [le_val]. rewrite byte_prune, byte_expand31. change (256 ^ Z.of_nat 30) with (2 ^ 240). lia.
  - rewrite app_nth2 by lia. rewrite Ll. cbn [nth Nat.sub]. rewrite byte_expand31. pose proof (Z.mod_pos_bound (b2z b) 64). lia.
Qed.
Lemma le_bytes_unique s z : length s = 32%nat -> le_val s = z -> s = le_bytes 32 z.
Proof.
  intros L V. apply le_val_inj; [rewrite length_le_bytes; exact L|]. pose proof (le_val_range s) as R. rewrite L in R.
  rewrite le_val_bytes by lia. exact V.
Qed.
Lemma zmul_B_mod n : zmul (n mod ell) pB = zmul n pB.
Proof. apply zmul_B_eq. apply Z.mod_mod. pose proof ell_pos. lia. Qed.

Lemma zmul_pneg n P : on P -> zmul n (pneg P) = pneg (zmul n P).
Proof.
  intro O. rewrite <- (zmul_1 P) at 1. rewrite <- zmul_opp, zmul_mul by exact O. replace (n * - (1)) with (- n) by ring. apply zmul_opp.
Qed.

Section lib.
  Variable hash : bytes -> bytes.
  Hypothesis hash64 : forall m, length (hash m) = 64%nat.

  Lemma lib_Public_ok seed : lib_Public hash seed = Ed25519_public hash seed.
  Proof.
    unfold lib_Public. destruct (expanded_value (hash seed) (hash64 seed)) as (L & V & B).
    rewrite (e_to_bytes_ok _ _ (scalar_mult_base_ok _ L B)), V. unfold Ed25519_public.
    rewrite zmul_pos by apply rfc_scalar_range. reflexivity.
  Qed.
  Lemma mult_reduced m : e_to_bytes (GeScalarMultBase (ScReduce (hash m))) = point_bytes (zmul (le_val (hash m)) pB).
  Proof.
    pose proof (ScReduce_ok (hash m) (hash64 m)) as V. pose proof (Z.mod_pos_bound (le_val (hash m)) ell ell_pos) as R. pose proof ell_255.
    assert (T : le_val (ScReduce (hash m)) < 2 ^ 255) by lia.
    rewrite (e_to_bytes_ok _ _ (scalar_mult_base_ok _ (ScReduce_length _) (top_byte _ (ScReduce_length _) T))), V, zmul_B_mod. reflexivity.
  Qed.
  Lemma lib_Sign_ok seed m : length seed = 32%nat -> lib_Sign hash (seed ++ Ed25519_public hash seed) m = Ed25519_sign hash seed m.
  Proof.
    intro L. unfold lib_Sign, Ed25519_sign. cbv zeta.
    rewrite firstn_app, L, Nat.sub_diag, firstn_O, app_nil_r, firstn_all2 by lia.
    rewrite skipn_app, L, Nat.sub_diag, (skipn_all2 seed) by lia. cbn [app skipn].
    rewrite mult_reduced. f_equal. apply le_bytes_unique; [apply ScMulAdd_length|].
    destruct (expanded_value (hash seed) (hash64 seed)) as (L32 & V & _).
    rewrite ScMulAdd_ok by (exact L32 || apply ScReduce_length). rewrite !ScReduce_ok by apply hash64. rewrite V.
    set (k := le_val (hash (_ ++ _ ++ m))). set (s := rfc_scalar _). set (r := le_val _). pose proof ell_pos.
    rewrite <- Z.add_mod_idemp_l by lia. rewrite Z.mul_mod_idemp_l by lia. rewrite Z.add_mod_idemp_l, Z.add_mod_idemp_r by lia. f_equal. ring.
  Qed.

  Lemma ext_rep_neg A P : ext_rep A P -> ext_rep (EGE (FeNeg (eX A)) (eY A) (eZ A) (FeNeg (eT A))) (pneg P).
  Proof.
    unfold ext_rep. intros (BX & BY & BZ & BT & NZ & EX & EY & ET). cbn [eX eY eZ eT pneg fst snd].
    destruct (FeNeg_ok _ _ (eX A) BX) as [BX' VX]; [reflexivity|reflexivity|].
    destruct (FeNeg_ok _ _ (eT A) BT) as [BT' VT]; [reflexivity|reflexivity|].
    split; [exact BX'|]. split; [exact BY|]. split; [exact BZ|]. split; [exact BT'|]. split; [exact NZ|].
    assert (FX : FV (FeNeg (eX A)) = (- FV (eX A))%F) by (unfold FV; rewrite VX, toF_opp; reflexivity).
    assert (FT : FV (FeNeg (eT A)) = (- FV (eT A))%F) by (unfold FV; rewrite VT, toF_opp; reflexivity).
    rewrite FX, FT, EX, ET. split; [ring|]. split; [exact EY|ring].
  Qed.
  Lemma point_bytes_inj P Q : on P -> on Q -> point_bytes P = point_bytes Q -> P = Q.
  Proof.
    intros OP OQ E. destruct (decode_encode P OP) as (A & D & R). destruct (decode_encode Q OQ) as (A' & D' & R').
    rewrite E, D' in D. injection D as ->. exact (ext_rep_unique _ _ _ R R').
  Qed.
  Lemma point_of_decodes pub P : point_of pub P -> exists A, e_from_bytes pub = Some A /\ ext_rep A P.
  Proof.
    intros (L & O & Y & S). pose proof (e_from_bytes_ok pub L) as D. destruct (e_from_bytes pub) as [A|].
    - exists A. split; [reflexivity|]. destruct (decoded_ext _ _ D) as [R _]. rewrite (decoded_point _ _ P D O Y S), <- Y, <- surjective_pairing in R. exact R.
    - elim (D (fst P)). rewrite <- Y. exact O.
  Qed.
  Lemma group_eq S R kA : on S -> on R -> on kA -> (S = padd R kA <-> R = padd (pneg kA) S).
  Proof.
    intros OS OR OK. pose proof (on_pneg _ OK) as ON. split; intros ->.
    - rewrite (padd_comm R kA), <- padd_assoc by assumption. rewrite padd_neg, padd_O_l by assumption. reflexivity.
    - rewrite (padd_comm (pneg kA) S), padd_assoc by assumption. rewrite padd_neg, padd_O_r by assumption. reflexivity.
  Qed.
  Lemma sig_high sig : length sig = 64%nat -> le_val (skipn 32 sig) < ell -> Z.land (byte_at sig 63) 224 = 0.
  Proof.
    intros L H. assert (LS : length (skipn 32 sig) = 32%nat) by (rewrite skipn_length; lia).
    assert (T : byte_at sig 63 < 32).
    { replace (byte_at sig 63) with (byte_at (skipn 32 sig) 31) by (unfold byte_at; rewrite nth_skipn; reflexivity).
      assert (H2 : le_val (skipn 32 sig) < 2 ^ 253) by (pose proof ell_255; lia). clear H. set (s := skipn 32 sig) in *. clearbody s.
      destruct (list32 s LS) as (a & l & b & -> & Ll). unfold byte_at. cbn [nth]. rewrite app_nth2 by lia. rewrite Ll. cbn [nth Nat.sub].
      cbn [le_val] in H2. rewrite le_val_app, Ll in H2. cbn [le_val] in H2. change (256 ^ Z.of_nat 30) with (2 ^ 240) in H2.
      pose proof (b2z_range a). pose proof (b2z_range b). pose proof (le_val_range l). lia. }
    unfold byte_at in *. revert T. generalize (nth 63 sig x00) as b. intros b. destruct b; vm_compute; intro Q; (reflexivity || discriminate Q).
  Qed.
  Lemma lib_Verify_ok pub m sig : length pub = 32%nat -> (lib_Verify hash pub m sig = true <-> Ed25519_accepts hash pub m sig).
  Proof.
    intro LP. unfold lib_Verify, Ed25519_accepts. destruct (Nat.eqb_spec (length sig) 64) as [L|NL].
    2: { cbn [negb orb]. split; [discriminate|]. intros [L _]. contradiction. }
    assert (LS : length (skipn 32 sig) = 32%nat) by (rewrite skipn_length; lia).
    cbn [negb orb]. destruct (Z.eqb_spec (Z.land (byte_at sig 63) 224) 0) as [_|NH]; cbn [negb].
    2: { split; [discriminate|]. intros (_ & H & _). elim NH. apply sig_high; assumption. }
    set (h := hash (firstn 32 sig ++ pub ++ m)). cbv zeta. rewrite (ScMinimal_ok _ LS).
    pose proof (ScReduce_ok h (hash64 _)) as VH. pose proof (Z.mod_pos_bound (le_val h) ell ell_pos) as RH. pose proof ell_255 as E255.
    assert (K : forall A P, on P -> ext_rep A P -> le_val (skipn 32 sig) < ell ->
      p_to_bytes (GeDoubleScalarMultVartime (ScReduce h) (EGE (FeNeg (eX A)) (eY A) (eZ A) (FeNeg (eT A))) (skipn 32 sig)) =
      point_bytes (padd (pneg (zmul (le_val h mod ell) P)) (zmul (le_val (skipn 32 sig)) pB))).
    { intros A P O R H. pose proof (double_scalar_ok (ScReduce h) (skipn 32 sig) _ _ (on_pneg _ O) (ext_rep_neg _ _ R) (ScReduce_length h) LS ltac:(lia) ltac:(lia)) as D.
      rewrite (p_to_bytes_ok _ _ D), VH. f_equal. f_equal. apply zmul_pneg. exact O. }
    split.
    - destruct (e_from_bytes pub) as [A|] eqn:D; [|discriminate]. destruct (Z.ltb_spec (le_val (skipn 32 sig)) ell) as [H|H]; cbn [negb]; [|discriminate].
      intro E. apply bytes_eqb_eq in E. split; [exact L|]. split; [exact H|].
      destruct (encode_decode pub A LP D) as (P & O & R & Y & SG & _). rewrite (K A P O R H) in E.
      exists P, (padd (pneg (zmul (le_val h mod ell) P)) (zmul (le_val (skipn 32 sig)) pB)).
      split; [split; [exact LP|split; [exact O|split; [exact Y|exact SG]]]|].
      pose proof (on_zmul (le_val h mod ell) P O) as O1. pose proof (on_zmul (le_val (skipn 32 sig)) pB on_pB) as O2. pose proof (on_padd _ _ (on_pneg _ O1) O2) as O3.
      split; [exact O3|]. split; [exact E|]. exact (proj2 (group_eq _ _ _ O2 O3 O1) eq_refl).
    - intros (_ & H & P & R & PO & OR & E & G). destruct (point_of_decodes pub P PO) as (A & -> & RA). destruct PO as (_ & O & _).
      apply Z.ltb_lt in H as H'. rewrite H'. cbn [negb]. apply bytes_eqb_eq. rewrite (K A P O RA H), E. f_equal.
      exact (proj1 (group_eq _ _ _ (on_zmul _ _ on_pB) OR (on_zmul _ _ O)) G).
  Qed.

  (* signatures are accepted *)
  Lemma public_point seed : point_of (Ed25519_public hash seed) (zmul (rfc_scalar (firstn 32 (hash seed))) pB).
  Proof.
    unfold Ed25519_public. rewrite <- zmul_pos by apply rfc_scalar_range. pose proof (on_zmul (rfc_scalar (firstn 32 (hash seed))) pB on_pB) as O.
    split; [apply point_bytes_length|]. split; [exact O|]. split; [symmetry; apply point_bytes_y|]. intros _. symmetry. apply point_bytes_sign.
  Qed.
  Lemma sign_accepted seed m : Ed25519_accepts hash (Ed25519_public hash seed) m (Ed25519_sign hash seed m).
  Proof.
    unfold Ed25519_accepts, Ed25519_sign. cbv zeta. set (s := rfc_scalar _). set (r := le_val (hash (skipn 32 _ ++ m))). set (R := point_bytes (zmul r pB)).
    set (k := le_val (hash (R ++ _ ++ m))).
    assert (LR : length R = 32%nat) by apply point_bytes_length.
    rewrite skipn_app, firstn_app, LR, Nat.sub_diag, (skipn_all2 R), firstn_all2 by lia. cbn [app skipn firstn]. rewrite app_nil_r.
    pose proof (Z.mod_pos_bound (r + k * s) ell ell_pos) as RS. pose proof ell_255.
    rewrite le_val_bytes by (change (256 ^ Z.of_nat 32) with (2 ^ 256); lia). fold k.
    split; [rewrite app_length, LR, length_le_bytes; reflexivity|]. split; [lia|].
    exists (zmul s pB), (zmul r pB). split; [apply public_point|]. split; [apply on_zmul, on_pB|]. split; [reflexivity|].
    rewrite zmul_B_mod, zmul_mul, <- zmul_add by exact on_pB. apply zmul_B_eq. pose proof ell_pos.
    rewrite <- (Z.add_mod_idemp_r r (k mod ell * s)), Z.mul_mod_idemp_l, Z.add_mod_idemp_r by lia. reflexivity.
  Qed.
  (* the second half of an acceptable signature is determined by the rest *)
  Lemma accepted_unique pub m R s s' : length R = 32%nat ->
    Ed25519_accepts hash pub m (R ++ s) -> Ed25519_accepts hash pub m (R ++ s') -> s = s'.
  Proof.
    unfold Ed25519_accepts. intros LR. rewrite !skipn_app, !firstn_app, LR, Nat.sub_diag, (skipn_all2 R), !firstn_all2 by lia. cbn [app skipn firstn]. rewrite !app_nil_r, !app_length, LR.
    intros (L1 & H1 & A1 & R1 & (_ & O1 & Y1 & S1) & OR1 & E1 & G1) (L2 & H2 & A2 & R2 & (_ & O2 & Y2 & S2) & OR2 & E2 & G2).
    assert (ER : R1 = R2) by (apply point_bytes_inj; [exact OR1|exact OR2|congruence]).
    assert (EA : A1 = A2).
    { destruct A1 as [x1 y1], A2 as [x2 y2]. cbn [fst snd] in *. subst. unfold on in O1, O2. cbn [fst snd] in O1, O2.
      destruct (same_y _ _ _ O1 O2) as [-> | E]; [reflexivity|].
      destruct (F_eq_dec x2 F0) as [Z0|NZ]; [rewrite E, Z0, F_opp_0; reflexivity|].
      assert (N1 : x1 <> F0) by (rewrite E; intro Q; apply NZ, F_opp_inj; exact Q).
      pose proof (S1 N1) as P1. rewrite E, (parity_opp _ NZ), (S2 NZ) in P1. pose proof (parity_01 x2) as P01. rewrite (S2 NZ) in P01. lia. }
    subst. rewrite <- G2 in G1. apply zmul_B_eq in G1. rewrite !Z.mod_small in G1 by (split; [apply le_val_range|assumption]).
    apply le_val_inj; [lia|exact G1].
  Qed.
End lib.

(* ---- psignify with a library that implements RFC 8032 ---- *)
Definition conforms_signatures (C : Crypto) : Prop :=
  (forall seed m, length seed = 32%nat -> ed_sign C (ed_private C seed) m = Ed25519_sign (sha512 C) seed m) /\
  (forall pub m sig, length pub = 32%nat -> (ed_verify C pub m sig = true <-> Ed25519_accepts (sha512 C) pub m sig)).
Lemma conform_correct C : (forall m, length (sha512 C m) = 64%nat) -> conforms_ed25519 C -> conforms_signatures C -> EdCorrect C.
Proof.
  intros LS CE [CS CV] seed m L. apply CV.
  - rewrite (CE seed L). apply point_bytes_length.
  - rewrite (CS seed m L), (CE seed L). apply sign_accepted.
Qed.
Lemma sign_then_verify_rfc C k pass opts w w1 v m mp s n :
  LengthLaws C -> conforms_ed25519 C -> conforms_signatures C ->
  GenerateKey C k pass opts w = (Ok tt, w1) ->
  w_fs v (sec_path k) = w_fs w1 (sec_path k) -> w_fs v (pub_path k) = w_fs w1 (pub_path k) ->
  contents v mp m -> w_faults v = [] ->
  (pass <> [] -> exists tl, w_tty v = Ok pass :: tl) ->
  last_component (pub_path k) n -> lf_free n -> Z.of_nat (length n) <= 65000 ->
  sigPathOf mp s <> [] -> sigPathOf mp s <> pub_path k -> sigPathOf mp s <> mp ->
  exists v1 v2, Sign C (sec_path k) mp s v = (Ok tt, v1) /\
    w_tty v1 = (match pass with [] => w_tty v | _ => tl (w_tty v) end) /\
    Verify C (pub_path k) mp s v1 = (Ok tt, v2).
Proof. intros LL CE CS. apply sign_then_verify; [exact LL|]. exact (conform_correct C (len_sha512 C LL) CE CS). Qed.

Lemma read_public_length pf pk : readPublicKeyFile pf = Ok pk -> length (p_key pk) = 32%nat.
Proof.
  unfold readPublicKeyFile, rbind. destruct (readDataFileBytes pf) as [d|e|]; try discriminate.
  unfold readPublicKeyData. destruct (_ =? _)%nat; cbn [negb]; try discriminate; intro H; injection H as <-; cbn [p_key]; apply length_fit.
Qed.
Lemma Verify_rfc_iff C a b c w : conforms_signatures C ->
  (exists w', Verify C a b c w = (Ok tt, w')) <->
  undisturbed 3 w /\
  exists pf m sf pk sg, contents w a pf /\ contents w b m /\ contents w (sigPathOf b c) sf /\
    readPublicKeyFile pf = Ok pk /\ readSignatureFile sf = Ok sg /\
    p_keyAlgo pk = str "Ed" /\ pkAlgo sg = str "Ed" /\ p_keyNum pk = s_keyNum sg /\
    Ed25519_accepts (sha512 C) (p_key pk) m (sig sg).
Proof.
  intros [_ CV]. rewrite Verify_ok_iff. unfold acceptable.
  split; intros [U (pf & m & sf & pk & sg & H1 & H2 & H3 & H4 & H5 & H6 & H7 & H8 & H9)]; (split; [exact U|]);
    exists pf, m, sf, pk, sg; repeat (split; [assumption|]); apply (CV (p_key pk) m (sig sg) (read_public_length _ _ H4)); exact H9.
Qed.

(* a conforming instance: the toy hash with the routines of the package *)
Definition toy_sig : Crypto := {|
  sha512 := sha512 toy; pbkdf := pbkdf toy;
  ed_public := lib_Public (sha512 toy); ed_sign := lib_Sign (sha512 toy);
  ed_verify := lib_Verify (sha512 toy);
  x25519_base := x25519_base toy; box_precompute := box_precompute toy;
  box_seal := box_seal toy; box_open := box_open toy; auth_sum := auth_sum toy |}.
Lemma toy_hash64 m : length (sha512 toy m) = 64%nat.
Proof. apply (len_sha512 toy toy_lengths). Qed.
Lemma toy_sig_ed : conforms_ed25519 toy_sig.
Proof. intros seed _. exact (lib_Public_ok (sha512 toy) toy_hash64 seed). Qed.
Lemma toy_sig_conforms : conforms_signatures toy_sig.
Proof.
  split.
  - intros seed m L. unfold ed_private. rewrite (toy_sig_ed seed L). exact (lib_Sign_ok (sha512 toy) toy_hash64 seed m L).
  - intros pub m s L. exact (lib_Verify_ok (sha512 toy) toy_hash64 pub m s L).
Qed.
Lemma toy_sig_lengths : LengthLaws toy_sig.
Proof.
  constructor.
  - exact (len_sha512 _ toy_lengths).
  - exact (len_pbkdf _ toy_lengths).
  - intros seed L. rewrite (toy_sig_ed seed L). apply point_bytes_length.
  - intros k m _. change (ed_sign toy_sig k m) with (lib_Sign (sha512 toy) k m). unfold lib_Sign. cbv zeta.
    rewrite app_length, (mult_reduced _ toy_hash64), point_bytes_length, ScMulAdd_length. reflexivity.
  - exact (len_x25519 _ toy_lengths).
  - exact (len_precompute _ toy_lengths).
  - exact (len_box_seal _ toy_lengths).
  - exact (len_auth _ toy_lengths).
Qed.
