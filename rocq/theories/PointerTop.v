(* Statements of PropsPointers.v.  Proofs. *)
From Coq Require Import Lia.
From Verif Require Import SlideFacts ScalarKeys DecodeFacts PointerFacts PointerGroup PointerMult PointerWitness.
From Verif Require Import SpecPointers Pointers.
Open Scope Z_scope.

Lemma put_writes m m' d v : (forall x, m' x = put m d v x) -> writes d v m m'.
Proof.
  intro H. split.
  - rewrite H. apply put_same.
  - intros x N. rewrite H. now apply put_other.
Qed.
Lemma any_pointers m d a b c : m g_zero = FeZero ->
  writes d FeZero m (FeZero_at d m) /\
  writes d FeOne m (FeOne_at d m) /\
  writes d (m a) m (FeCopy_at d a m) /\
  writes d (FeAdd (m a) (m b)) m (FeAdd_at d a b m) /\
  writes d (FeSub (m a) (m b)) m (FeSub_at d a b m) /\
  writes d (FeNeg (m a)) m (FeNeg_at d a m) /\
  writes d (FeCMove (m d) (m a) c) m (FeCMove_at d a c m) /\
  writes d (FeMul (m a) (m b)) m (FeMul_at d a b m) /\
  writes d (FeSquare (m a)) m (FeSquare_at d a m) /\
  writes d (FeSquare2 (m a)) m (FeSquare2_at d a m).
Proof.
  intro G.
  split; [exact (put_writes _ _ _ _ (fun x => exec_ok (Zero d) m x G))|].
  split; [exact (put_writes _ _ _ _ (fun x => exec_ok (One d) m x G))|].
  split; [exact (put_writes _ _ _ _ (fun x => exec_ok (Copy d a) m x G))|].
  split; [exact (put_writes _ _ _ _ (fun x => exec_ok (Add d a b) m x G))|].
  split; [exact (put_writes _ _ _ _ (fun x => exec_ok (Sub d a b) m x G))|].
  split; [exact (put_writes _ _ _ _ (fun x => exec_ok (Neg d a) m x G))|].
  split; [exact (put_writes _ _ _ _ (fun x => exec_ok (CMove d a c) m x G))|].
  split; [exact (put_writes _ _ _ _ (fun x => exec_ok (Mul d a b) m x G))|].
  split; [exact (put_writes _ _ _ _ (fun x => exec_ok (Square d a) m x G))|].
  exact (put_writes _ _ _ _ (fun x => exec_ok (Square2 d a) m x G)).
Qed.

Lemma put_writes_new fr m m' d v : fst d < fr -> (forall x, fst x < fr -> m' x = put m d v x) -> writes_new fr d v m m'.
Proof.
  intros L H. split.
  - rewrite H by exact L. apply put_same.
  - intros x N Hx. rewrite H by exact Hx. now apply put_other.
Qed.
Lemma invert_in_place m fr out z : m g_zero = FeZero -> 0 <= fr -> fst out < fr -> fst z < fr ->
  writes_new fr out (FeInvert (m z)) m (FeInvert_at fr out z m) /\
  (loose165 (m z) -> FV (FeInvert_at fr out z m out) = Finv (FV (m z))) /\
  writes_new fr out (fePow22523 (m z)) m (fePow22523_at fr out z m).
Proof.
  intros G Hf Ho Hz.
  assert (W := put_writes_new fr m _ out _ Ho (FeInvert_at_ok fr out z m G Hf Ho Hz)).
  split; [exact W|]. split.
  - intro B. destruct W as [W _]. rewrite W. apply FeInvert_F. exact B.
  - exact (put_writes_new fr m _ out _ Ho (fePow22523_at_ok fr out z m G Hf Ho Hz)).
Qed.

Lemma formulas m fr r p q : globals m -> 0 <= r < fr -> p < fr -> q < fr -> r <> p -> r <> q ->
  (get_c (p_double_at fr p r m) r = p_double (get_p m p) /\ only r fr m (p_double_at fr p r m)) /\
  (get_c (e_double_at fr p r m) r = e_double (get_e m p) /\ only r fr m (e_double_at fr p r m)) /\
  (get_ca (e_to_cached_at p r m) r = e_to_cached (get_e m p) /\ only r fr m (e_to_cached_at p r m)) /\
  (get_p (e_to_projective_at p r m) r = e_to_projective (get_e m p) /\ only r fr m (e_to_projective_at p r m)) /\
  (get_p (c_to_projective_at p r m) r = c_to_projective (get_c m p) /\ only r fr m (c_to_projective_at p r m)) /\
  (get_e (c_to_extended_at p r m) r = c_to_extended (get_c m p) /\ only r fr m (c_to_extended_at p r m)) /\
  (get_c (geAdd_at fr r p q m) r = geAdd (get_e m p) (get_ca m q) /\ only r fr m (geAdd_at fr r p q m)) /\
  (get_c (geSub_at fr r p q m) r = geSub (get_e m p) (get_ca m q) /\ only r fr m (geSub_at fr r p q m)) /\
  (get_c (geMixedAdd_at fr r p q m) r = geMixedAdd (get_e m p) (get_pc m q) /\ only r fr m (geMixedAdd_at fr r p q m)) /\
  (get_c (geMixedSub_at fr r p q m) r = geMixedSub (get_e m p) (get_pc m q) /\ only r fr m (geMixedSub_at fr r p q m)) /\
  (forall b, get_pc (pc_cmove_at r p b m) r = pc_cmove (get_pc m r) (get_pc m p) b /\ only r fr m (pc_cmove_at r p b m)) /\
  (forall pos b, (pos < 32)%nat ->
     get_pc (selectPoint_at fr r pos b m) r = selectPoint pos b /\ only r fr m (selectPoint_at fr r pos b m)).
Proof.
  intros GM Hr Hp Hq Np Nq. pose proof (proj1 GM) as G. pose proof (proj1 (proj2 (proj2 GM))) as D2.
  split; [now apply p_double_at_ok|]. split; [now apply e_double_at_ok|].
  split; [now apply e_to_cached_at_ok|]. split; [now apply e_to_projective_at_ok|].
  split; [now apply c_to_projective_at_ok|]. split; [now apply c_to_extended_at_ok|].
  split; [now apply geAdd_at_ok|]. split; [now apply geSub_at_ok|].
  split; [now apply geMixedAdd_at_ok|]. split; [now apply geMixedSub_at_ok|].
  split; [intro b; now apply pc_cmove_at_ok|]. intros pos b H. now apply selectPoint_at_ok.
Qed.

Lemma encode_at m fr p : globals m -> 0 <= fr -> p < fr ->
  let '(s, m') := xyz_to_bytes_at fr p m in untouched fr m m' /\
  s = p_to_bytes (get_p m p) /\ s = e_to_bytes (get_e m p) /\
  (forall P, on P -> ext_rep (get_e m p) P -> s = point_bytes P).
Proof.
  intros GM Hf Hp. destruct (xyz_to_bytes_at_ok fr p m (proj1 GM) Hf Hp) as [E K].
  destruct (xyz_to_bytes_at fr p m) as [s m']. cbn [fst snd] in E, K.
  split; [exact K|]. split; [exact E|]. split; [exact E|].
  intros P _ H. rewrite E. exact (e_to_bytes_ok _ _ H).
Qed.

Lemma decode_at m fr p s : globals m -> 0 <= p < fr -> length s = 32%nat ->
  let '(ok, m') := e_from_bytes_at fr p s m in only p fr m m' /\
  if ok then e_from_bytes s = Some (get_e m' p) /\ decoded s (get_e m' p)
  else forall x, ~ on_curve x (enc_y s).
Proof.
  intros (G & Gd & _ & Gs & _) Hp L.
  destruct (e_from_bytes_at_ok fr p s m G Gd Gs Hp) as [B O]. pose proof (e_from_bytes_ok s L) as S.
  destruct (e_from_bytes_at fr p s m) as [ok m']. cbn [fst snd] in B, O. split; [exact O|].
  destruct (e_from_bytes s) as [A|].
  - destruct B as [-> E]. rewrite E. split; [reflexivity|exact S].
  - destruct B as [-> _]. exact S.
Qed.

Lemma rejected_written : exists s m, length s = 32%nat /\ globals m /\ e_from_bytes s = None /\
  let '(ok, m') := e_from_bytes_at 6 5 s m in ok = false /\ get_e m' 5 <> get_e m 5.
Proof.
  exists (x02 :: repeat x00 31), (start FeOne). split; [reflexivity|]. split; [apply start_globals|].
  assert (N : e_from_bytes (x02 :: repeat x00 31) = None).
  { pose proof (two_ToBox [] []) as E. unfold pub_ToBox in E. cbn [p_key] in E.
    change (fit 32 (x02 :: repeat x00 31)) with (x02 :: repeat x00 31) in E.
    destruct (e_from_bytes (x02 :: repeat x00 31)); [discriminate E|reflexivity]. }
  split; [exact N|].
  destruct (start_globals FeOne) as (G & Gd & _ & Gs & _).
  destruct (e_from_bytes_at_ok 6 5 (x02 :: repeat x00 31) (start FeOne) G Gd Gs ltac:(lia)) as [B _]. rewrite N in B.
  destruct (e_from_bytes_at 6 5 (x02 :: repeat x00 31) (start FeOne)) as [ok m']. cbn [fst snd] in B.
  destruct B as (-> & _ & Y & _). split; [reflexivity|]. intro E. apply (f_equal eY) in E.
  change (m' (f1 5) = FeOne) in E. rewrite Y in E. revert E. clear. vm_compute. discriminate.
Qed.

Lemma to_box_at m fr a num k : globals m -> 0 <= fr -> length k = 32%nat ->
  let '(o, m') := ToBox_at fr k m in untouched fr m m' /\
  match pub_ToBox (Pub a num k) with Ok b => o = Some b | _ => o = None end.
Proof.
  intros (G & Gd & _ & Gs & _) Hf L. destruct (ToBox_at_ok fr k m G Gd Gs Hf) as [E K].
  destruct (ToBox_at fr k m) as [o m']. cbn [fst snd] in E, K. split; [exact K|].
  unfold pub_ToBox. cbn [p_key]. rewrite fit_exact by exact L. now destruct (e_from_bytes k).
Qed.

Lemma base_mult_at m fr h a : globals m -> 0 <= h < fr -> length a = 32%nat -> byte_at a 31 <= 127 ->
  let m' := GeScalarMultBase_at fr h a m in
  get_e m' h = GeScalarMultBase a /\ ext_rep (get_e m' h) (zmul (le_val a) pB) /\ only h fr m m'.
Proof.
  intros GM Hh L B m'. destruct (base_at_ok fr h m Hh a GM) as [E O]. fold m' in E, O.
  split; [exact E|]. split; [|exact O]. rewrite E. exact (scalar_mult_base_ok a L B).
Qed.

Lemma double_mult_at m fr r A a b P : globals m -> 0 <= r < fr -> A < fr -> r <> A ->
  length a = 32%nat -> length b = 32%nat -> le_val a <= 2 ^ 255 -> le_val b <= 2 ^ 255 ->
  on P -> ext_rep (get_e m A) P ->
  let m' := GeDoubleScalarMultVartime_at fr r a A b m in
  get_p m' r = GeDoubleScalarMultVartime a (get_e m A) b /\
  proj_rep (get_p m' r) (padd (zmul (le_val a) P) (zmul (le_val b) pB)) /\ only r fr m m' /\ get_e m' A = get_e m A.
Proof.
  intros GM Hr HA N La Lb Ra Rb OP H m'. destruct (double_at_ok fr r A m Hr HA N a b GM) as [E O]. fold m' in E, O.
  split; [exact E|]. split; [|split; [exact O|]].
  - rewrite E. exact (double_scalar_ok a b _ P OP H La Lb Ra Rb).
  - apply (only_get_e r fr); [exact O|lia|exact HA].
Qed.

Lemma base_two m : globals m -> ext_rep (get_e (GeScalarMultBase_at 6 5 (x02 :: repeat x00 31) m) 5) (zmul 2 pB).
Proof.
  assert (E : le_val (x02 :: repeat x00 31) = 2) by reflexivity.
  assert (L : length (x02 :: repeat x00 31) = 32%nat) by reflexivity.
  assert (B : byte_at (x02 :: repeat x00 31) 31 <= 127) by discriminate.
  intro GM. generalize dependent (x02 :: repeat x00 31). intros a E L B.
  pose proof (base_mult_at m 6 5 a GM ltac:(lia) L B) as H. cbv zeta in H. destruct H as (_ & H & _).
  rewrite E in H. exact H.
Qed.
