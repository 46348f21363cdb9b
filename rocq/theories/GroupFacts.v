(* The point formulas implement the group law. *)
From Verif Require Export SpecGroup EdGroup.
Local Open Scope Z_scope.

(* one field operation of a routine: name it, record its bounds and value *)
Ltac loose H := apply (limbs_loose _ _ _ H); vm_compute; discriminate.
Ltac fstep y :=
  elim_let y;
  let T := fresh "T" in let E := fresh "E" in
  lazymatch eval cbv delta [y] in y with
  | FeAdd ?a ?b => match goal with Ha : limbs _ _ a |- _ => match goal with Hb : limbs _ _ b |- _ =>
      destruct (FeAdd_F _ _ _ _ a b Ha Hb eq_refl eq_refl) as [T E] end end
  | FeSub ?a ?b => match goal with Ha : limbs _ _ a |- _ => match goal with Hb : limbs _ _ b |- _ =>
      destruct (FeSub_F _ _ _ _ a b Ha Hb eq_refl eq_refl) as [T E] end end
  | FeMul ?a ?b => match goal with Ha : limbs _ _ a |- _ => match goal with Hb : limbs _ _ b |- _ =>
      destruct (FeMul_F a b ltac:(loose Ha) ltac:(loose Hb)) as [T E] end end
  | FeSquare ?a => match goal with Ha : limbs _ _ a |- _ =>
      destruct (FeSquare_F a ltac:(loose Ha)) as [T E] end
  | FeSquare2 ?a => match goal with Ha : limbs _ _ a |- _ =>
      destruct (FeSquare2_F a ltac:(loose Ha)) as [T E] end
  | FeInvert ?a => match goal with Ha : limbs _ _ a |- _ =>
      destruct (FeInvert_F a ltac:(loose Ha)) as [T E] end
  end;
  fold y in T, E; clearbody y; unfold tight101 in T.
Ltac fsteps := repeat (let y := fresh "r" in fstep y).
Ltac open_rep H := unfold proj_rep, ext_rep, comp_rep, pre_rep, cached_rep, tight101, loose165, limbs26 in H.
Ltac start f := pattern f; match goal with |- ?Q _ => let P0 := fresh "P0" in set (P0 := Q) end.
Ltac finish := lazymatch goal with |- ?P _ => subst P end; cbv beta.
Ltac lim := match goal with H : limbs _ _ ?f |- limbs _ _ ?f => apply (limbs_weaken _ _ _ _ f) with (3 := H); vm_compute; discriminate end.
Ltac vals := repeat match goal with E : FV ?r = _ |- context [FV ?r] => is_var r; rewrite E end.

(* the values in a sum *)
Lemma sum_x x1 y1 x2 y2 : on_curve x1 y1 -> on_curve x2 y2 ->
  (fst (padd (x1, y1) (x2, y2)) * (F1 + curve_d * x1 * x2 * y1 * y2) = x1 * y2 + x2 * y1)%F.
Proof. intros H1 H2. cbn [padd fst]. field. apply den_plus; assumption. Qed.
Lemma sum_y x1 y1 x2 y2 : on_curve x1 y1 -> on_curve x2 y2 ->
  (snd (padd (x1, y1) (x2, y2)) * (F1 - curve_d * x1 * x2 * y1 * y2) = y1 * y2 + x1 * x2)%F.
Proof. intros H1 H2. cbn [padd snd]. field. apply den_minus; assumption. Qed.
Lemma comp_by p x1 y1 x2 y2 k : on_curve x1 y1 -> on_curve x2 y2 ->
  loose165 (cX p) -> loose165 (cY p) -> loose165 (cZ p) -> loose165 (cT p) -> k <> F0 ->
  (FV (cX p) = k * (x1 * y2 + x2 * y1) -> FV (cY p) = k * (y1 * y2 + x1 * x2) ->
   FV (cZ p) = k * (F1 + curve_d * x1 * x2 * y1 * y2) -> FV (cT p) = k * (F1 - curve_d * x1 * x2 * y1 * y2) ->
   comp_rep p (padd (x1, y1) (x2, y2)))%F.
Proof.
  intros O1 O2 BX BY BZ BT Nk VX VY VZ VT. unfold comp_rep. do 4 (split; [assumption|]).
  pose proof (sum_x _ _ _ _ O1 O2) as SX. pose proof (sum_y _ _ _ _ O1 O2) as SY.
  set (s := padd (x1, y1) (x2, y2)) in *. clearbody s. rewrite VX, VY, VZ, VT, <- SX, <- SY.
  split; [apply F_mul_nz; [exact Nk|apply den_plus; assumption]|].
  split; [apply F_mul_nz; [exact Nk|apply den_minus; assumption]|]. split; ring.
Qed.
Ltac open_all := repeat match goal with
  | H : ext_rep ?p ?P |- _ => open_rep H; destruct p as [X1 Y1 Z1 T1], P as [x1 y1]; cbn [eX eY eZ eT fst snd] in H; destruct H as (? & ? & ? & ? & ? & ? & ? & ?)
  | H : cached_rep ?p ?P |- _ => open_rep H; destruct p as [a2 b2 Z2 e2], P as [x2 y2]; cbn [c_yPlusX c_yMinusX c_Z c_T2d fst snd] in H; destruct H as (? & ? & ? & ? & ? & ? & ? & ?)
  | H : pre_rep ?p ?P |- _ => open_rep H; destruct p as [a2 b2 e2], P as [x2 y2]; cbn [yPlusX yMinusX xy2d fst snd] in H; destruct H as (? & ? & ? & ? & ? & ?)
  | H : proj_rep ?p ?P |- _ => open_rep H; destruct p as [X1 Y1 Z1], P as [x1 y1]; cbn [pX pY pZ fst snd] in H; destruct H as (? & ? & ? & ? & ? & ?)
  | H : comp_rep ?p ?P |- _ => open_rep H; destruct p as [X1 Y1 Z1 T1], P as [x1 y1]; cbn [cX cY cZ cT fst snd] in H; destruct H as (? & ? & ? & ? & ? & ? & ? & ?)
  end.
Ltac expose f :=
  cbv beta match delta [f eX eY eZ eT pX pY pZ cX cY cZ cT c_yPlusX c_yMinusX c_Z c_T2d yPlusX yMinusX xy2d].
Ltac nz := repeat apply F_mul_nz; try assumption; exact F2_nz.

Lemma geAdd_ok p q P Q : ext_rep p P -> cached_rep q Q -> on P -> on Q -> comp_rep (geAdd p q) (padd P Q).
Proof.
  intros Hp Hq OP OQ. unfold on in OP, OQ. open_all. cbn [fst snd] in OP, OQ.
  match goal with |- comp_rep ?f _ => start f end. expose geAdd. fsteps. finish.
  eapply comp_by with (k := (toF 2 * FV Z1 * FV Z2)%F); try assumption; try (unfold loose165; cbn [cX cY cZ cT]; lim); [nz| | | |]; cbn [cX cY cZ cT]; vals; ring.
Qed.
Lemma geSub_ok p q P Q : ext_rep p P -> cached_rep q Q -> on P -> on Q -> comp_rep (geSub p q) (padd P (pneg Q)).
Proof.
  intros Hp Hq OP OQ. apply on_pneg in OQ. unfold on in OP, OQ. open_all. unfold pneg in *. cbn [fst snd] in *.
  match goal with |- comp_rep ?f _ => start f end. expose geSub. fsteps. finish.
  eapply comp_by with (k := (toF 2 * FV Z1 * FV Z2)%F); try assumption; try (unfold loose165; cbn [cX cY cZ cT]; lim); [nz| | | |]; cbn [cX cY cZ cT]; vals; ring.
Qed.
Lemma geMixedAdd_ok p q P Q : ext_rep p P -> pre_rep q Q -> on P -> on Q -> comp_rep (geMixedAdd p q) (padd P Q).
Proof.
  intros Hp Hq OP OQ. unfold on in OP, OQ. open_all. cbn [fst snd] in OP, OQ.
  match goal with |- comp_rep ?f _ => start f end. expose geMixedAdd. fsteps. finish.
  eapply comp_by with (k := (toF 2 * FV Z1)%F); try assumption; try (unfold loose165; cbn [cX cY cZ cT]; lim); [nz| | | |]; cbn [cX cY cZ cT]; vals; ring.
Qed.
Lemma geMixedSub_ok p q P Q : ext_rep p P -> pre_rep q Q -> on P -> on Q -> comp_rep (geMixedSub p q) (padd P (pneg Q)).
Proof.
  intros Hp Hq OP OQ. apply on_pneg in OQ. unfold on in OP, OQ. open_all. unfold pneg in *. cbn [fst snd] in *.
  match goal with |- comp_rep ?f _ => start f end. expose geMixedSub. fsteps. finish.
  eapply comp_by with (k := (toF 2 * FV Z1)%F); try assumption; try (unfold loose165; cbn [cX cY cZ cT]; lim); [nz| | | |]; cbn [cX cY cZ cT]; vals; ring.
Qed.
Lemma p_double_ok p P : proj_rep p P -> on P -> comp_rep (p_double p) (padd P P).
Proof.
  intros Hp OP. unfold on in OP. open_all. cbn [fst snd] in OP.
  match goal with |- comp_rep ?f _ => start f end. expose p_double. fsteps. finish.
  eapply comp_by with (k := (FV Z1 * FV Z1)%F); try assumption; try (unfold loose165; cbn [cX cY cZ cT]; lim); [nz| | | |]; cbn [cX cY cZ cT]; vals.
  1-2: ring.
  all: unfold on_curve in OP; match type of OP with (?y * ?y - ?x * ?x = _)%F =>
    replace (curve_d * x * x * y * y)%F with (y * y - x * x - F1)%F by (rewrite OP; ring) end; ring.
Qed.
Lemma proj_of_ext p P : ext_rep p P -> proj_rep (e_to_projective p) P.
Proof. intros (A & B & C & _ & N & X & Y & _). repeat (split; [assumption|]). assumption. Qed.
Lemma e_double_ok p P : ext_rep p P -> on P -> comp_rep (e_double p) (padd P P).
Proof. intros H O. apply p_double_ok; [apply proj_of_ext; exact H|exact O]. Qed.
Lemma to_cached_ok p P : ext_rep p P -> cached_rep (e_to_cached p) P.
Proof.
  intro H. assert (Bd : limbs 33890959 16945479 fe_d2) by (vm_compute; intuition discriminate). pose proof fe_d2_F as Ed. open_all.
  unfold e_to_cached, cached_rep, loose165, tight101. cbn [eX eY eZ eT c_yPlusX c_yMinusX c_Z c_T2d fst snd].
  match goal with HX : limbs 67108863 _ ?X, HY : limbs _ _ ?Y |- limbs _ _ (FeAdd ?Y ?X) /\ _ =>
    destruct (FeAdd_F _ _ _ _ Y X HY HX eq_refl eq_refl) as [TA EA]; destruct (FeSub_F _ _ _ _ Y X HY HX eq_refl eq_refl) as [TS ES] end.
  match goal with |- context [FeMul ?T fe_d2] => match goal with HT : limbs _ _ T |- _ =>
    destruct (FeMul_F T fe_d2 ltac:(loose HT) ltac:(loose Bd)) as [TM EM] end end.
  unfold tight101 in TM.
  split; [lim|]. split; [lim|]. split; [assumption|]. split; [lim|]. split; [assumption|].
  rewrite EA, ES, EM, Ed. split; [vals; ring|]. split; vals; ring.
Qed.
Lemma c_to_extended_ok p P : comp_rep p P -> ext_rep (c_to_extended p) P.
Proof.
  intro H. open_all. unfold c_to_extended, ext_rep, limbs26, tight101. cbn [eX eY eZ eT cX cY cZ cT fst snd].
  repeat match goal with |- context [FeMul ?a ?b] => match goal with Ha : limbs _ _ a |- _ => match goal with Hb : limbs _ _ b |- _ =>
    let T := fresh "T" in let E := fresh "E" in destruct (FeMul_F a b ltac:(loose Ha) ltac:(loose Hb)) as [T E]; unfold tight101 in T;
    let m := fresh "m" in set (m := FeMul a b) in *; clearbody m end end end.
  split; [lim|]. do 3 (split; [assumption|]). split; [rewrite E1; nz|]. vals. split; [ring|]. split; ring.
Qed.
Lemma c_to_projective_ok p P : comp_rep p P -> proj_rep (c_to_projective p) P.
Proof. intro H. exact (proj_of_ext _ _ (c_to_extended_ok p P H)). Qed.
Lemma e_zero_ok : ext_rep e_zero pO.
Proof.
  unfold ext_rep, e_zero. cbn [eX eY eZ eT pO fst snd]. rewrite !FV_zero, !FV_one.
  do 4 (split; [vm_compute; intuition discriminate|]). split; [exact F1_neq_F0|]. split; [ring|]. split; ring.
Qed.
Lemma p_zero_ok : proj_rep p_zero pO. Proof. exact (proj_of_ext _ _ e_zero_ok). Qed.
Lemma pc_zero_ok : pre_rep pc_zero pO.
Proof.
  unfold pre_rep, pc_zero. cbn [yPlusX yMinusX xy2d pO fst snd]. rewrite !FV_zero, !FV_one.
  do 3 (split; [vm_compute; intuition discriminate|]). split; [ring|]. split; ring.
Qed.
