(* The field of integers modulo p = 2^255-19, as a type with Leibniz equality. *)
From Verif Require Export NumTheory SpecField.
From Coq Require Export Ring Field Eqdep_dec.

Record F : Type := MkF { rep : Z; rep_ok : (rep mod p25519 =? rep) = true }.

Lemma p_pos : 0 < p25519. Proof. reflexivity. Qed.
Lemma p_prime : prime p25519. Proof. exact prime_2_255_19. Qed.
Lemma p_big : 1000 < p25519. Proof. reflexivity. Qed.

Lemma F_eq a b : rep a = rep b -> a = b.
Proof.
  destruct a as [a Ha], b as [b Hb]. cbn [rep]. intros <-. f_equal. apply UIP_dec. apply bool_dec.
Qed.
Lemma toF_ok z : (z mod p25519 mod p25519 =? z mod p25519) = true.
Proof. apply Z.eqb_eq. apply Z.mod_mod. pose proof p_pos. lia. Qed.
Definition toF (z : Z) : F := MkF (z mod p25519) (toF_ok z).
Lemma rep_toF z : rep (toF z) = z mod p25519. Proof. reflexivity. Qed.
Lemma rep_range a : 0 <= rep a < p25519.
Proof. destruct a as [a H]. cbn [rep]. apply Z.eqb_eq in H. rewrite <- H. apply Z.mod_pos_bound. exact p_pos. Qed.
Lemma toF_rep a : toF (rep a) = a.
Proof. apply F_eq. rewrite rep_toF. destruct a as [a H]. cbn [rep]. apply Z.eqb_eq. exact H. Qed.
Lemma toF_eq a b : toF a = toF b <-> eqp a b.
Proof.
  unfold eqp. split; intro H.
  - rewrite <- !rep_toF, H. reflexivity.
  - apply F_eq. rewrite !rep_toF. exact H.
Qed.
Lemma rep_mod a : rep a mod p25519 = rep a.
Proof. destruct a as [a H]. cbn [rep]. apply Z.eqb_eq. exact H. Qed.

Definition F0 : F := toF 0.
Definition F1 : F := toF 1.
Definition Fadd (a b : F) : F := toF (rep a + rep b).
Definition Fsub (a b : F) : F := toF (rep a - rep b).
Definition Fmul (a b : F) : F := toF (rep a * rep b).
Definition Fopp (a : F) : F := toF (- rep a).
(* the power function is kept opaque: exponents of 255 bits must never be unfolded *)
Lemma Fpow_ex : { f : F -> Z -> F | forall a n, f a n = toF (rep a ^ n) }.
Proof. exists (fun a n => toF (rep a ^ n)). reflexivity. Qed.
Definition Fpow : F -> Z -> F := proj1_sig Fpow_ex.
Lemma Fpow_eq a n : Fpow a n = toF (rep a ^ n).
Proof. exact (proj2_sig Fpow_ex a n). Qed.
Definition Finv (a : F) : F := Fpow a (p25519 - 2).
Definition Fdiv (a b : F) : F := Fmul a (Finv b).

Declare Scope F_scope.
Delimit Scope F_scope with F.
Bind Scope F_scope with F.
Infix "+" := Fadd : F_scope.
Infix "-" := Fsub : F_scope.
Infix "*" := Fmul : F_scope.
Infix "/" := Fdiv : F_scope.
Notation "- a" := (Fopp a) : F_scope.
Notation "a ^ n" := (Fpow a n) : F_scope.

Lemma toF_add a b : toF (a + b) = (toF a + toF b)%F.
Proof. apply F_eq. unfold Fadd. rewrite !rep_toF. rewrite <- Zplus_mod. reflexivity. Qed.
Lemma toF_sub a b : toF (a - b) = (toF a - toF b)%F.
Proof. apply F_eq. unfold Fsub. rewrite !rep_toF. rewrite <- Zminus_mod. reflexivity. Qed.
Lemma toF_mul a b : toF (a * b) = (toF a * toF b)%F.
Proof. apply F_eq. unfold Fmul. rewrite !rep_toF. rewrite <- Zmult_mod. reflexivity. Qed.
Lemma toF_opp a : toF (- a) = (- toF a)%F.
Proof. apply F_eq. unfold Fopp. rewrite !rep_toF. rewrite <- (Z.sub_0_l a), <- (Z.sub_0_l (a mod p25519)), Zminus_mod_idemp_r. reflexivity. Qed.
Lemma toF_pow a n : toF (a ^ n) = (toF a ^ n)%F.
Proof. apply F_eq. rewrite Fpow_eq, !rep_toF. rewrite pow_mod_l by exact p_pos. reflexivity. Qed.

Lemma F_cases (P : F -> Prop) : (forall z, P (toF z)) -> forall a, P a.
Proof. intros H a. rewrite <- (toF_rep a). apply H. Qed.
Ltac toF_all :=
  repeat match goal with a : F |- _ => revert a end;
  repeat match goal with |- forall a : F, @?P a => refine (F_cases P _); cbv beta; intro end;
  unfold F0, F1; repeat (rewrite <- toF_mul || rewrite <- toF_add || rewrite <- toF_opp || rewrite <- toF_sub);
  apply f_equal; ring.

Lemma F_ring : ring_theory F0 F1 Fadd Fmul Fsub Fopp (@eq F).
Proof. constructor; intros; toF_all. Qed.
Lemma F_morph : ring_morph F0 F1 Fadd Fmul Fsub Fopp (@eq F) 0%Z 1%Z Z.add Z.mul Z.sub Z.opp Z.eqb toF.
Proof.
  constructor; try reflexivity; intros.
  - apply toF_add. - apply toF_sub. - apply toF_mul. - apply toF_opp.
  - apply Z.eqb_eq in H. rewrite H. reflexivity.
Qed.

Lemma F1_neq_F0 : F1 <> F0.
Proof. intro H. assert (X : rep F1 = rep F0) by (rewrite H; reflexivity). vm_compute in X. discriminate. Qed.
Lemma toF_eq_0 z : toF z = F0 <-> (p25519 | z).
Proof.
  unfold F0. rewrite toF_eq. unfold eqp. rewrite Z.mod_0_l by (pose proof p_pos; lia).
  split; intro H; [apply Z.mod_divide in H; [exact H|]|apply Z.mod_divide; [|exact H]]; pose proof p_pos; lia.
Qed.
Lemma rep_0 a : a = F0 <-> rep a = 0.
Proof. split; [intros ->; reflexivity|]. intro H. apply F_eq. rewrite H. reflexivity. Qed.

Lemma F_fermat a : a <> F0 -> (a ^ (p25519 - 1) = F1)%F.
Proof.
  intro H. rewrite Fpow_eq. unfold F1. apply toF_eq. unfold eqp.
  rewrite (fermat p25519 (rep a) p_prime); [reflexivity|]. intro D. apply H. rewrite <- (toF_rep a). apply toF_eq_0. exact D.
Qed.
Lemma Fpow_add a m n : 0 <= m -> 0 <= n -> (a ^ (m + n) = a ^ m * a ^ n)%F.
Proof. intros Hm Hn. rewrite !Fpow_eq. rewrite Z.pow_add_r by assumption. apply toF_mul. Qed.
Lemma Fpow_mul a m n : 0 <= m -> 0 <= n -> (a ^ (m * n) = (a ^ m) ^ n)%F.
Proof. intros Hm Hn. rewrite (Fpow_eq a (m * n)), (Fpow_eq a m). rewrite Z.pow_mul_r by assumption. apply toF_pow. Qed.
Lemma Fpow_1 a : (a ^ 1 = a)%F.
Proof. rewrite Fpow_eq, Z.pow_1_r. apply toF_rep. Qed.
Lemma Fpow_2 a : (a ^ 2 = a * a)%F.
Proof. change 2 with (1 + 1). rewrite Fpow_add, Fpow_1 by lia. reflexivity. Qed.
Lemma Fpow_0 a : (a ^ 0 = F1)%F.
Proof. rewrite Fpow_eq. reflexivity. Qed.
Lemma Fpow_mul_base a b n : 0 <= n -> ((a * b) ^ n = a ^ n * b ^ n)%F.
Proof.
  intro Hn. rewrite <- (toF_rep a), <- (toF_rep b), <- toF_mul, <- !toF_pow, Z.pow_mul_l. apply toF_mul.
Qed.
Lemma Finv_l a : a <> F0 -> (Finv a * a = F1)%F.
Proof.
  intro H. rewrite <- (F_fermat a H). replace (p25519 - 1) with (p25519 - 2 + 1) by lia.
  pose proof p_big. rewrite Fpow_add, Fpow_1 by lia. reflexivity.
Qed.
Lemma F_field : field_theory F0 F1 Fadd Fmul Fsub Fopp Fdiv Finv (@eq F).
Proof.
  constructor; [exact F_ring|exact F1_neq_F0|reflexivity|]. intros a H. apply Finv_l. exact H.
Qed.

Ltac F_cst t :=
  match t with
  | F0 => constr:(0%Z)
  | F1 => constr:(1%Z)
  | toF ?z => match isZcst z with true => z | _ => constr:(InitialRing.NotConstant) end
  | _ => constr:(InitialRing.NotConstant)
  end.
Add Field F_f : F_field (morphism F_morph, constants [F_cst]).

Lemma Fpow_zero n : 0 < n -> (F0 ^ n = F0)%F.
Proof. intro H. rewrite Fpow_eq. change (rep F0) with 0. rewrite Z.pow_0_l by exact H. reflexivity. Qed.
Lemma Finv_0 : Finv F0 = F0.
Proof. unfold Finv. apply Fpow_zero. reflexivity. Qed.

Lemma F_integral a b : (a * b = F0)%F -> a = F0 \/ b = F0.
Proof.
  intro H. rewrite <- (toF_rep a), <- (toF_rep b) in H. rewrite <- toF_mul in H. apply toF_eq_0 in H.
  apply prime_mult in H; [|exact p_prime]. destruct H as [H|H]; apply toF_eq_0 in H; rewrite toF_rep in H; auto.
Qed.
Lemma F_eq_dec (a b : F) : {a = b} + {a <> b}.
Proof. destruct (Z.eq_dec (rep a) (rep b)) as [H|H]; [left; apply F_eq; exact H|right; intros ->; apply H; reflexivity]. Qed.
Lemma F_mul_nz a b : a <> F0 -> b <> F0 -> (a * b)%F <> F0.
Proof. intros Ha Hb H. apply F_integral in H. tauto. Qed.
Lemma F_sub_0 a b : (a - b = F0)%F -> a = b.
Proof. intro H. replace a with (b + (a - b))%F by ring. rewrite H. ring. Qed.
Lemma F_mul_cancel a b c : c <> F0 -> (a * c = b * c)%F -> a = b.
Proof. intros Hc H. apply F_sub_0. assert (X : ((a - b) * c = F0)%F) by (replace ((a - b) * c)%F with (a * c - b * c)%F by ring; rewrite H; ring). apply F_integral in X. tauto. Qed.
Lemma F_square_0 a : (a * a = F0)%F -> a = F0.
Proof. intro H. apply F_integral in H. tauto. Qed.
Lemma Finv_nz a : a <> F0 -> Finv a <> F0.
Proof. intros H X. pose proof (Finv_l a H) as Y. rewrite X in Y. apply F1_neq_F0. rewrite <- Y. ring. Qed.
Lemma F_opp_inj a : (- a = F0)%F -> a = F0.
Proof. intro H. replace a with (- - a)%F by ring. rewrite H. ring. Qed.
Lemma F2_nz : toF 2 <> F0.
Proof. intro H. assert (X : rep (toF 2) = 0) by (rewrite H; reflexivity). vm_compute in X. discriminate. Qed.

(* a square has Euler power 1 *)
Lemma euler_square x : x <> F0 -> ((x * x) ^ ((p25519 - 1) / 2) = F1)%F.
Proof.
  intro H. rewrite <- Fpow_2, <- Fpow_mul; [|lia|apply Z.div_pos; [pose proof p_big; lia|lia]].
  replace (2 * ((p25519 - 1) / 2)) with (p25519 - 1) by reflexivity. apply F_fermat. exact H.
Qed.
(* square roots of 1 *)
Lemma sqrt_one a : (a * a = F1)%F -> a = F1 \/ a = (- F1)%F.
Proof.
  intro H. assert (X : ((a - F1) * (a + F1) = F0)%F) by (replace ((a - F1) * (a + F1))%F with (a * a - F1)%F by ring; rewrite H; ring).
  apply F_integral in X. destruct X as [X|X]; [left; apply F_sub_0; exact X|right].
  apply F_sub_0. rewrite <- X. ring.
Qed.

Global Opaque toF Fadd Fsub Fmul Fopp Fpow.
