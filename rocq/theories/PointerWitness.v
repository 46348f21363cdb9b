(* A memory with the declared package variables and some values in it.  Proofs. *)
From Coq Require Import Lia.
From Verif Require Import SlideFacts ScalarMult Pointers SpecPointers PointerFacts PointerGroup PointerMult.
Open Scope Z_scope.

Definition pc_field (q : PreComputedGE) (i : nat) : fe :=
  match i with 0%nat => yPlusX q | 1%nat => yMinusX q | _ => xy2d q end.
(* other variables hold the given value *)
Definition start (v : fe) : mem := fun l =>
  let '(r, i) := l in
  if 0 <=? r then v
  else if r =? -1 then FeZero
  else if r =? -2 then fe_d
  else if r =? -3 then fe_d2
  else if r =? -4 then fe_SqrtM1
  else if -100 <? r then pc_field (nth (Z.to_nat (-10 - r)) bi pc_zero) i
  else pc_field (nth (Z.to_nat ((-100 - r) mod 8)) (nth (Z.to_nat ((-100 - r) / 8)) base []) pc_zero) i.

Lemma get_field (m : mem) p q : (forall i, m (p, i) = pc_field q i) -> get_pc m p = q.
Proof. intro H. unfold get_pc, f0, f1, f2. rewrite !H. now destruct q. Qed.
Lemma start_globals v : globals (start v).
Proof.
  split; [reflexivity|]. split; [reflexivity|]. split; [reflexivity|]. split; [reflexivity|]. split.
  - intros i Hi. apply get_field. intro j. unfold start, g_bi.
    destruct (Z.leb_spec 0 (-10 - Z.of_nat i)); [lia|].
    destruct (Z.eqb_spec (-10 - Z.of_nat i) (-1)); [lia|]. destruct (Z.eqb_spec (-10 - Z.of_nat i) (-2)); [lia|].
    destruct (Z.eqb_spec (-10 - Z.of_nat i) (-3)); [lia|]. destruct (Z.eqb_spec (-10 - Z.of_nat i) (-4)); [lia|].
    destruct (Z.ltb_spec (-100) (-10 - Z.of_nat i)); [|lia].
    replace (Z.to_nat (-10 - (-10 - Z.of_nat i))) with i by lia. reflexivity.
  - intros pos i Hp Hi. apply get_field. intro j. unfold start, g_base.
    set (r := -100 - 8 * Z.of_nat pos - Z.of_nat i).
    assert (E : -100 - r = Z.of_nat pos * 8 + Z.of_nat i) by (unfold r; lia). assert (L : r <= -100) by (unfold r; lia).
    clearbody r.
    destruct (Z.leb_spec 0 r); [lia|].
    destruct (Z.eqb_spec r (-1)); [lia|]. destruct (Z.eqb_spec r (-2)); [lia|].
    destruct (Z.eqb_spec r (-3)); [lia|]. destruct (Z.eqb_spec r (-4)); [lia|].
    destruct (Z.ltb_spec (-100) r); [lia|].
    rewrite E, Z.div_add_l, (Z.div_small (Z.of_nat i)) by lia.
    rewrite Z.add_comm, Z.mod_add, (Z.mod_small (Z.of_nat i)) by lia.
    replace (Z.to_nat (Z.of_nat pos + 0)) with pos by lia. now rewrite Nat2Z.id.
Qed.
