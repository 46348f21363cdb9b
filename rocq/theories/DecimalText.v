(* %d: the digits of a number, lemmas for C84. *)
From Coq Require Import DecimalString DecimalZ DecimalFacts.
From Verif Require Export GoFmt SpecDecimal.
Local Open Scope Z_scope.
Import Decimal.

Fixpoint digits (u : uint) : bytes :=
  match u with
  | Nil => []
  | D0 u => x30 :: digits u | D1 u => x31 :: digits u | D2 u => x32 :: digits u | D3 u => x33 :: digits u | D4 u => x34 :: digits u
  | D5 u => x35 :: digits u | D6 u => x36 :: digits u | D7 u => x37 :: digits u | D8 u => x38 :: digits u | D9 u => x39 :: digits u
  end.
Lemma digits_string u : str (NilEmpty.string_of_uint u) = digits u.
Proof. induction u; cbn [NilEmpty.string_of_uint digits]; [reflexivity|..]; rewrite <- IHu; reflexivity. Qed.

Lemma digits_are u : Forall is_digit (digits u).
Proof. induction u; cbn [digits]; constructor; try assumption; unfold is_digit; cbn; lia. Qed.
Lemma digits_all t : Forall is_digit t -> exists u, digits u = t.
Proof.
  induction t as [|b t IH]; intro H; [exists Nil; reflexivity|]. inversion H as [|? ? Hb Ht]; subst. destruct (IH Ht) as (u & <-).
  unfold is_digit in Hb.
  destruct b; try (exfalso; cbv in Hb; destruct Hb as [X Y]; congruence);
    [exists (D0 u)|exists (D1 u)|exists (D2 u)|exists (D3 u)|exists (D4 u)|exists (D5 u)|exists (D6 u)|exists (D7 u)|exists (D8 u)|exists (D9 u)]; reflexivity.
Qed.

Lemma value_acc u : forall a, fold_left step_value (digits u) (Z.pos a) = Z.pos (Pos.of_uint_acc u a).
Proof.
  induction u; intro a; cbn [digits fold_left Pos.of_uint_acc]; [reflexivity|..];
    (rewrite <- IHu; f_equal; unfold step_value; cbn -[Z.mul Z.add Pos.mul Pos.add]; lia).
Qed.
Lemma value_uint u : value (digits u) = Z.of_uint u.
Proof.
  unfold value, Z.of_uint. induction u; cbn [digits fold_left Pos.of_uint Z.of_N]; [reflexivity|exact IHu|..];
    (etransitivity; [|apply value_acc]; reflexivity).
Qed.

Lemma plain_unorm u : u <> Nil -> (forall t, digits u <> x30 :: t) \/ digits u = [x30] -> unorm u = u.
Proof.
  intros N [H|H]; destruct u; try contradiction; try reflexivity; cbn [digits] in H.
  - contradiction (H (digits u) eq_refl).
  - injection H as H. destruct u; try discriminate. reflexivity.
Qed.
Lemma unorm_plain u : unorm u <> Nil /\ ((forall t, digits (unorm u) <> x30 :: t) \/ digits (unorm u) = [x30]).
Proof.
  unfold unorm. induction u; try (split; [discriminate|left; intros t; discriminate]); [split; [discriminate|right; reflexivity]|].
  cbn [nzhead]. exact IHu.
Qed.

Lemma decimal_digits n : 0 <= n -> exists u, Z.to_int n = Pos u /\ unorm u = u /\ GoFmt.decimal n = digits u /\ u <> Nil.
Proof.
  intro H. pose proof (of_to n) as E. pose proof (to_of (Z.to_int n)) as F. rewrite E in F.
  destruct (Z.to_int n) as [u|u] eqn:T.
  - exists u. split; [reflexivity|]. cbn [norm] in F. injection F as F. symmetry in F. split; [exact F|].
    assert (N : u <> Nil) by (rewrite <- F; apply unorm_plain). split; [|exact N].
    unfold GoFmt.decimal. rewrite T. unfold NilZero.string_of_int, NilZero.string_of_uint. destruct u; [contradiction|..]; apply digits_string.
  - exfalso. destruct n as [|p|p]; [discriminate|discriminate|lia].
Qed.

Theorem decimal_iff n t : 0 <= n -> GoFmt.decimal n = t <-> decimal_of n t.
Proof.
  intro H. destruct (decimal_digits n H) as (u & T & F & E & N). split.
  - intros <-. rewrite E. split; [apply digits_are|]. split; [destruct u; [contradiction|..]; discriminate|]. split.
    + rewrite <- F. apply unorm_plain.
    + rewrite value_uint. pose proof (of_to n) as X. rewrite T in X. exact X.
  - intros (D & Ne & L & V). destruct (digits_all t D) as (v & <-). rewrite E. f_equal.
    rewrite value_uint in V. assert (Nv : v <> Nil) by (intros ->; contradiction).
    pose proof (plain_unorm v Nv L) as P. pose proof (to_of (Pos v)) as X. cbn [Z.of_int] in X. rewrite V, T in X. cbn [norm] in X.
    rewrite P in X. injection X as ->. reflexivity.
Qed.

Lemma example_decimal : decimal_of 40 (str "40") /\ decimal_of 0 (str "0") /\ ~ decimal_of 4 (str "04").
Proof.
  split; [apply decimal_iff; [lia|reflexivity]|]. split; [apply decimal_iff; [lia|reflexivity]|].
  intros (_ & _ & [H|H] & _); [exact (H _ eq_refl)|discriminate].
Qed.
