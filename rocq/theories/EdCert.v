(* Generated by tools/gen_edcert.py.  Polynomial identities used for the group law
   on the Edwards curve; the cofactors are certificates checked by ring. *)
From Verif Require Export PrimeField.
Local Open Scope F_scope.

Lemma by_cert a b q1 r1 q2 r2 q3 r3 : a - b = q1 * r1 + q2 * r2 + q3 * r3 ->
  r1 = F0 -> r2 = F0 -> r3 = F0 -> a = b.
Proof. intros H -> -> ->. apply F_sub_0. rewrite H. ring. Qed.

Lemma cert_closure x1 y1 x2 y2 e : x1*x1*y1*y1 - e*(y1*y1 - x1*x1 - F1) = F0 -> x2*x2*y2*y2 - e*(y2*y2 - x2*x2 - F1) = F0 ->
  e*e*e*(x1*y2 + x2*y1)*(x1*y2 + x2*y1)*(y1*y2 + x1*x2)*(y1*y2 + x1*x2) =
  e*e*(y1*y2 + x1*x2)*(y1*y2 + x1*x2)*(e + x1*x2*y1*y2)*(e + x1*x2*y1*y2) - e*e*(x1*y2 + x2*y1)*(x1*y2 + x2*y1)*(e - x1*x2*y1*y2)*(e - x1*x2*y1*y2) - (e + x1*x2*y1*y2)*(e + x1*x2*y1*y2)*(e - x1*x2*y1*y2)*(e - x1*x2*y1*y2).
Proof.
  intros H1 H2.
  apply (by_cert _ _ (x1*x1*y1*y1*x2*x2*x2*x2*y2*y2*y2*y2 - x1*x1*x2*x2*x2*x2*y2*y2*y2*y2*e - x1*x1*x2*x2*x2*x2*y2*y2*e*e + x1*x1*x2*x2*y2*y2*y2*y2*e*e + y1*y1*x2*x2*x2*x2*y2*y2*y2*y2*e + y1*y1*x2*x2*x2*x2*y2*y2*e*e - y1*y1*x2*x2*y2*y2*y2*y2*e*e - toF 2*x2*x2*x2*x2*y2*y2*y2*y2*e*e - x2*x2*x2*x2*y2*y2*y2*y2*e - toF 2*x2*x2*x2*x2*y2*y2*e*e*e + x2*x2*x2*x2*e*e*e + toF 2*x2*x2*y2*y2*y2*y2*e*e*e - toF 4*x2*x2*y2*y2*e*e*e - toF 2*x2*x2*y2*y2*e*e + y2*y2*y2*y2*e*e*e) (x1*x1*y1*y1 - e*(y1*y1 - x1*x1 - F1))
    (x1*x1*x1*x1*x2*x2*y2*y2*e*e + toF 2*x1*x1*x2*x2*y2*y2*e*e*e + toF 2*x1*x1*x2*x2*y2*y2*e*e - x1*x1*x2*x2*e*e*e + x1*x1*y2*y2*e*e*e + y1*y1*y1*y1*x2*x2*y2*y2*e*e - toF 2*y1*y1*x2*x2*y2*y2*e*e*e - toF 2*y1*y1*x2*x2*y2*y2*e*e + y1*y1*x2*x2*e*e*e - y1*y1*y2*y2*e*e*e + toF 2*x2*x2*y2*y2*e*e*e + x2*x2*y2*y2*e*e - x2*x2*e*e*e + y2*y2*e*e*e + e*e*e) (x2*x2*y2*y2 - e*(y2*y2 - x2*x2 - F1))
    F0 F0); [ring|exact H1|exact H2|reflexivity].
Qed.

Lemma cert_assoc_x x1 y1 x2 y2 x3 y3 e : x1*x1*y1*y1 - e*(y1*y1 - x1*x1 - F1) = F0 -> x2*x2*y2*y2 - e*(y2*y2 - x2*x2 - F1) = F0 -> x3*x3*y3*y3 - e*(y3*y3 - x3*x3 - F1) = F0 ->
  ((x1*y2 + x2*y1)*(e - x1*x2*y1*y2)*y3 + x3*(y1*y2 + x1*x2)*(e + x1*x2*y1*y2))*((e + x2*x3*y2*y3)*(e - x2*x3*y2*y3) + e*(x2*y3 + x3*y2)*(y2*y3 + x2*x3)*x1*y1) =
  ((x2*y3 + x3*y2)*(e - x2*x3*y2*y3)*y1 + x1*(y2*y3 + x2*x3)*(e + x2*x3*y2*y3))*((e + x1*x2*y1*y2)*(e - x1*x2*y1*y2) + e*(x1*y2 + x2*y1)*(y1*y2 + x1*x2)*x3*y3).
Proof.
  intros H1 H2 H3.
  apply (by_cert _ _ (x1*x2*x2*x2*x2*y2*y2*y2*x3*x3*y3 + x1*x2*x2*x2*x2*y2*x3*x3*y3*e + x1*x2*x2*x2*y2*y2*y2*y2*x3*y3*y3 + x1*x2*x2*x2*y2*y2*x3*x3*x3*e + x1*x2*x2*x2*y2*y2*x3*e - x1*x2*x2*y2*y2*y2*y3*y3*y3*e + x1*x2*x2*y2*y2*y2*y3*e - x1*x2*y2*y2*y2*y2*x3*y3*y3*e - y1*x2*x2*x2*x2*y2*y2*y2*x3*y3*y3 - y1*x2*x2*x2*x2*y2*x3*y3*y3*e - y1*x2*x2*x2*y2*y2*y2*y2*x3*x3*y3 - y1*x2*x2*x2*y2*y2*y3*y3*y3*e + y1*x2*x2*x2*y2*y2*y3*e + y1*x2*x2*y2*y2*y2*x3*x3*x3*e + y1*x2*x2*y2*y2*y2*x3*e + y1*x2*y2*y2*y2*y2*x3*x3*y3*e) (x1*x1*y1*y1 - e*(y1*y1 - x1*x1 - F1))
    (- x1*x1*x1*x2*x2*y2*x3*x3*y3*e - x1*x1*x1*x2*y2*y2*x3*y3*y3*e - x1*x1*x1*x2*x3*x3*x3*y3*y3*e - x1*x1*x1*x2*x3*x3*x3*e*e + x1*x1*x1*x2*x3*y3*y3*e*e - x1*x1*x1*x2*x3*e*e - x1*x1*x1*y2*x3*x3*y3*y3*y3*e - x1*x1*x1*y2*x3*x3*y3*e*e + x1*x1*x1*y2*y3*y3*y3*e*e - x1*x1*x1*y2*y3*e*e - x1*x1*y1*x2*x2*y2*x3*x3*x3*y3*y3 + x1*x1*y1*x2*x2*y2*x3*y3*y3*e + x1*x1*y1*x2*y2*y2*x3*x3*y3*y3*y3 + x1*x1*y1*x2*y2*y2*x3*x3*y3*e - x1*x1*y1*x2*x3*x3*y3*y3*y3*e - x1*x1*y1*x2*x3*x3*y3*e*e + x1*x1*y1*x2*y3*y3*y3*e*e - x1*x1*y1*x2*y3*e*e - x1*x1*y1*y2*x3*x3*x3*y3*y3*e - x1*x1*y1*y2*x3*x3*x3*e*e + x1*x1*y1*y2*x3*y3*y3*e*e - x1*x1*y1*y2*x3*e*e + x1*y1*y1*x2*x2*y2*x3*x3*y3*y3*y3 + x1*y1*y1*x2*x2*y2*x3*x3*y3*e - x1*y1*y1*x2*y2*y2*x3*x3*x3*y3*y3 + x1*y1*y1*x2*y2*y2*x3*y3*y3*e + x1*y1*y1*x2*x3*x3*x3*y3*y3*e + x1*y1*y1*x2*x3*x3*x3*e*e - x1*y1*y1*x2*x3*y3*y3*e*e + x1*y1*y1*x2*x3*e*e + x1*y1*y1*y2*x3*x3*y3*y3*y3*e + x1*y1*y1*y2*x3*x3*y3*e*e - x1*y1*y1*y2*y3*y3*y3*e*e + x1*y1*y1*y2*y3*e*e - x1*x2*x2*y2*x3*x3*y3*e - x1*x2*y2*y2*x3*y3*y3*e - x1*x2*x3*x3*x3*y3*y3*e - x1*x2*x3*x3*x3*e*e + x1*x2*x3*y3*y3*e*e - x1*x2*x3*e*e - x1*y2*x3*x3*y3*y3*y3*e - x1*y2*x3*x3*y3*e*e + x1*y2*y3*y3*y3*e*e - x1*y2*y3*e*e - y1*y1*y1*x2*x2*y2*x3*y3*y3*e - y1*y1*y1*x2*y2*y2*x3*x3*y3*e + y1*y1*y1*x2*x3*x3*y3*y3*y3*e + y1*y1*y1*x2*x3*x3*y3*e*e - y1*y1*y1*x2*y3*y3*y3*e*e + y1*y1*y1*x2*y3*e*e + y1*y1*y1*y2*x3*x3*x3*y3*y3*e + y1*y1*y1*y2*x3*x3*x3*e*e - y1*y1*y1*y2*x3*y3*y3*e*e + y1*y1*y1*y2*x3*e*e + y1*x2*x2*y2*x3*y3*y3*e + y1*x2*y2*y2*x3*x3*y3*e - y1*x2*x3*x3*y3*y3*y3*e - y1*x2*x3*x3*y3*e*e + y1*x2*y3*y3*y3*e*e - y1*x2*y3*e*e - y1*y2*x3*x3*x3*y3*y3*e - y1*y2*x3*x3*x3*e*e + y1*y2*x3*y3*y3*e*e - y1*y2*x3*e*e) (x2*x2*y2*y2 - e*(y2*y2 - x2*x2 - F1))
    (x1*x1*x1*x2*x2*x2*x3*e*e + x1*x1*x1*x2*x2*y2*y3*e*e - x1*x1*x1*x2*y2*y2*x3*e*e + x1*x1*x1*x2*x3*e*e - x1*x1*x1*y2*y2*y2*y3*e*e + x1*x1*x1*y2*y3*e*e + x1*x1*y1*x2*x2*x2*y3*e*e + x1*x1*y1*x2*x2*y2*x3*e*e + x1*x1*y1*x2*x2*y2*x3*e - x1*x1*y1*x2*y2*y2*y3*e*e - x1*x1*y1*x2*y2*y2*y3*e + x1*x1*y1*x2*y3*e*e - x1*x1*y1*y2*y2*y2*x3*e*e + x1*x1*y1*y2*x3*e*e - x1*y1*y1*x2*x2*x2*x3*e*e - x1*y1*y1*x2*x2*y2*y3*e*e - x1*y1*y1*x2*x2*y2*y3*e + x1*y1*y1*x2*y2*y2*x3*e*e + x1*y1*y1*x2*y2*y2*x3*e - x1*y1*y1*x2*x3*e*e + x1*y1*y1*y2*y2*y2*y3*e*e - x1*y1*y1*y2*y3*e*e + x1*x2*x2*x2*x3*e*e + x1*x2*x2*y2*y3*e*e - x1*x2*y2*y2*x3*e*e + x1*x2*x3*e*e - x1*y2*y2*y2*y3*e*e + x1*y2*y3*e*e - y1*y1*y1*x2*x2*x2*y3*e*e - y1*y1*y1*x2*x2*y2*x3*e*e + y1*y1*y1*x2*y2*y2*y3*e*e - y1*y1*y1*x2*y3*e*e + y1*y1*y1*y2*y2*y2*x3*e*e - y1*y1*y1*y2*x3*e*e + y1*x2*x2*x2*y3*e*e + y1*x2*x2*y2*x3*e*e - y1*x2*y2*y2*y3*e*e + y1*x2*y3*e*e - y1*y2*y2*y2*x3*e*e + y1*y2*x3*e*e) (x3*x3*y3*y3 - e*(y3*y3 - x3*x3 - F1))); [ring|exact H1|exact H2|exact H3].
Qed.

Lemma cert_assoc_y x1 y1 x2 y2 x3 y3 e : x1*x1*y1*y1 - e*(y1*y1 - x1*x1 - F1) = F0 -> x2*x2*y2*y2 - e*(y2*y2 - x2*x2 - F1) = F0 -> x3*x3*y3*y3 - e*(y3*y3 - x3*x3 - F1) = F0 ->
  ((y1*y2 + x1*x2)*y3*(e + x1*x2*y1*y2) + (x1*y2 + x2*y1)*x3*(e - x1*x2*y1*y2))*((e + x2*x3*y2*y3)*(e - x2*x3*y2*y3) - e*(x2*y3 + x3*y2)*(y2*y3 + x2*x3)*x1*y1) =
  ((y2*y3 + x2*x3)*y1*(e + x2*x3*y2*y3) + (x2*y3 + x3*y2)*x1*(e - x2*x3*y2*y3))*((e + x1*x2*y1*y2)*(e - x1*x2*y1*y2) - e*(x1*y2 + x2*y1)*(y1*y2 + x1*x2)*x3*y3).
Proof.
  intros H1 H2 H3.
  apply (by_cert _ _ (- x1*x2*x2*x2*x2*y2*y2*y2*x3*y3*y3 - x1*x2*x2*x2*x2*y2*x3*y3*y3*e - x1*x2*x2*x2*y2*y2*y2*y2*x3*x3*y3 - x1*x2*x2*x2*y2*y2*y3*y3*y3*e + x1*x2*x2*x2*y2*y2*y3*e + x1*x2*x2*y2*y2*y2*x3*x3*x3*e + x1*x2*x2*y2*y2*y2*x3*e + x1*x2*y2*y2*y2*y2*x3*x3*y3*e + y1*x2*x2*x2*x2*y2*y2*y2*x3*x3*y3 + y1*x2*x2*x2*x2*y2*x3*x3*y3*e + y1*x2*x2*x2*y2*y2*y2*y2*x3*y3*y3 + y1*x2*x2*x2*y2*y2*x3*x3*x3*e + y1*x2*x2*x2*y2*y2*x3*e - y1*x2*x2*y2*y2*y2*y3*y3*y3*e + y1*x2*x2*y2*y2*y2*y3*e - y1*x2*y2*y2*y2*y2*x3*y3*y3*e) (x1*x1*y1*y1 - e*(y1*y1 - x1*x1 - F1))
    (x1*x1*x1*x2*x2*y2*x3*y3*y3*e + x1*x1*x1*x2*y2*y2*x3*x3*y3*e - x1*x1*x1*x2*x3*x3*y3*y3*y3*e - x1*x1*x1*x2*x3*x3*y3*e*e + x1*x1*x1*x2*y3*y3*y3*e*e - x1*x1*x1*x2*y3*e*e - x1*x1*x1*y2*x3*x3*x3*y3*y3*e - x1*x1*x1*y2*x3*x3*x3*e*e + x1*x1*x1*y2*x3*y3*y3*e*e - x1*x1*x1*y2*x3*e*e - x1*x1*y1*x2*x2*y2*x3*x3*y3*y3*y3 - x1*x1*y1*x2*x2*y2*x3*x3*y3*e + x1*x1*y1*x2*y2*y2*x3*x3*x3*y3*y3 - x1*x1*y1*x2*y2*y2*x3*y3*y3*e - x1*x1*y1*x2*x3*x3*x3*y3*y3*e - x1*x1*y1*x2*x3*x3*x3*e*e + x1*x1*y1*x2*x3*y3*y3*e*e - x1*x1*y1*x2*x3*e*e - x1*x1*y1*y2*x3*x3*y3*y3*y3*e - x1*x1*y1*y2*x3*x3*y3*e*e + x1*x1*y1*y2*y3*y3*y3*e*e - x1*x1*y1*y2*y3*e*e + x1*y1*y1*x2*x2*y2*x3*x3*x3*y3*y3 - x1*y1*y1*x2*x2*y2*x3*y3*y3*e - x1*y1*y1*x2*y2*y2*x3*x3*y3*y3*y3 - x1*y1*y1*x2*y2*y2*x3*x3*y3*e + x1*y1*y1*x2*x3*x3*y3*y3*y3*e + x1*y1*y1*x2*x3*x3*y3*e*e - x1*y1*y1*x2*y3*y3*y3*e*e + x1*y1*y1*x2*y3*e*e + x1*y1*y1*y2*x3*x3*x3*y3*y3*e + x1*y1*y1*y2*x3*x3*x3*e*e - x1*y1*y1*y2*x3*y3*y3*e*e + x1*y1*y1*y2*x3*e*e + x1*x2*x2*y2*x3*y3*y3*e + x1*x2*y2*y2*x3*x3*y3*e - x1*x2*x3*x3*y3*y3*y3*e - x1*x2*x3*x3*y3*e*e + x1*x2*y3*y3*y3*e*e - x1*x2*y3*e*e - x1*y2*x3*x3*x3*y3*y3*e - x1*y2*x3*x3*x3*e*e + x1*y2*x3*y3*y3*e*e - x1*y2*x3*e*e + y1*y1*y1*x2*x2*y2*x3*x3*y3*e + y1*y1*y1*x2*y2*y2*x3*y3*y3*e + y1*y1*y1*x2*x3*x3*x3*y3*y3*e + y1*y1*y1*x2*x3*x3*x3*e*e - y1*y1*y1*x2*x3*y3*y3*e*e + y1*y1*y1*x2*x3*e*e + y1*y1*y1*y2*x3*x3*y3*y3*y3*e + y1*y1*y1*y2*x3*x3*y3*e*e - y1*y1*y1*y2*y3*y3*y3*e*e + y1*y1*y1*y2*y3*e*e - y1*x2*x2*y2*x3*x3*y3*e - y1*x2*y2*y2*x3*y3*y3*e - y1*x2*x3*x3*x3*y3*y3*e - y1*x2*x3*x3*x3*e*e + y1*x2*x3*y3*y3*e*e - y1*x2*x3*e*e - y1*y2*x3*x3*y3*y3*y3*e - y1*y2*x3*x3*y3*e*e + y1*y2*y3*y3*y3*e*e - y1*y2*y3*e*e) (x2*x2*y2*y2 - e*(y2*y2 - x2*x2 - F1))
    (x1*x1*x1*x2*x2*x2*y3*e*e + x1*x1*x1*x2*x2*y2*x3*e*e - x1*x1*x1*x2*y2*y2*y3*e*e + x1*x1*x1*x2*y3*e*e - x1*x1*x1*y2*y2*y2*x3*e*e + x1*x1*x1*y2*x3*e*e + x1*x1*y1*x2*x2*x2*x3*e*e + x1*x1*y1*x2*x2*y2*y3*e*e + x1*x1*y1*x2*x2*y2*y3*e - x1*x1*y1*x2*y2*y2*x3*e*e - x1*x1*y1*x2*y2*y2*x3*e + x1*x1*y1*x2*x3*e*e - x1*x1*y1*y2*y2*y2*y3*e*e + x1*x1*y1*y2*y3*e*e - x1*y1*y1*x2*x2*x2*y3*e*e - x1*y1*y1*x2*x2*y2*x3*e*e - x1*y1*y1*x2*x2*y2*x3*e + x1*y1*y1*x2*y2*y2*y3*e*e + x1*y1*y1*x2*y2*y2*y3*e - x1*y1*y1*x2*y3*e*e + x1*y1*y1*y2*y2*y2*x3*e*e - x1*y1*y1*y2*x3*e*e + x1*x2*x2*x2*y3*e*e + x1*x2*x2*y2*x3*e*e - x1*x2*y2*y2*y3*e*e + x1*x2*y3*e*e - x1*y2*y2*y2*x3*e*e + x1*y2*x3*e*e - y1*y1*y1*x2*x2*x2*x3*e*e - y1*y1*y1*x2*x2*y2*y3*e*e + y1*y1*y1*x2*y2*y2*x3*e*e - y1*y1*y1*x2*x3*e*e + y1*y1*y1*y2*y2*y2*y3*e*e - y1*y1*y1*y2*y3*e*e + y1*x2*x2*x2*x3*e*e + y1*x2*x2*y2*y3*e*e - y1*x2*y2*y2*x3*e*e + y1*x2*x3*e*e - y1*y2*y2*y2*y3*e*e + y1*y2*y3*e*e) (x3*x3*y3*y3 - e*(y3*y3 - x3*x3 - F1))); [ring|exact H1|exact H2|exact H3].
Qed.

Lemma cert_diff x1 y1 x2 y2 e : x1*x1*y1*y1 - e*(y1*y1 - x1*x1 - F1) = F0 -> x2*x2*y2*y2 - e*(y2*y2 - x2*x2 - F1) = F0 ->
  (y1 + y2)*(y1 + y2)*((e - x1*x2*y1*y2) - e*(y1*y2 + x1*x2))*((e + x1*x2*y1*y2) - e*(y1*y2 - x1*x2)) =
  (y2 - y1)*(y2 - y1)*((e - x1*x2*y1*y2) + e*(y1*y2 + x1*x2))*((e + x1*x2*y1*y2) + e*(y1*y2 - x1*x2)).
Proof.
  intros H1 H2.
  apply (by_cert _ _ (- toF 4*y1*x2*x2*y2*y2*y2 - toF 4*y1*x2*x2*y2*e) (x1*x1*y1*y1 - e*(y1*y1 - x1*x1 - F1))
    (- toF 4*y1*y1*y1*y2*e + toF 4*y1*y2*e) (x2*x2*y2*y2 - e*(y2*y2 - x2*x2 - F1))
    F0 F0); [ring|exact H1|exact H2|reflexivity].
Qed.
