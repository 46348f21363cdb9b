(* Elementary number theory used for the field: Fermat's little theorem and
   Pocklington's primality criterion. *)
From Coq Require Export ZArith Znumtheory Zpow_facts List Permutation Lia Bool.
Export ListNotations.
Open Scope Z_scope.

Definition residues (p : Z) : list Z := map Z.of_nat (seq 1 (Z.to_nat (p - 1))).
Definition prodz (l : list Z) : Z := fold_right Z.mul 1 l.

Lemma in_residues p x : In x (residues p) <-> 1 <= x < p.
Proof.
  unfold residues. rewrite in_map_iff. split.
  - intros (n & <- & H). apply in_seq in H. lia.
  - intros H. exists (Z.to_nat x). split; [lia|]. apply in_seq. lia.
Qed.
Lemma NoDup_residues p : NoDup (residues p).
Proof. unfold residues. apply FinFun.Injective_map_NoDup; [intros a b; lia|apply seq_NoDup]. Qed.
Lemma prodz_perm l l' : Permutation l l' -> prodz l = prodz l'.
Proof. unfold prodz. induction 1; cbn [fold_right]; lia. Qed.
Lemma prodz_map p a l : p <> 0 -> prodz (map (fun i => (a * i) mod p) l) mod p = (a ^ Z.of_nat (length l) * prodz l) mod p.
Proof.
  intro Hp. induction l as [|x l IH]; [reflexivity|].
  cbn [map prodz fold_right length] in *. unfold prodz in *. cbn [fold_right].
  rewrite Zmult_mod, IH, Z.mod_mod, <- Zmult_mod by exact Hp.
  f_equal. rewrite Nat2Z.inj_succ, Z.pow_succ_r by lia. ring.
Qed.
Lemma prodz_prime p l : prime p -> (p | prodz l) -> exists x, In x l /\ (p | x).
Proof.
  intros Hp. induction l as [|x l IH]; intro H.
  - cbn in H. exfalso. destruct Hp as [H1 _]. apply Z.divide_1_r_nonneg in H; lia.
  - unfold prodz in *. cbn [fold_right] in H. apply prime_mult in H; [|exact Hp]. destruct H as [H|H].
    + exists x. split; [left; reflexivity|exact H].
    + destruct (IH H) as (y & I & D). exists y. split; [right; exact I|exact D].
Qed.

Lemma mod_divide_sub a b p : 0 < p -> a mod p = b mod p <-> (p | a - b).
Proof.
  intro Hp. split.
  - intro H. apply Z.mod_divide; [lia|]. rewrite Zminus_mod, H, Z.sub_diag. apply Z.mod_0_l. lia.
  - intros [k E]. replace a with (b + k * p) by lia. apply Z.mod_add. lia.
Qed.

Theorem fermat p a : prime p -> ~ (p | a) -> a ^ (p - 1) mod p = 1.
Proof.
  intros Hp Ha. assert (Hp1 : 1 < p) by (destruct Hp; assumption).
  set (f := fun i => (a * i) mod p).
  assert (N : NoDup (map f (residues p))).
  { assert (G : forall l, (forall x, In x l -> 1 <= x < p) -> NoDup l -> NoDup (map f l)).
    { induction l as [|x l IH]; intros Hl Hd; [constructor|]. inversion Hd as [|? ? X Y]; subst. cbn [map]. constructor.
      - intro I. apply in_map_iff in I. destruct I as (y & E & I). apply X.
        assert (x = y); [|subst; exact I]. unfold f in E. symmetry in E. apply mod_divide_sub in E; [|lia].
        replace (a * x - a * y) with (a * (x - y)) in E by ring. apply prime_mult in E; [|exact Hp]. destruct E as [E|E]; [contradiction|].
        pose proof (Hl x (or_introl eq_refl)). pose proof (Hl y (or_intror I)). destruct E as [k E]. assert (k = 0) by nia. lia.
      - apply IH; [|exact Y]. intros z Hz. apply Hl. right. exact Hz. }
    apply G; [|apply NoDup_residues]. intros x Hx. apply in_residues. exact Hx. }
  assert (I : incl (map f (residues p)) (residues p)).
  { intros x Hx. apply in_map_iff in Hx. destruct Hx as (y & <- & Hy). apply in_residues in Hy. apply in_residues. unfold f.
    pose proof (Z.mod_pos_bound (a * y) p ltac:(lia)). assert ((a * y) mod p <> 0); [|lia].
    intro E. apply Z.mod_divide in E; [|lia]. apply prime_mult in E; [|exact Hp]. destruct E as [E|E]; [contradiction|].
    apply Z.divide_pos_le in E; lia. }
  assert (P : Permutation (map f (residues p)) (residues p)).
  { apply NoDup_Permutation_bis; [exact N|rewrite map_length; lia|exact I]. }
  apply prodz_perm in P. pose proof (prodz_map p a (residues p) ltac:(lia)) as M. fold f in M. rewrite P in M.
  unfold residues at 2 in M. rewrite map_length, seq_length, Z2Nat.id in M by lia.
  apply mod_divide_sub in M; [|lia].
  replace (prodz (residues p) - a ^ (p - 1) * prodz (residues p)) with ((1 - a ^ (p - 1)) * prodz (residues p)) in M by ring.
  apply prime_mult in M; [|exact Hp]. destruct M as [M|M].
  - apply mod_divide_sub in M; [|lia]. rewrite <- M. apply Z.mod_small. lia.
  - exfalso. apply prodz_prime in M; [|exact Hp]. destruct M as (x & Hx & D). apply in_residues in Hx.
    apply Z.divide_pos_le in D; lia.
Qed.

(* every number above 1 has a prime divisor *)
Lemma prime_divisor_nat n : forall z, 1 < z -> z < Z.of_nat n -> exists q, prime q /\ (q | z).
Proof.
  induction n as [|n IH]; intros z H1 H2; [lia|].
  destruct (prime_dec z) as [P|P]; [exists z; split; [exact P|exists 1; lia]|].
  apply not_prime_divide in P; [|exact H1]. destruct P as (q & Hq & D).
  destruct (IH q) as (r & Pr & Dr); [lia|lia|]. exists r. split; [exact Pr|]. apply (Z.divide_trans _ q); assumption.
Qed.
Lemma prime_divisor z : 1 < z -> exists q, prime q /\ (q | z).
Proof. intro H. apply (prime_divisor_nat (S (Z.to_nat z)) z H). lia. Qed.

Lemma prime_if_large_divisors n b : 1 < n -> n < b * b -> 0 < b -> (forall r, prime r -> (r | n) -> b <= r) -> prime n.
Proof.
  intros H1 H2 Hb H. destruct (prime_dec n) as [P|P]; [exact P|exfalso].
  apply not_prime_divide in P; [|exact H1]. destruct P as (q & Hq & [k E]).
  destruct (prime_divisor q) as (r & Pr & Dr); [lia|]. assert (R : b <= r) by (apply H; [exact Pr|apply (Z.divide_trans _ q); [exact Dr|exists k; exact E]]).
  assert (b <= q) by (apply Z.divide_pos_le in Dr; lia).
  assert (1 < k) by nia.
  destruct (prime_divisor k) as (s & Ps & Ds); [lia|]. assert (b <= s) by (apply H; [exact Ps|apply (Z.divide_trans _ k); [exact Ds|exists q; lia]]).
  assert (b <= k) by (apply Z.divide_pos_le in Ds; lia). nia.
Qed.

Lemma pow_mod_l a k m : 0 < m -> (a mod m) ^ k mod m = a ^ k mod m.
Proof. intro H. symmetry. apply Zpower_mod. exact H. Qed.
Lemma pow_one_mod b k m : 1 < m -> 0 <= k -> b mod m = 1 -> b ^ k mod m = 1.
Proof. intros Hm Hk H. rewrite Zpower_mod, H, Z.pow_1_l by lia. apply Z.mod_small. lia. Qed.

Lemma prime_pow_divides r a m : prime r -> 0 <= m -> (r | a ^ m) -> (r | a).
Proof.
  intros Pr Hm. pattern m. apply natlike_ind; [| |exact Hm].
  - rewrite Z.pow_0_r. intro X. destruct Pr as [H _]. apply Z.divide_pos_le in X; lia.
  - intros k Hk IH H. rewrite Z.pow_succ_r in H by exact Hk. apply prime_mult in H; [|exact Pr]. destruct H; auto.
Qed.

(* one step of Pocklington: a prime q divides r-1 for every prime divisor r of n *)
Lemma pocklington_step n a q r : prime q -> prime r -> (r | n) -> 1 < n -> (q | n - 1) ->
  a ^ (n - 1) mod n = 1 -> Z.gcd (a ^ ((n - 1) / q) - 1) n = 1 -> (q | r - 1).
Proof.
  intros Pq Pr Dr Hn Dq E1 E2.
  assert (Hr : 1 < r) by (destruct Pr; assumption). assert (Hq : 1 < q) by (destruct Pq; assumption).
  destruct (Zdivide_dec q (r - 1)) as [D|D]; [exact D|exfalso].
  assert (RP : rel_prime q (r - 1)) by (apply prime_rel_prime; assumption).
  destruct Dq as [m Em]. assert (Em' : (n - 1) / q = m) by (rewrite Em; apply Z.div_mul; lia).
  rewrite Em' in E2. assert (Hm : 0 <= m) by nia.
  assert (D1 : (r | a ^ (n - 1) - 1)).
  { apply (Z.divide_trans _ n); [exact Dr|]. apply mod_divide_sub; [lia|]. rewrite E1. symmetry. apply Z.mod_small. lia. }
  assert (E1r : a ^ (n - 1) mod r = 1).
  { transitivity (1 mod r); [apply mod_divide_sub; [lia|exact D1]|apply Z.mod_small; lia]. }
  assert (Ra : ~ (r | a)).
  { intro X. assert (Y : (r | a ^ (n - 1))).
    { replace (n - 1) with (Z.succ (n - 2)) by lia. rewrite Z.pow_succ_r by lia. apply Z.divide_mul_l. exact X. }
    assert (Z1 : (r | 1)) by (replace 1 with (a ^ (n - 1) - (a ^ (n - 1) - 1)) by ring; apply Z.divide_sub_r; assumption).
    apply Z.divide_pos_le in Z1; lia. }
  set (b := a ^ m) in *.
  assert (Rb : ~ (r | b)).
  { intro X. apply Ra. exact (prime_pow_divides r a m Pr Hm X). }
  assert (Bq : b ^ q mod r = 1) by (unfold b; rewrite <- Z.pow_mul_r, <- Em by lia; exact E1r).
  assert (Br : b ^ (r - 1) mod r = 1) by (apply fermat; assumption).
  apply rel_prime_bezout in RP. destruct RP as [u v Huv].
  set (s := u + (Z.abs u + 1) * (r - 1)). set (t := (Z.abs u + 1) * q - v).
  assert (Hst : s * q = t * (r - 1) + 1) by (unfold s, t; lia).
  assert (Hs : 1 <= s).
  { unfold s. assert (Z.abs u + 1 <= (Z.abs u + 1) * (r - 1)) by (clear - Hr; nia). lia. }
  assert (Ht : 0 <= t) by (clear - Hst Hs Hr Hq; nia).
  assert (B1 : b ^ (s * q) mod r = 1) by (rewrite Z.mul_comm, Z.pow_mul_r by lia; apply pow_one_mod; lia).
  assert (B2 : b ^ (t * (r - 1)) mod r = 1) by (rewrite Z.mul_comm, Z.pow_mul_r by lia; apply pow_one_mod; lia).
  rewrite Hst, Z.pow_add_r, Z.pow_1_r in B1 by lia.
  rewrite Zmult_mod, B2, Z.mul_1_l, Z.mod_mod in B1 by lia.
  assert (D2 : (r | b - 1)) by (apply mod_divide_sub; [lia|]; rewrite B1; symmetry; apply Z.mod_small; lia).
  assert (D3 : (r | 1)) by (rewrite <- E2; apply Z.gcd_greatest; assumption).
  apply Z.divide_pos_le in D3; lia.
Qed.

(* n-1 has distinct prime factors q1, q2 with q1*q2 >= sqrt n *)
Lemma pocklington1 n a q : prime q -> 1 < n -> n < (q + 1) * (q + 1) -> (n - 1) mod q = 0 ->
  a ^ (n - 1) mod n = 1 -> Z.gcd (a ^ ((n - 1) / q) - 1) n = 1 -> prime n.
Proof.
  intros Pq Hn Hs D E1 E2. assert (Hq : 1 < q) by (destruct Pq; assumption).
  apply (prime_if_large_divisors n (q + 1)); [exact Hn|exact Hs|lia|].
  intros r Pr Dr. assert (Hr : 1 < r) by (destruct Pr; assumption).
  assert (X : (q | r - 1)) by (apply (pocklington_step n a); try assumption; apply Z.mod_divide; [lia|exact D]).
  apply Z.divide_pos_le in X; lia.
Qed.
Lemma pocklington2 n a q1 q2 : prime q1 -> prime q2 -> q1 <> q2 -> 1 < n -> n < (q1 * q2 + 1) * (q1 * q2 + 1) ->
  (n - 1) mod q1 = 0 -> (n - 1) mod q2 = 0 ->
  a ^ (n - 1) mod n = 1 -> Z.gcd (a ^ ((n - 1) / q1) - 1) n = 1 -> Z.gcd (a ^ ((n - 1) / q2) - 1) n = 1 -> prime n.
Proof.
  intros P1 P2 Nq Hn Hs D1 D2 E E1 E2. assert (Hq1 : 1 < q1) by (destruct P1; assumption). assert (Hq2 : 1 < q2) by (destruct P2; assumption).
  apply (prime_if_large_divisors n (q1 * q2 + 1)); [exact Hn|exact Hs|nia|].
  intros r Pr Dr. assert (Hr : 1 < r) by (destruct Pr; assumption).
  assert (X1 : (q1 | r - 1)) by (apply (pocklington_step n a); try assumption; apply Z.mod_divide; [lia|exact D1]).
  assert (X2 : (q2 | r - 1)) by (apply (pocklington_step n a); try assumption; apply Z.mod_divide; [lia|exact D2]).
  destruct X1 as [k Ek]. rewrite Ek in X2. apply prime_mult in X2; [|exact P2]. destruct X2 as [[j Ej]|X2].
  - rewrite Ej in Ek. clear - Ek Hr Hq1 Hq2. assert (1 <= j).
    { destruct (Z.lt_ge_cases j 1) as [C|C]; [|exact C]. exfalso. assert (j * (q2 * q1) <= 0) by (apply Z.mul_nonpos_nonneg; nia). lia. }
    assert (1 * (q2 * q1) <= j * (q2 * q1)) by (apply Z.mul_le_mono_nonneg_r; nia). lia.
  - exfalso. apply Nq. symmetry. apply (prime_div_prime q2 q1); assumption.
Qed.

(* executable forms *)
Definition powm (a e n : Z) : Z := Zpow_mod a e n.
Lemma powm_ok a e n : 0 < n -> powm a e n = a ^ e mod n.
Proof. intro H. apply Zpow_mod_correct. lia. Qed.
Lemma gcd_powm a e n : 0 < n -> Z.gcd (powm a e n - 1) n = 1 -> Z.gcd (a ^ e - 1) n = 1.
Proof.
  intros Hn H. rewrite powm_ok in H by exact Hn.
  assert (G : forall y, Z.gcd y n = Z.gcd (y mod n) n) by (intro y; rewrite Z.gcd_mod by lia; apply Z.gcd_comm).
  rewrite G, Zminus_mod_idemp_l, <- G in H. exact H.
Qed.
Definition check1 (n a q : Z) : bool :=
  (1 <? n) && (n <? (q + 1) * (q + 1)) && ((n - 1) mod q =? 0) && (powm a (n - 1) n =? 1) && (Z.gcd (powm a ((n - 1) / q) n - 1) n =? 1).
Lemma check1_ok n a q : check1 n a q = true -> prime q -> prime n.
Proof.
  unfold check1. rewrite !andb_true_iff, !Z.ltb_lt, !Z.eqb_eq. intros [[[[H1 H2] H3] H4] H5] P.
  apply (pocklington1 n a q P H1 H2 H3); [rewrite <- powm_ok by lia; exact H4|apply gcd_powm; [lia|exact H5]].
Qed.
(* the same with a faster reduction, any map that preserves residues *)
Fixpoint powr_pos (red : Z -> Z) (a : Z) (e : positive) : Z :=
  match e with
  | xH => a
  | xO e => let s := powr_pos red a e in red (s * s)
  | xI e => let s := powr_pos red a e in red (a * red (s * s))
  end.
Definition powr (red : Z -> Z) (a e : Z) : Z := match e with Zpos e => powr_pos red a e | _ => 1 end.
Lemma powr_ok red n a e : 0 < n -> (forall x, red x mod n = x mod n) -> 0 <= e -> powr red a e mod n = a ^ e mod n.
Proof.
  intros Hn R He. destruct e as [|e|e]; [reflexivity| |lia]. cbn [powr]. clear He.
  assert (S : forall s k, 0 <= k -> s mod n = a ^ k mod n -> red (s * s) mod n = a ^ (2 * k) mod n).
  { intros s k Hk Hs. rewrite R, Z.mul_mod, Hs, <- Z.mul_mod, <- Z.pow_add_r by lia. do 2 f_equal. lia. }
  induction e as [e IH|e IH|]; cbn [powr_pos]; cbv zeta.
  - rewrite R, Z.mul_mod, (S _ (Zpos e) ltac:(lia) IH), <- Z.mul_mod by lia. rewrite <- Z.pow_succ_r by lia. do 2 f_equal.
  - rewrite (S _ (Zpos e) ltac:(lia) IH). reflexivity.
  - rewrite Z.pow_1_r. reflexivity.
Qed.
Definition check1r (red : Z -> Z) (n a q : Z) : bool :=
  let c0 := powr red a ((n - 1) / q) in
  (1 <? n) && (n <? (q + 1) * (q + 1)) && ((n - 1) mod q =? 0) && (powr red c0 q mod n =? 1) && (Z.gcd (c0 - 1) n =? 1).
Lemma check1r_ok red n a q : (forall x, red x mod n = x mod n) -> check1r red n a q = true -> prime q -> prime n.
Proof.
  unfold check1r. cbv zeta. rewrite !andb_true_iff, !Z.ltb_lt, !Z.eqb_eq. intros R [[[[H1 H2] H3] H4] H5] P.
  assert (Hq : 1 < q) by (destruct P; assumption). assert (Hd : 0 <= (n - 1) / q) by (apply Z.div_pos; lia).
  assert (E : powr red a ((n - 1) / q) mod n = a ^ ((n - 1) / q) mod n) by (apply powr_ok; [lia|exact R|exact Hd]).
  apply (pocklington1 n a q P H1 H2 H3).
  - rewrite powr_ok in H4 by (try exact R; lia). rewrite <- pow_mod_l, E, pow_mod_l, <- Z.pow_mul_r in H4 by lia.
    replace ((n - 1) / q * q) with (n - 1) in H4; [exact H4|]. rewrite Z.mul_comm. apply Z.div_exact; [lia|exact H3].
  - assert (G : forall y, Z.gcd y n = Z.gcd (y mod n) n) by (intro y; rewrite Z.gcd_mod by lia; apply Z.gcd_comm).
    rewrite G, <- Zminus_mod_idemp_l, E, Zminus_mod_idemp_l, <- G in H5. exact H5.
Qed.
Lemma powm_powm a e k n : 0 < n -> 0 <= e -> 0 <= k -> powm (powm a e n) k n = powm a (e * k) n.
Proof. intros Hn He Hk. rewrite !powm_ok by exact Hn. rewrite pow_mod_l by exact Hn. rewrite Z.pow_mul_r by assumption. reflexivity. Qed.
Definition check2 (n a q1 q2 : Z) : bool :=
  let m := (n - 1) / (q1 * q2) in
  let c0 := powm a m n in
  let c1 := powm c0 q2 n in
  let c2 := powm c0 q1 n in
  (1 <? n) && (1 <? q1) && (1 <? q2) && (n <? (q1 * q2 + 1) * (q1 * q2 + 1)) && (n - 1 =? m * (q1 * q2)) && (powm c2 q2 n =? 1) &&
  (Z.gcd (c1 - 1) n =? 1) && (Z.gcd (c2 - 1) n =? 1) && negb (q1 =? q2).
Lemma check2_ok n a q1 q2 : check2 n a q1 q2 = true -> prime q1 -> prime q2 -> prime n.
Proof.
  unfold check2. set (m := (n - 1) / (q1 * q2)). rewrite !andb_true_iff, negb_true_iff, !Z.ltb_lt, !Z.eqb_eq, Z.eqb_neq.
  intros [[[[[[[[H1 K1] K2] H2] H3] H5] H6] H7] H8] P1 P2. clearbody m.
  assert (Hm : 0 <= m) by (assert (0 < q1 * q2) by nia; nia).
  assert (N1 : n - 1 = m * q2 * q1) by lia. assert (N2 : n - 1 = m * q1 * q2) by lia.
  rewrite !powm_powm in H5 by nia. rewrite powm_powm in H6, H7 by lia.
  apply (pocklington2 n a q1 q2 P1 P2 H8 H1 H2).
  - rewrite N1. apply Z.mod_mul. lia.
  - rewrite N2. apply Z.mod_mul. lia.
  - rewrite <- powm_ok by lia. rewrite <- H5. f_equal. lia.
  - apply gcd_powm; [lia|]. rewrite N1, Z.div_mul by lia. exact H6.
  - apply gcd_powm; [lia|]. rewrite N2, Z.div_mul by lia. exact H7.
Qed.

(* trial division for small numbers *)
Fixpoint no_div (n d : Z) (fuel : nat) : bool :=
  match fuel with O => false | S f => if n <? d * d then true else negb (n mod d =? 0) && no_div n (d + 1) f end.
Lemma no_div_ok n : forall fuel d, 1 < d -> no_div n d fuel = true -> (forall r, 1 < r < d -> ~ (r | n)) -> 1 < n ->
  prime n.
Proof.
  induction fuel as [|f IH]; intros d Hd H Hr Hn; cbn [no_div] in H; [discriminate|].
  destruct (n <? d * d) eqn:E.
  - apply Z.ltb_lt in E. apply (prime_if_large_divisors n d Hn E); [lia|]. intros r Pr Dr. assert (1 < r) by (destruct Pr; assumption).
    destruct (Z.lt_ge_cases r d) as [C|C]; [|exact C]. exfalso. apply (Hr r); [lia|exact Dr].
  - apply andb_true_iff in H. destruct H as [H1 H2]. apply negb_true_iff, Z.eqb_neq in H1.
    apply (IH (d + 1)); [lia|exact H2| |exact Hn]. intros r R D. destruct (Z.eq_dec r d) as [->|N]; [|apply (Hr r); [lia|exact D]].
    apply H1. apply Z.mod_divide; [lia|exact D].
Qed.
Lemma small_prime n fuel : (1 <? n) && no_div n 2 fuel = true -> prime n.
Proof. intro H. apply andb_true_iff in H. destruct H as [H1 H2]. apply Z.ltb_lt in H1. apply (no_div_ok n fuel 2); [lia|exact H2|intros; lia|exact H1]. Qed.

(* ---- the primes behind 2^255-19 ---- *)
Lemma prime_8574133 : prime 8574133.
Proof. apply (small_prime _ 3000). vm_compute. reflexivity. Qed.
Lemma prime_127 : prime 127.
Proof. apply (small_prime _ 20). vm_compute. reflexivity. Qed.
Lemma prime_75707 : prime 75707.
Proof. apply (small_prime _ 300). vm_compute. reflexivity. Qed.
Lemma prime_132049 : prime 132049.
Proof. apply (small_prime _ 400). vm_compute. reflexivity. Qed.
Lemma prime_P3 : prime 1919519569386763.
Proof. apply (check2_ok _ 2 8574133 127); [vm_compute; reflexivity|exact prime_8574133|exact prime_127]. Qed.
Lemma prime_P2 : prime 75445702479781427272750846543864801.
Proof. apply (check2_ok _ 2 1919519569386763 75707); [vm_compute; reflexivity|exact prime_P3|exact prime_75707]. Qed.
Lemma prime_P1 : prime 74058212732561358302231226437062788676166966415465897661863160754340907.
Proof. apply (check2_ok _ 2 75445702479781427272750846543864801 132049); [vm_compute; reflexivity|exact prime_P2|exact prime_132049]. Qed.
(* 2^255 is 19 modulo p *)
Definition fold_255_19 (n : Z) : Z :=
  Z.land n 57896044618658097711785492504343953926634992332820282019728792003956564819967 + 19 * Z.shiftr n 255.
Lemma fold_255_19_ok n : fold_255_19 n mod (2 ^ 255 - 19) = n mod (2 ^ 255 - 19).
Proof.
  unfold fold_255_19. change 57896044618658097711785492504343953926634992332820282019728792003956564819967 with (Z.ones 255).
  rewrite Z.land_ones, Z.shiftr_div_pow2 by lia. pose proof (Z.div_mod n (2 ^ 255) ltac:(lia)) as D.
  replace (n mod 2 ^ 255 + 19 * (n / 2 ^ 255)) with (n + (- (n / 2 ^ 255)) * (2 ^ 255 - 19)) by lia. apply Z.mod_add. lia.
Qed.
Lemma prime_2_255_19 : prime (2 ^ 255 - 19).
Proof.
  apply (check1r_ok (fun n => fold_255_19 (fold_255_19 n)) _ 2 74058212732561358302231226437062788676166966415465897661863160754340907).
  - intro x. rewrite !fold_255_19_ok. reflexivity.
  - vm_compute. reflexivity.
  - exact prime_P1.
Qed.
