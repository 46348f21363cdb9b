(* Proofs about CodeDouble.v. *)
From Verif Require Import CodeLeaf ScalarFacts ScalarRedFacts PointerFacts PointerMult StepFacts FieldBytes PointerTop PointBytes CodeFacts CodeWholeFacts SpecWhole CodeDouble.
Local Open Scope string_scope.
Local Open Scope list_scope.
Local Open Scope Z_scope.

Lemma put_len l k v : (k < length l)%nat -> length (ScalarMult.put l k v) = length l.
Proof. intro H. unfold ScalarMult.put. rewrite app_length. cbn [length]. rewrite firstn_length_le, skipn_length by lia. lia. Qed.
Lemma contains_intro m l z : (forall i, (i < length z)%nat -> m l (Z.of_nat i) = nth i z 0) -> contains m l z.
Proof.
  intro H. apply (nth_ext _ _ 0 0); [now rewrite map_length, seq_length|]. intros i L. rewrite map_length, seq_length in L.
  rewrite (nth_indep _ 0 (m l (Z.of_nat 0))) by now rewrite map_length, seq_length.
  rewrite (map_nth (fun j => m l (Z.of_nat j))), seq_nth by exact L. now apply H.
Qed.
Lemma peek_at m l z i : contains m l z -> (i < length z)%nat -> peek l i m = at_ z i.
Proof. apply contains_nth. Qed.

(* the array holds these 256 digits, and nothing else has changed *)
Definition digits (r : loc) (m0 m : arrays) (z : list Z) : Prop := contains m r z /\ length z = 256%nat /\ only_at [r] m0 m.
Lemma poke_digits r m0 m z i v : digits r m0 m z -> (i < 256)%nat -> digits r m0 (poke r i v m) (ScalarMult.put z i v).
Proof.
  intros (C & L & O) H. split; [|split].
  - apply contains_intro. rewrite put_len by lia. intros j J. unfold poke. rewrite loc_eqb_refl, Bool.andb_true_r.
    change (nth j (ScalarMult.put z i v) 0) with (at_ (ScalarMult.put z i v) j).
    destruct (Z.eqb_spec (Z.of_nat j) (Z.of_nat i)) as [E|E].
    + apply Nat2Z.inj in E. subst j. now rewrite at_put_same by lia.
    + rewrite at_put_other by lia. now apply contains_nth.
  - now rewrite put_len by lia.
  - intros x j N. unfold poke. rewrite (loc_eqb_ne x r) by (intros ->; apply N; now left). rewrite Bool.andb_false_r. now apply O.
Qed.
Lemma carry_digits r m0 fuel : forall k m z, (fuel + k = 256)%nat -> digits r m0 m z -> digits r m0 (carry_prog fuel k r m) (slide_carry fuel k z).
Proof.
  induction fuel as [|fuel IH]; intros k m z E D; [exact D|]. cbn [carry_prog slide_carry].
  rewrite (peek_at m r z k (proj1 D)) by (rewrite (proj1 (proj2 D)); lia).
  destruct (at_ z k =? 0); [apply poke_digits; [exact D|lia]|]. apply IH; [lia|]. apply poke_digits; [exact D|lia].
Qed.
Lemma inner_digits r m0 i fuel : forall b m z, (i < 256)%nat -> digits r m0 m z -> digits r m0 (inner_prog fuel i b r m) (slide_inner fuel 256 i b z).
Proof.
  induction fuel as [|fuel IH]; intros b m z Hi D; [exact D|]. cbn [inner_prog slide_inner].
  destruct (Nat.ltb_spec (i + b) 256) as [Hb|Hb]; [|exact D]. cbv zeta.
  rewrite (peek_at m r z (i + b) (proj1 D)), (peek_at m r z i (proj1 D)) by (rewrite (proj1 (proj2 D)); lia).
  destruct (at_ z (i + b) =? 0); [now apply IH|].
  destruct (i8 (at_ z i + i8 (Z.shiftl (at_ z (i + b)) (Z.of_nat b))) <=? 15).
  - apply IH; [exact Hi|]. apply poke_digits; [|exact Hb]. now apply poke_digits.
  - destruct (-15 <=? i8 (at_ z i - i8 (Z.shiftl (at_ z (i + b)) (Z.of_nat b)))); [|exact D].
    apply IH; [exact Hi|]. apply carry_digits; [lia|]. now apply poke_digits.
Qed.
Lemma outer_digits r m0 l : Forall (fun i => (i < 256)%nat) l -> forall m z, digits r m0 m z ->
  digits r m0 (fold_left (fun m i => if peek r i m =? 0 then m else inner_prog 6 i 1 r m) l m) (fold_left (slide_step 256) l z).
Proof.
  induction 1 as [|i l Hi _ IH]; intros m z D; [exact D|]. cbn [fold_left]. apply IH. unfold slide_step.
  rewrite (peek_at m r z i (proj1 D)) by (rewrite (proj1 (proj2 D)); lia). destruct (at_ z i =? 0); [exact D|]. now apply inner_digits.
Qed.
Lemma below n k : (k <= n)%nat -> Forall (fun i => (i < n)%nat) (seq 0 k).
Proof. intro H. apply Forall_forall. intros i I. apply in_seq in I. lia. Qed.
(* writing f i at i, when f does not depend on what is written *)
Lemma fill r (f : arrays -> nat -> Z) : (forall m i j v, f (poke r i v m) j = f m j) -> forall m n,
  let m' := fold_left (fun m i => poke r i (f m i) m) (seq 0 n) m in
  (forall i, (i < n)%nat -> m' r (Z.of_nat i) = f m i) /\ only_at [r] m m' /\ (forall j, f m' j = f m j).
Proof.
  intros F m n. induction n as [|n IH]; cbv zeta; [split; [intros i Hi; lia|split; [intros x i _; reflexivity|reflexivity]]|].
  rewrite seq_S, fold_left_app. cbn [fold_left plus]. cbv zeta in IH. revert IH.
  generalize (fold_left (fun m i => poke r i (f m i) m) (seq 0 n) m) as k. intros k (K1 & K2 & K3). split; [|split].
  - intros i Hi. unfold poke. rewrite loc_eqb_refl, Bool.andb_true_r. destruct (Z.eqb_spec (Z.of_nat i) (Z.of_nat n)) as [E|E].
    + apply Nat2Z.inj in E. subst i. apply K3.
    + apply K1. lia.
  - intros x j N. unfold poke. rewrite (loc_eqb_ne x r) by (intros ->; apply N; now left). rewrite Bool.andb_false_r. now apply K2.
  - intro j. now rewrite F, K3.
Qed.
Lemma bits_digits r a b m : r <> a -> length b = 32%nat -> has_bytes m a b -> digits r m (bits_prog r a m) (slide_bits 256 b).
Proof.
  intros N L H. unfold bits_prog.
  destruct (fill r (fun m i => Z.land 1 (Z.shiftr (peek a (i / 8) m) (Z.of_nat (i mod 8))))) with (m := m) (n := 256%nat) as (F1 & F2 & _).
  { intros k i j v. unfold peek, poke. rewrite (loc_eqb_ne a r) by congruence. now rewrite Bool.andb_false_r. }
  cbv zeta in F1, F2. revert F1 F2.
  generalize (fold_left (fun m i => poke r i (Z.land 1 (Z.shiftr (peek a (i / 8) m) (Z.of_nat (i mod 8)))) m) (seq 0 256) m) as k. intros k F1 F2.
  assert (Ls : length (slide_bits 256 b) = 256%nat) by (unfold slide_bits; now rewrite map_length, seq_length).
  split; [|split; [exact Ls|exact F2]]. apply contains_intro. rewrite Ls. intros i Hi. rewrite F1 by exact Hi. unfold slide_bits.
  set (g := fun i => Z.land 1 (Z.shiftr (byte_at b (i / 8)) (Z.of_nat (i mod 8)))).
  rewrite (nth_indep _ 0 (g 0%nat)) by now rewrite map_length, seq_length. rewrite (map_nth g), seq_nth by exact Hi. unfold g. cbn [plus].
  assert (Hq : (i / 8 < 32)%nat) by (apply Nat.div_lt_upper_bound; lia).
  unfold peek. rewrite (contains_nth m a (map b2z b)) by (try exact H; rewrite map_length; lia). f_equal. f_equal.
  change 0 with (b2z x00). rewrite map_nth. reflexivity.
Qed.
Lemma slide_digits_at r a b m : r <> a -> length b = 32%nat -> has_bytes m a b -> digits r m (slide_prog r a m) (slide b).
Proof. intros N L H. unfold slide_prog, slide. apply outer_digits; [apply below; lia|]. now apply bits_digits. Qed.

Lemma top_digits ra rb m za zb : contains m ra za -> contains m rb zb -> forall i, (i <= length za)%nat -> (i <= length zb)%nat ->
  top_prog i ra rb m = top_digit i za zb.
Proof.
  intros Ca Cb. induction i as [|i IH]; intros La Lb; [reflexivity|]. cbn [top_prog top_digit].
  rewrite (peek_at m ra za i Ca), (peek_at m rb zb i Cb) by lia. destruct (negb (at_ za i =? 0) || negb (at_ zb i =? 0)); [reflexivity|]. apply IH; lia.
Qed.
Lemma add_a_small fr d : small (add_a_calls fr d) = true.
Proof. unfold add_a_calls. destruct (0 <? d); [reflexivity|]. destruct (d <? 0); reflexivity. Qed.
Lemma add_b_small fr d : small (add_b_calls fr d) = true.
Proof. unfold add_b_calls. destruct (0 <? d); [reflexivity|]. destruct (d <? 0); reflexivity. Qed.
Lemma body_fst ra rb za zb i l1 (fa fb : Z -> list call) l4 m : (4 <= snd ra)%nat -> (4 <= snd rb)%nat -> (i < length za)%nat -> (i < length zb)%nat ->
  small l1 = true -> (forall d, small (fa d) = true) -> (forall d, small (fb d) = true) -> small l4 = true -> contains m ra za -> contains m rb zb ->
  exists m4, contains m4 ra za /\ contains m4 rb zb /\
    body_with l1 fa fb l4 i ra rb m = m4 /\
    (forall l5, fst (perform_all (l1 ++ fa (at_ za i) ++ fb (at_ zb i) ++ l4 ++ l5) m) = fst (perform_all l5 m4)).
Proof.
  intros Ha Hb La Lb S1 Sa Sb S4 Ca Cb. unfold body_with. cbv zeta.
  assert (K : forall l n e z, (4 <= snd e)%nat -> small l = true -> contains n e z -> contains (fst (perform_all l n)) e z).
  { intros l n e z He Sl Cn. apply (contains_kept n); [|exact Cn]. intro j. now apply perform_all_kept. }
  pose proof (K l1 m ra za Ha S1 Ca) as Ca1. pose proof (K l1 m rb zb Hb S1 Cb) as Cb1.
  rewrite (peek_at _ ra za i Ca1) by exact La.
  pose proof (K (fa (at_ za i)) _ ra za Ha (Sa _) Ca1) as Ca2. pose proof (K (fa (at_ za i)) _ rb zb Hb (Sa _) Cb1) as Cb2.
  rewrite (peek_at _ rb zb i Cb2) by exact Lb.
  pose proof (K (fb (at_ zb i)) _ ra za Ha (Sb _) Ca2) as Ca3. pose proof (K (fb (at_ zb i)) _ rb zb Hb (Sb _) Cb2) as Cb3.
  eexists. split; [exact (K l4 _ ra za Ha S4 Ca3)|]. split; [exact (K l4 _ rb zb Hb S4 Cb3)|]. split; [reflexivity|].
  intro l5. now rewrite !all_app.
Qed.
Lemma p_double_small fr r t : small (p_double_calls fr r t) = true.
Proof. reflexivity. Qed.
Lemma to_proj_small t r : small (c_to_projective_calls t r) = true.
Proof. reflexivity. Qed.
Lemma loop_gen ra rb za zb l1 (fa fb : Z -> list call) l4 (calls : nat -> list call) : (4 <= snd ra)%nat -> (4 <= snd rb)%nat ->
  small l1 = true -> (forall d, small (fa d) = true) -> (forall d, small (fb d) = true) -> small l4 = true ->
  calls 0%nat = [] -> (forall i, calls (S i) = l1 ++ fa (at_ za i) ++ fb (at_ zb i) ++ l4 ++ calls i) ->
  forall i m, (i <= length za)%nat -> (i <= length zb)%nat -> contains m ra za -> contains m rb zb ->
  loop_with (body_with l1 fa fb l4) i ra rb m = fst (perform_all (calls i) m).
Proof.
  intros Ha Hb S1 Sa Sb S4 C0 CS. induction i as [|i IH]; intros m La Lb Ca Cb; [now rewrite C0|].
  destruct (body_fst ra rb za zb i l1 fa fb l4 m Ha Hb La Lb S1 Sa Sb S4 Ca Cb) as (m4 & Ca4 & Cb4 & E1 & E2).
  cbn [loop_with]. rewrite E1, CS, E2. apply IH; try assumption; lia.
Qed.
Lemma calls_S fr r i za zb : double_loop_calls fr r (S i) za zb = p_double_calls (v_end fr) r (v_t fr) ++ add_a_calls fr (at_ za i) ++ add_b_calls fr (at_ zb i) ++
      c_to_projective_calls (v_t fr) r ++ double_loop_calls fr r i za zb.
Proof. reflexivity. Qed.
Lemma loop_fst fr r ra rb za zb : (4 <= snd ra)%nat -> (4 <= snd rb)%nat -> forall i m, (i <= length za)%nat -> (i <= length zb)%nat ->
  contains m ra za -> contains m rb zb -> loop_prog fr r i ra rb m = fst (perform_all (double_loop_calls fr r i za zb) m).
Proof.
  intros Ha Hb. exact (loop_gen ra rb za zb _ _ _ _ (fun i => double_loop_calls fr r i za zb) Ha Hb (p_double_small _ _ _) (add_a_small fr) (add_b_small fr) (to_proj_small _ _)
    eq_refl (fun i => calls_S fr r i za zb)).
Qed.

Lemma pre_small fr r A : small (table_calls fr r A) = true.
Proof. reflexivity. Qed.
Lemma double_split fr r va A vb : GeDoubleScalarMultVartime_calls fr r va A vb =
  table_calls fr r A ++ double_loop_calls fr r (top_digit 256 (slide va) (slide vb)) (slide va) (slide vb).
Proof. unfold GeDoubleScalarMultVartime_calls, table_calls. cbv zeta. now rewrite <- !app_assoc. Qed.
Lemma double_fst fr r a A b ra rb va vb m : array ra -> array rb -> ra <> a -> ra <> b -> rb <> b -> ra <> rb ->
  length va = 32%nat -> length vb = 32%nat -> has_bytes m a va -> has_bytes m b vb ->
  exists m0, only_at [ra; rb] m m0 /\ double_prog fr r a A b ra rb m = fst (perform_all (GeDoubleScalarMultVartime_calls fr r va A vb) m0).
Proof.
  intros [Ha _] [Hb _] N1 N2 N3 N4 La Lb Ba Bb. rewrite double_split. unfold double_prog. cbv zeta.
  pose proof (slide_digits_at ra a va m N1 La Ba) as (C1 & L1 & O1). revert C1 O1. generalize (slide_prog ra a m) as m1. intros m1 C1 O1.
  assert (Bb1 : has_bytes m1 b vb).
  { apply (contains_kept m); [|exact Bb]. intro i. apply O1. intros [E|[]]. now apply N2. }
  pose proof (slide_digits_at rb b vb m1 N3 Lb Bb1) as (C2 & L2 & O2). revert C2 O2. generalize (slide_prog rb b m1) as m2. intros m2 C2 O2.
  assert (C3 : contains m2 ra (slide va)).
  { apply (contains_kept m1); [|exact C1]. intro i. apply O2. intros [E|[]]. now apply N4. }
  exists m2. split.
  { intros x i N. rewrite O2 by (intros [E|[]]; apply N; right; now left). apply O1. intros [E|[]]. apply N. now left. }
  revert C3 C2 L1 L2. generalize (slide va) as za. generalize (slide vb) as zb. intros zb za C3 C2 L1 L2.
  pose proof (pre_small fr r A) as S1. revert S1. rewrite all_app. generalize (table_calls fr r A) as l. intros l S1.
  assert (K : forall e z, (4 <= snd e)%nat -> contains m2 e z -> contains (fst (perform_all l m2)) e z).
  { intros e z He Cn. apply (contains_kept m2); [|exact Cn]. intro j. now apply perform_all_kept. }
  pose proof (K ra za Ha C3) as D1. pose proof (K rb zb Hb C2) as D2. revert D1 D2. generalize (fst (perform_all l m2)) as m3. intros m3 D1 D2.
  rewrite (top_digits ra rb m3 za zb D1 D2) by lia.
  assert (T : forall i, (top_digit i za zb <= i)%nat).
  { induction i as [|i IH]; cbn [top_digit]; [lia|]. destruct (negb (at_ za i =? 0) || negb (at_ zb i =? 0)); lia. }
  specialize (T 256%nat). apply loop_fst; try assumption; lia.
Qed.

Lemma two_same m m' e f x : only_at [e; f] m m' -> x <> e -> x <> f -> as_fe m' x = as_fe m x.
Proof. intros O N N'. unfold as_fe. now rewrite !O by (intros [E|[E|[]]]; congruence). Qed.
Lemma double_value fr r a A b ra rb va vb m P : globals (as_fe m) -> 0 <= r < fr -> A < fr -> r <> A ->
  array ra -> array rb -> ra <> a -> ra <> b -> rb <> b -> ra <> rb ->
  length va = 32%nat -> length vb = 32%nat -> le_val va <= 2 ^ 255 -> le_val vb <= 2 ^ 255 -> has_bytes m a va -> has_bytes m b vb ->
  on P -> ext_rep (get_e (as_fe m) A) P ->
  let m' := as_fe (double_prog fr r a A b ra rb m) in
  proj_rep (get_p m' r) (padd (zmul (le_val va) P) (zmul (le_val vb) pB)) /\ globals m' /\ get_e m' A = get_e (as_fe m) A /\
  (forall x, x <> ra -> x <> rb -> fst x <> r -> fst x < fr -> m' x = as_fe m x).
Proof.
  intros G Hr HA N Aa Ab N1 N2 N3 N4 La Lb Ra Rb Ba Bb OP R.
  destruct (double_fst fr r a A b ra rb va vb m Aa Ab N1 N2 N3 N4 La Lb Ba Bb) as (m0 & O & E). cbv zeta. rewrite E. clear E.
  assert (S : forall x, x <> ra -> x <> rb -> as_fe m0 x = as_fe m x) by (intros x X1 X2; now apply (two_same m m0 ra rb)).
  assert (F : forall p k, (k < 4)%nat -> as_fe m0 (p, k) = as_fe m (p, k)).
  { intros p k Hk. apply S; intros <-; [destruct Aa as [Aa _]|destruct Ab as [Ab _]]; cbn [snd] in *; lia. }
  assert (G0 : globals (as_fe m0)).
  { apply (only_globals 0 0 (as_fe m)); [|lia|lia|exact G]. intros x X1 X2. apply S; intros ->; [destruct Aa|destruct Ab]; lia. }
  assert (EA : get_e (as_fe m0) A = get_e (as_fe m) A) by (unfold get_e, f0, f1, f2, f3; rewrite !F by lia; reflexivity).
  rewrite <- EA in R. destruct (double_mult_at (as_fe m0) fr r A va vb P G0 Hr HA N La Lb Ra Rb OP R) as (_ & R' & K & EA').
  assert (E : forall x, as_fe (fst (perform_all (GeDoubleScalarMultVartime_calls fr r va A vb) m0)) x = GeDoubleScalarMultVartime_at fr r va A vb (as_fe m0) x)
    by (intro x; rewrite perform_all_fe; now rewrite double_run).
  cbv zeta in R', K, EA'. split; [|split; [|split]].
  - unfold get_p. rewrite !E. exact R'.
  - apply (globals_ext _ _ E). apply (only_globals r fr (as_fe m0)); [exact K|lia|lia|exact G0].
  - rewrite (get_e_ext _ _ A E), EA'. exact EA.
  - intros x X1 X2 X3 X4. rewrite E, K by assumption. now apply S.
Qed.

(* ToBytes of a projective point *)
Lemma encode_bytes fr p out tmp m : globals (as_fe m) -> 0 <= fr -> p < fr -> array out -> array tmp -> out <> tmp ->
  has_bytes (fst (encode_prog fr p out tmp m)) out (p_to_bytes (get_p (as_fe m) p)).
Proof.
  intros G F Hp Ao At N. pose proof (encode_at (as_fe m) fr p G F Hp) as En.
  pose proof (xyz_fst fr p (as_fe m)) as X. cbv zeta in X. destruct (xyz_to_bytes_at fr p (as_fe m)) as [s m']. cbn [fst] in X.
  destruct En as (_ & En & _). rewrite <- En, X. clear En X s m'.
  unfold encode_prog. cbv zeta. rewrite !after_fst.
  set (l := invert_calls (fr + 3) (f0 fr) (f2 p) ++ _). set (m1 := fst (perform_all l m)).
  rewrite <- (perform_all_fe l m (f0 (fr + 2))), <- (perform_all_fe l m (f0 (fr + 1))). fold m1. clearbody m1 l.
  set (y := f0 (fr + 2)). set (x := f0 (fr + 1)).
  destruct (calling_with FeToBytes_code [] [("s", out); ("h", y)] nothing m1
    (fun s => has_bytes (cells s) out (fst (FeToBytes (as_fe m1 y))) /\ only_at [out; y] m1 (cells s)) (to_bytes_called out y [] m1 (array_field _ _ Ao))) as (s2 & (B2 & O2) & E2).
  rewrite E2. clear E2. unfold nothing at 2. cbn [fst]. generalize dependent (cells s2). clear s2. intros m2 B2 O2.
  match goal with |- has_bytes (fst (calling _ _ _ ?q _)) _ _ =>
    destruct (calling_with FeIsNegative_code [] [("s", tmp); ("h", x)] q m2
      (fun s => result s = fst (FeIsNegative (as_fe m2 x)) /\ only_at [tmp; x] m2 (cells s)) (negative_called tmp x [] m2 (array_field _ _ At))) as (s3 & (B3 & O3) & E3) end.
  rewrite E3. clear E3. rewrite B3.
  assert (Ex : as_fe m2 x = as_fe m1 x).
  { assert (H : forall i, m2 x i = m1 x i) by (intro i; apply O2; intros [E|[E|[]]]; [now apply (array_field out (fr + 1) Ao)|injection E; lia]).
    unfold as_fe. now rewrite !H. }
  rewrite Ex. apply flip_put; [|apply to_bytes_length].
  apply (contains_kept m2); [|exact B2]. intro i. apply O3. intros [E|[E|[]]]; [now apply N|]. now apply (array_field out (fr + 1) Ao).
Qed.
Lemma encode_proj fr p out tmp m P : globals (as_fe m) -> 0 <= fr -> p < fr -> array out -> array tmp -> out <> tmp -> proj_rep (get_p (as_fe m) p) P ->
  has_bytes (fst (encode_prog fr p out tmp m)) out (point_bytes P).
Proof.
  intros G F Hp Ao At N R. rewrite <- (p_to_bytes_ok _ _ R). now apply encode_bytes.
Qed.
Lemma combine_value fr r a A b ra rb out tmp va vb m P : globals (as_fe m) -> 0 <= r < fr -> A < fr -> r <> A ->
  array ra -> array rb -> array out -> array tmp -> ra <> a -> ra <> b -> rb <> b -> ra <> rb -> out <> tmp ->
  length va = 32%nat -> length vb = 32%nat -> le_val va <= 2 ^ 255 -> le_val vb <= 2 ^ 255 -> has_bytes m a va -> has_bytes m b vb ->
  on P -> ext_rep (get_e (as_fe m) A) P ->
  has_bytes (combine_prog fr r a A b ra rb out tmp m) out (point_bytes (padd (zmul (le_val va) P) (zmul (le_val vb) pB))).
Proof.
  intros G Hr HA N Aa Ab Ao At N1 N2 N3 N4 N5 La Lb Ra Rb Ba Bb OP R.
  destruct (double_value fr r a A b ra rb va vb m P G Hr HA N Aa Ab N1 N2 N3 N4 La Lb Ra Rb Ba Bb OP R) as (D & G' & _).
  unfold combine_prog. apply encode_proj; try assumption; lia.
Qed.
