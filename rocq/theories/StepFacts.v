(* The lists of calls in Steps.v are the runs of Pointers.v, and what is seen of
   GeScalarMultBase does not depend on the scalar. *)
From Verif Require Import ScalarFacts SpecSteps.
Open Scope Z_scope.

Lemma run_app l l' m : run (l ++ l') m = run l' (run l m).
Proof. unfold run. apply fold_left_app. Qed.
Lemma run_flat {A} (f : A -> list call) (g : mem -> A -> mem) (H : forall m x, run (f x) m = g m x) l m :
  run (flat_map f l) m = fold_left g l m.
Proof. revert m. induction l as [|x l IH]; intro m; [reflexivity|]. cbn [flat_map fold_left]. now rewrite run_app, H, IH. Qed.

Lemma r_p_double fr p r m : run (p_double_calls fr p r) m = p_double_at fr p r m.
Proof. symmetry. reflexivity. Qed.
Lemma r_e_zero p m : run (e_zero_calls p) m = e_zero_at p m.
Proof. symmetry. reflexivity. Qed.
Lemma r_p_zero p m : run (p_zero_calls p) m = p_zero_at p m.
Proof. symmetry. reflexivity. Qed.
Lemma r_e_to_cached p r m : run (e_to_cached_calls p r) m = e_to_cached_at p r m.
Proof. symmetry. reflexivity. Qed.
Lemma r_c_to_projective p r m : run (c_to_projective_calls p r) m = c_to_projective_at p r m.
Proof. symmetry. reflexivity. Qed.
Lemma r_c_to_extended p r m : run (c_to_extended_calls p r) m = c_to_extended_at p r m.
Proof. symmetry. reflexivity. Qed.
Lemma r_geAdd fr r p q m : run (geAdd_calls fr r p q) m = geAdd_at fr r p q m.
Proof. symmetry. reflexivity. Qed.
Lemma r_geSub fr r p q m : run (geSub_calls fr r p q) m = geSub_at fr r p q m.
Proof. symmetry. reflexivity. Qed.
Lemma r_geMixedAdd fr r p q m : run (geMixedAdd_calls fr r p q) m = geMixedAdd_at fr r p q m.
Proof. symmetry. reflexivity. Qed.
Lemma r_geMixedSub fr r p q m : run (geMixedSub_calls fr r p q) m = geMixedSub_at fr r p q m.
Proof. symmetry. reflexivity. Qed.
Ltac runs := rewrite ?run_app; rewrite ?r_p_double, ?r_e_zero, ?r_p_zero, ?r_e_to_cached, ?r_c_to_projective, ?r_c_to_extended, ?r_geAdd, ?r_geSub, ?r_geMixedAdd, ?r_geMixedSub.

Lemma run_e_double fr p r m : run (e_double_calls fr p r) m = e_double_at fr p r m.
Proof. symmetry. unfold e_double_calls. rewrite run_app. reflexivity. Qed.
Lemma run_cmove t u b m : run (pc_cmove_calls t u b) m = pc_cmove_at t u b m.
Proof. symmetry. reflexivity. Qed.
Lemma run_select fr t pos b m : run (selectPoint_calls fr t pos b) m = selectPoint_at fr t pos b m.
Proof.
  unfold selectPoint_calls, selectPoint_at. cbv zeta. generalize (b - (((0 - negative b) && b) << 1))%i32 as c. intro c.
  rewrite !run_app, run_cmove.
  rewrite (run_flat _ (fun m i => pc_cmove_at t (g_base pos i) (equal c (i32 (Z.of_nat i + 1))) m)) by (intros; apply run_cmove).
  symmetry. reflexivity.
Qed.
Lemma run_step fr h e m i : run (base_step_calls fr h e i) m = base_step_at fr h e m i.
Proof. unfold base_step_calls, base_step_at. cbv zeta. runs. now rewrite run_select. Qed.
Lemma base_run fr h a m : run (GeScalarMultBase_calls fr h a) m = GeScalarMultBase_at fr h a m.
Proof.
  unfold GeScalarMultBase_calls, GeScalarMultBase_at. cbv zeta. rewrite !run_app.
  rewrite !(run_flat _ (base_step_at fr h (recode 63 0 (nibbles a)))) by (intros; apply run_step).
  runs. rewrite run_e_double. reflexivity.
Qed.

Lemma run_odd fr m i : run (odd_calls fr i) m = odd_at fr m i.
Proof. unfold odd_calls, odd_at. cbv zeta. now runs. Qed.
Lemma run_add_a fr d m : run (add_a_calls fr d) m = add_a_at fr d m.
Proof. unfold add_a_calls, add_a_at. destruct (0 <? d); [now runs|]. destruct (d <? 0); [now runs|reflexivity]. Qed.
Lemma run_add_b fr d m : run (add_b_calls fr d) m = add_b_at fr d m.
Proof. unfold add_b_calls, add_b_at. destruct (0 <? d); [now runs|]. destruct (d <? 0); [now runs|reflexivity]. Qed.
Lemma run_loop fr r ra rb i m : run (double_loop_calls fr r i ra rb) m = double_loop_at fr r i ra rb m.
Proof.
  revert m. induction i as [|i IH]; intro m; [reflexivity|].
  cbn [double_loop_calls double_loop_at]. runs. rewrite IH, run_add_b, run_add_a. reflexivity.
Qed.
Lemma double_run fr r a A b m :
  run (GeDoubleScalarMultVartime_calls fr r a A b) m = GeDoubleScalarMultVartime_at fr r a A b m.
Proof.
  unfold GeDoubleScalarMultVartime_calls, GeDoubleScalarMultVartime_at. cbv zeta.
  runs. rewrite run_loop, run_e_double, (run_flat _ (odd_at fr)) by (intros; apply run_odd). reflexivity.
Qed.

Lemma view_app l l' : view (l ++ l') = view l ++ view l'.
Proof. apply map_app. Qed.
Lemma view_flat {A} (f g : A -> list call) (H : forall x, view (f x) = view (g x)) l :
  view (flat_map f l) = view (flat_map g l).
Proof. induction l as [|x l IH]; [reflexivity|]. cbn [flat_map]. now rewrite !view_app, H, IH. Qed.

Lemma view_cmove t u b b' : view (pc_cmove_calls t u b) = view (pc_cmove_calls t u b').
Proof. reflexivity. Qed.
Lemma view_select fr t pos b b' : view (selectPoint_calls fr t pos b) = view (selectPoint_calls fr t pos b').
Proof.
  unfold selectPoint_calls. cbv zeta. generalize (b - (((0 - negative b) && b) << 1))%i32 as c.
  generalize (b' - (((0 - negative b') && b') << 1))%i32 as c'. intros c' c. rewrite !view_app.
  rewrite (view_cmove t fr (negative b) (negative b')).
  rewrite (view_flat (fun i => pc_cmove_calls t (g_base pos i) (equal c (i32 (Z.of_nat i + 1))))
                     (fun i => pc_cmove_calls t (g_base pos i) (equal c' (i32 (Z.of_nat i + 1))))) by (intro; apply view_cmove).
  reflexivity.
Qed.
Lemma view_step fr h e e' i : view (base_step_calls fr h e i) = view (base_step_calls fr h e' i).
Proof. unfold base_step_calls. cbv zeta. rewrite !view_app. now rewrite (view_select _ _ _ (at_ e i) (at_ e' i)). Qed.
Lemma base_view fr h a a' : view (GeScalarMultBase_calls fr h a) = view (GeScalarMultBase_calls fr h a').
Proof.
  unfold GeScalarMultBase_calls. cbv zeta. rewrite !view_app.
  generalize (recode 63 0 (nibbles a)) as e. generalize (recode 63 0 (nibbles a')) as e'. intros e' e.
  rewrite !(view_flat (base_step_calls fr h e) (base_step_calls fr h e')) by (intro; apply view_step). reflexivity.
Qed.

Lemma length_flat {A} (f : A -> list call) n (H : forall x, length (f x) = n) l : length (flat_map f l) = (length l * n)%nat.
Proof. induction l as [|x l IH]; [reflexivity|]. cbn [flat_map length]. rewrite app_length, H, IH. reflexivity. Qed.
Lemma count_select fr t pos b : length (selectPoint_calls fr t pos b) = 33%nat.
Proof.
  unfold selectPoint_calls. cbv zeta. rewrite !app_length.
  rewrite (length_flat _ 3%nat) by (intro; reflexivity). rewrite seq_length. reflexivity.
Qed.
Lemma count_step fr h e i : length (base_step_calls fr h e i) = 47%nat.
Proof. unfold base_step_calls. cbv zeta. rewrite !app_length, count_select. reflexivity. Qed.
Lemma base_count fr h a : Z.of_nat (length (GeScalarMultBase_calls fr h a)) = 3064.
Proof.
  unfold GeScalarMultBase_calls. cbv zeta. rewrite !app_length.
  rewrite !(length_flat _ 47%nat (count_step fr h (recode 63 0 (nibbles a)))).
  rewrite !map_length, !seq_length. unfold e_double_calls. rewrite app_length. cbn [length e_zero_calls e_to_projective_calls
      p_double_calls c_to_projective_calls c_to_extended_calls]. lia.
Qed.

(* every entry of the table is read *)
Lemma base_reads fr h a pos i f : (pos < 32)%nat -> (i < 8)%nat -> (f < 3)%nat ->
  exists b, In (CMove (fr, f) (g_base pos i, f) b) (GeScalarMultBase_calls fr h a).
Proof.
  intros P I F. unfold GeScalarMultBase_calls. cbv zeta.
  set (e := recode 63 0 (nibbles a)). clearbody e.
  assert (Q : exists b, In (CMove (fr, f) (g_base pos i, f) b) (base_step_calls fr h e (2 * pos + 1))).
  { unfold base_step_calls. replace ((2 * pos + 1) / 2)%nat with pos.
    2:{ symmetry. rewrite Nat.mul_comm, Nat.div_add_l by lia. cbn. lia. }
    eexists. apply in_or_app. left. unfold selectPoint_calls. cbv zeta. apply in_or_app. right. apply in_or_app. left.
    apply in_flat_map. exists i. split; [apply in_seq; lia|]. unfold pc_cmove_calls.
    destruct f as [|[|[|f]]]; [left; reflexivity|right; left; reflexivity|right; right; left; reflexivity|lia]. }
  destruct Q as [b Q]. exists b. apply in_or_app. right. apply in_or_app. left.
  apply in_flat_map. exists (2 * pos + 1)%nat. split; [|exact Q].
  apply in_map_iff. exists pos. split; [reflexivity|]. apply in_seq. lia.
Qed.

(* ---- GeDoubleScalarMultVartime ---- *)
Definition dig (d : Z) : Prop := d = 0 \/ (Z.odd d = true /\ -15 <= d <= 15).

Lemma dig_cases d : dig d -> d = 0 \/ (exists k : nat, (k < 8)%nat /\ (d = 2 * Z.of_nat k + 1 \/ d = - (2 * Z.of_nat k + 1))).
Proof.
  intros [->|[O R]]; [left; reflexivity|right]. pose proof (Zodd_div2 d) as H. apply Zodd_bool_iff in O. specialize (H O).
  destruct (Z_lt_le_dec d 0) as [N|N].
  - exists (Z.to_nat (- Z.div2 d - 1)). split; [lia|]. right. lia.
  - exists (Z.to_nat (Z.div2 d)). split; [lia|]. left. lia.
Qed.
Lemma half_pos k : (k < 8)%nat -> Z.quot (2 * Z.of_nat k + 1) 2 = Z.of_nat k /\ Z.quot (i8 (- - (2 * Z.of_nat k + 1))) 2 = Z.of_nat k.
Proof. intro H. do 8 (destruct k as [|k]; [split; reflexivity|]). lia. Qed.

Lemma a_cases fr d : dig d -> (d = 0 /\ add_a_calls fr d = []) \/ exists k, (k < 8)%nat /\
  ((d = 2 * Z.of_nat k + 1 /\ add_a_calls fr d = c_to_extended_calls (v_t fr) (v_u fr) ++ geAdd_calls (v_end fr) (v_t fr) (v_u fr) (v_Ai fr (Z.of_nat k))) \/
   (d = - (2 * Z.of_nat k + 1) /\ add_a_calls fr d = c_to_extended_calls (v_t fr) (v_u fr) ++ geSub_calls (v_end fr) (v_t fr) (v_u fr) (v_Ai fr (Z.of_nat k)))).
Proof.
  intro D. destruct (dig_cases d D) as [->|(k & K & E)]; [left; split; reflexivity|]. right. exists k. split; [exact K|].
  destruct (half_pos k K) as [H1 H2]. unfold add_a_calls.
  destruct E as [-> | ->]; [left|right]; (split; [reflexivity|]).
  - replace (0 <? 2 * Z.of_nat k + 1) with true by (symmetry; apply Z.ltb_lt; lia). now rewrite H1.
  - replace (0 <? - (2 * Z.of_nat k + 1)) with false by (symmetry; apply Z.ltb_ge; lia).
    replace (- (2 * Z.of_nat k + 1) <? 0) with true by (symmetry; apply Z.ltb_lt; lia). now rewrite H2.
Qed.
Lemma b_cases fr d : dig d -> (d = 0 /\ add_b_calls fr d = []) \/ exists k, (k < 8)%nat /\
  ((d = 2 * Z.of_nat k + 1 /\ add_b_calls fr d = c_to_extended_calls (v_t fr) (v_u fr) ++ geMixedAdd_calls (v_end fr) (v_t fr) (v_u fr) (g_bi k)) \/
   (d = - (2 * Z.of_nat k + 1) /\ add_b_calls fr d = c_to_extended_calls (v_t fr) (v_u fr) ++ geMixedSub_calls (v_end fr) (v_t fr) (v_u fr) (g_bi k))).
Proof.
  intro D. destruct (dig_cases d D) as [->|(k & K & E)]; [left; split; reflexivity|]. right. exists k. split; [exact K|].
  destruct (half_pos k K) as [H1 H2]. unfold add_b_calls.
  destruct E as [-> | ->]; [left|right]; (split; [reflexivity|]).
  - replace (0 <? 2 * Z.of_nat k + 1) with true by (symmetry; apply Z.ltb_lt; lia). now rewrite H1, Nat2Z.id.
  - replace (0 <? - (2 * Z.of_nat k + 1)) with false by (symmetry; apply Z.ltb_ge; lia).
    replace (- (2 * Z.of_nat k + 1) <? 0) with true by (symmetry; apply Z.ltb_lt; lia). now rewrite H2, Nat2Z.id.
Qed.

(* reading the digits off the calls *)
Definition read_a (fr : Z) (l : list call) : Z :=
  match l with
  | _ :: _ :: _ :: Mul _ _ _ :: _ :: _ :: Mul _ _ (q, j) :: _ =>
      if q <? 0 then 0 else match j with 0%nat => 2 * (q - fr - 3) + 1 | _ => - (2 * (q - fr - 3) + 1) end
  | _ => 0
  end.
Definition read_b (l : list call) : Z :=
  match l with
  | _ :: _ :: _ :: Mul _ _ _ :: _ :: _ :: Mul _ _ (q, j) :: _ =>
      match j with 0%nat => 2 * (-10 - q) + 1 | _ => - (2 * (-10 - q) + 1) end
  | _ => 0
  end.
(* what comes after the last addition of a round *)
Definition quiet (l : list call) : Prop := l = [] \/ exists d a t, l = Square d a :: t.
Lemma loop_quiet fr r i ra rb : quiet (view (double_loop_calls fr r i ra rb)).
Proof. destruct i; [left; reflexivity|right]. cbn [double_loop_calls]. rewrite view_app. unfold p_double_calls. cbv zeta. cbn. eauto. Qed.

Lemma reads_b fr r e l : dig e -> quiet l -> read_b (view (add_b_calls fr e) ++ view (c_to_projective_calls (v_t fr) r) ++ l) = e.
Proof.
  intros D Q. destruct (b_cases fr e D) as [[-> ->]|(k & K & [[-> ->] | [-> ->]])].
  - destruct Q as [-> | (? & ? & ? & ->)]; reflexivity.
  - cbn -[Z.mul Z.sub Z.add]. unfold g_bi. lia.
  - cbn -[Z.mul Z.sub Z.add]. unfold g_bi. lia.
Qed.
Lemma reads_a fr r d e l : 0 <= fr -> dig d -> dig e -> quiet l ->
  read_a fr (view (add_a_calls fr d) ++ view (add_b_calls fr e) ++ view (c_to_projective_calls (v_t fr) r) ++ l) = d.
Proof.
  intros F D E Q. destruct (a_cases fr d D) as [[-> ->]|(k & K & [[-> ->] | [-> ->]])].
  - destruct (b_cases fr e E) as [[-> ->]|(k & K & [[-> ->] | [-> ->]])].
    + destruct Q as [-> | (? & ? & ? & ->)]; reflexivity.
    + cbn [view map app read_a geMixedAdd_calls c_to_extended_calls seen f0 f1 f2 f3]. unfold g_bi.
      replace (-10 - Z.of_nat k <? 0) with true by (symmetry; apply Z.ltb_lt; lia). reflexivity.
    + cbn [view map app read_a geMixedSub_calls c_to_extended_calls seen f0 f1 f2 f3]. unfold g_bi.
      replace (-10 - Z.of_nat k <? 0) with true by (symmetry; apply Z.ltb_lt; lia). reflexivity.
  - cbn [view map app read_a geAdd_calls c_to_extended_calls seen f0 f1 f2 f3]. unfold v_Ai.
    replace (fr + 3 + Z.of_nat k <? 0) with false by (symmetry; apply Z.ltb_ge; lia). lia.
  - cbn [view map app read_a geSub_calls c_to_extended_calls seen f0 f1 f2 f3]. unfold v_Ai.
    replace (fr + 3 + Z.of_nat k <? 0) with false by (symmetry; apply Z.ltb_ge; lia). lia.
Qed.

Lemma loop_shows fr r ra rb ra' rb' : 0 <= fr ->
  (forall k, dig (at_ ra k)) -> (forall k, dig (at_ rb k)) -> (forall k, dig (at_ ra' k)) -> (forall k, dig (at_ rb' k)) ->
  forall i i', view (double_loop_calls fr r i ra rb) = view (double_loop_calls fr r i' ra' rb') ->
  i = i' /\ forall k, (k < i)%nat -> at_ ra k = at_ ra' k /\ at_ rb k = at_ rb' k.
Proof.
  intros F A B A' B'. induction i as [|i IH]; intros [|i'] H.
  - split; [reflexivity|]. intros k K. lia.
  - cbn [double_loop_calls] in H. rewrite view_app in H. discriminate H.
  - cbn [double_loop_calls] in H. rewrite view_app in H. discriminate H.
  - cbn [double_loop_calls] in H. rewrite !view_app in H. apply app_inv_head in H.
    pose proof (loop_quiet fr r i ra rb) as Q. pose proof (loop_quiet fr r i' ra' rb') as Q'.
    pose proof (reads_a fr r _ _ _ F (A i) (B i) Q) as Ra. rewrite H in Ra.
    rewrite (reads_a fr r _ _ _ F (A' i') (B' i') Q') in Ra. rewrite Ra in H. apply app_inv_head in H.
    pose proof (reads_b fr r _ _ (B i) Q) as Rb. rewrite H in Rb.
    rewrite (reads_b fr r _ _ (B' i') Q') in Rb. rewrite Rb in H. apply app_inv_head in H. apply app_inv_head in H.
    destruct (IH i' H) as [-> N]. split; [reflexivity|]. intros k K.
    destruct (Nat.eq_dec k i') as [-> | Nk]; [split; congruence|apply N; lia].
Qed.

Lemma slide_dig a k : dig (at_ (slide a) k).
Proof.
  unfold at_. destruct (Nat.lt_ge_cases k (length (slide a))) as [L|L].
  - pose proof (slide_digits a) as H. rewrite Forall_forall in H. apply H, nth_In, L.
  - left. apply nth_overflow, L.
Qed.
Lemma first_nth (l : list Z) : forall n k, (k < n)%nat -> nth k (firstn n l) 0 = nth k l 0.
Proof. induction l as [|x l IH]; intros [|n] [|k] K; try reflexivity; try lia. apply (IH n k). lia. Qed.
Lemma firstn_same (l l' : list Z) n : (n <= length l)%nat -> (n <= length l')%nat ->
  (forall k, (k < n)%nat -> at_ l k = at_ l' k) -> firstn n l = firstn n l'.
Proof.
  intros L L' H. apply nth_ext with (d := 0) (d' := 0); [rewrite !firstn_length_le by assumption; reflexivity|].
  intros k K. rewrite firstn_length_le in K by assumption. rewrite !(first_nth _ n) by assumption. apply H, K.
Qed.
Lemma double_view fr r A a b a' b' : 0 <= fr ->
  length a = 32%nat -> length b = 32%nat -> length a' = 32%nat -> length b' = 32%nat ->
  view (GeDoubleScalarMultVartime_calls fr r a A b) = view (GeDoubleScalarMultVartime_calls fr r a' A b') ->
  a = a' /\ b = b'.
Proof.
  intros F La Lb La' Lb' H. unfold GeDoubleScalarMultVartime_calls in H. cbv zeta in H. rewrite !view_app in H.
  do 5 apply app_inv_head in H.
  apply loop_shows in H; [|exact F|intro; apply slide_dig..]. destruct H as [I H].
  pose proof (slide_length a) as Sa. pose proof (slide_length b) as Sb.
  pose proof (slide_length a') as Sa'. pose proof (slide_length b') as Sb'.
  destruct (top_digit_ok (slide a) (slide b) 256) as (T & Ta & Tb); [lia|lia|].
  destruct (top_digit_ok (slide a') (slide b') 256) as (T' & Ta' & Tb'); [lia|lia|].
  rewrite <- I in Ta', Tb', T'. set (n := top_digit 256 (slide a) (slide b)) in *. clearbody n.
  assert (Va : dval 2 (slide a) = dval 2 (slide a')).
  { rewrite <- (firstn_all (slide a)), <- (firstn_all (slide a')), Sa, Sa', <- Ta, <- Ta'. f_equal.
    apply firstn_same; [lia|lia|]. intros k K. apply H, K. }
  assert (Vb : dval 2 (slide b) = dval 2 (slide b')).
  { rewrite <- (firstn_all (slide b)), <- (firstn_all (slide b')), Sb, Sb', <- Tb, <- Tb'. f_equal.
    apply firstn_same; [lia|lia|]. intros k K. apply H, K. }
  split; apply le_val_inj; try congruence; rewrite <- !slide_mod by assumption; congruence.
Qed.

Lemma equal_bit b c : equal b c = 0 \/ equal b c = 1.
Proof.
  unfold equal. set (x := (Z.lxor b c mod 4294967296 - 1) mod 4294967296).
  assert (X : 0 <= x < 4294967296) by (apply Z.mod_pos_bound; lia). clearbody x.
  rewrite Z.shiftr_div_pow2 by lia. change (2 ^ 31) with 2147483648.
  assert (Y : x / 2147483648 = 0 \/ x / 2147483648 = 1).
  { pose proof (Z.div_pos x 2147483648). pose proof (Z.div_lt_upper_bound x 2147483648 2). lia. }
  destruct Y as [-> | ->]; [left|right]; reflexivity.
Qed.
Lemma negative_bit b : negative b = 0 \/ negative b = 1.
Proof.
  unfold negative, and32. set (x := (b >> 31)%i32). clearbody x.
  pose proof (Z.land_ones x 1 ltac:(lia)) as E. change (Z.ones 1) with 1 in E. rewrite E. change (2 ^ 1) with 2.
  pose proof (Z.mod_pos_bound x 2 ltac:(lia)) as Hx. revert Hx. generalize (x mod 2). lia.
Qed.
Lemma bits fr h a d s b : In (CMove d s b) (GeScalarMultBase_calls fr h a) -> b = 0 \/ b = 1.
Proof.
  assert (M : forall t u c, (c = 0 \/ c = 1) -> In (CMove d s b) (pc_cmove_calls t u c) -> b = 0 \/ b = 1).
  { intros t u c C [E|[E|[E|[]]]]; injection E; intros; subst; exact C. }
  assert (T : forall e i, In (CMove d s b) (base_step_calls fr h e i) -> b = 0 \/ b = 1).
  { intros e i H. unfold base_step_calls in H. cbv zeta in H. apply in_app_or in H as [H|H].
    - unfold selectPoint_calls in H. cbv zeta in H. apply in_app_or in H as [H|H].
      + cbn in H. intuition discriminate.
      + apply in_app_or in H as [H|H].
        * apply in_flat_map in H as (k & _ & H). revert H. apply M, equal_bit.
        * apply in_app_or in H as [H|H]; [cbn in H; intuition discriminate|]. revert H. apply M, negative_bit.
    - cbn in H. intuition discriminate. }
  unfold GeScalarMultBase_calls. cbv zeta. set (e := recode 63 0 (nibbles a)). clearbody e. intro H.
  apply in_app_or in H as [H|H]; [cbn in H; intuition discriminate|].
  apply in_app_or in H as [H|H]; [apply in_flat_map in H as (k & _ & H); exact (T _ _ H)|].
  do 8 (apply in_app_or in H as [H|H]; [cbn in H; intuition discriminate|]).
  apply in_flat_map in H as (k & _ & H). exact (T _ _ H).
Qed.

Lemma number_differs : exists a a' b, length a = 32%nat /\ length a' = 32%nat /\ length b = 32%nat /\
  forall fr r A, length (GeDoubleScalarMultVartime_calls fr r a A b) <> length (GeDoubleScalarMultVartime_calls fr r a' A b).
Proof.
  exists (x01 :: repeat x00 31), (repeat x00 32), (repeat x00 32). do 3 (split; [reflexivity|]). intros fr r A.
  unfold GeDoubleScalarMultVartime_calls. cbv zeta. rewrite !app_length.
  assert (E0 : slide (repeat x00 32) = repeat 0 256) by (vm_compute; reflexivity).
  assert (E1 : slide (x01 :: repeat x00 31) = 1 :: repeat 0 255) by (vm_compute; reflexivity).
  rewrite E0, E1.
  replace (top_digit 256 (repeat 0 256) (repeat 0 256)) with 0%nat by (vm_compute; reflexivity).
  replace (top_digit 256 (1 :: repeat 0 255) (repeat 0 256)) with 1%nat by (vm_compute; reflexivity).
  cbn [double_loop_calls at_ nth repeat]. rewrite app_length. cbn [length p_double_calls]. lia.
Qed.

(* the call a given step of GeScalarMultBase makes for entry i of the table *)
Lemma base_even fr h a k i : (k < 32)%nat -> (i < 8)%nat ->
  let b := at_ (recode 63 0 (nibbles a)) (2 * k) in
  In (CMove (fr, 0%nat) (g_base k i, 0%nat) (equal (b - (((0 - negative b) && b) << 1))%i32 (i32 (Z.of_nat i + 1))))
     (GeScalarMultBase_calls fr h a).
Proof.
  intros K I b. unfold GeScalarMultBase_calls. cbv zeta.
  do 10 (apply in_or_app; right). apply in_flat_map. exists (2 * k)%nat. split.
  { apply in_map_iff. exists k. split; [reflexivity|]. apply in_seq. lia. }
  unfold base_step_calls. replace (2 * k / 2)%nat with k by (symmetry; rewrite Nat.mul_comm; apply Nat.div_mul; lia).
  apply in_or_app. left. unfold selectPoint_calls. cbv zeta. apply in_or_app. right. apply in_or_app. left.
  apply in_flat_map. exists i. split; [apply in_seq; lia|]. left. reflexivity.
Qed.
(* the bits of the first conditional moves *)
Definition move_bits (l : list call) : list Z := flat_map (fun c => match c with CMove _ _ b => [b] | _ => [] end) l.
Lemma move_bits_app l l' : move_bits (l ++ l') = move_bits l ++ move_bits l'.
Proof. apply flat_map_app. Qed.

Lemma two_scalars fr h :
  view (GeScalarMultBase_calls fr h (x01 :: repeat x00 31)) = view (GeScalarMultBase_calls fr h (x02 :: repeat x00 31)) /\
  In (CMove (fr, 0%nat) (g_base 0 0, 0%nat) 1) (GeScalarMultBase_calls fr h (x01 :: repeat x00 31)) /\
  In (CMove (fr, 0%nat) (g_base 0 1, 0%nat) 1) (GeScalarMultBase_calls fr h (x02 :: repeat x00 31)) /\
  GeScalarMultBase_calls fr h (x01 :: repeat x00 31) <> GeScalarMultBase_calls fr h (x02 :: repeat x00 31).
Proof.
  split; [apply base_view|].
  split; [exact (base_even fr h (x01 :: repeat x00 31) 0 0 ltac:(lia) ltac:(lia))|].
  split; [exact (base_even fr h (x02 :: repeat x00 31) 0 1 ltac:(lia) ltac:(lia))|].
  intro E. apply (f_equal move_bits) in E. revert E.
  unfold GeScalarMultBase_calls. cbv zeta. rewrite !move_bits_app.
  intro E. vm_compute in E. discriminate E.
Qed.
