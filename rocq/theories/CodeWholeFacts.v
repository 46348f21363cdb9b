From Verif Require Import KeyOpsFacts PointerTop PointerMult PointerFacts StepFacts SpecSteps SlideFacts ScalarFacts CodeFacts CodeBytes CodeLeaf CodeScalar.
From Verif Require Export SpecPointers SpecWhole.
Local Open Scope string_scope.
Local Open Scope list_scope.
Local Open Scope Z_scope.

(* ---- what is seen ---- *)
Lemma after_fst p q m : fst (after p q m) = fst (q (fst (p m))).
Proof. unfold after. destruct (p m) as [m1 t1]. cbn [fst]. now destruct (q m1). Qed.
Lemma after_snd p q m : snd (after p q m) = snd (p m) ++ snd (q (fst (p m))).
Proof. unfold after. destruct (p m) as [m1 t1]. cbn [fst snd]. now destruct (q m1). Qed.
Definition alike (p q : prog) : Prop := forall m m', snd (p m) = snd (q m').
Lemma alike_after p q p' q' : alike p p' -> alike q q' -> alike (after p q) (after p' q').
Proof. intros P Q m m'. rewrite !after_snd. now rewrite (P m m'), (Q _ (fst (p' m'))). Qed.
Lemma alike_each {A} (f g : A -> prog) l : (forall x, In x l -> alike (f x) (g x)) -> alike (each f l) (each g l).
Proof.
  induction l as [|x l IH]; intro H; [now intros m m'|]. cbn [each]. apply alike_after; [apply H; now left|].
  apply IH. intros y I. apply H. now right.
Qed.
Lemma alike_calls l l' : view l = view l' -> alike (perform_all l) (perform_all l').
Proof. intros E m m'. now apply perform_all_view. Qed.
Lemma calling_fst c v p q m : fst (calling c v p q m) = fst (q (called c v p m) (cells (called c v p m))).
Proof. unfold calling, called.
  destruct (crun c (State (vals_of v) (ptrs_of p) m)) as [s t]. cbn [fst]. now destruct (q s (cells s)).
Qed.
Lemma calling_snd c v p q m : snd (calling c v p q m) = snd (crun c (State (vals_of v) (ptrs_of p) m)) ++ snd (q (called c v p m) (cells (called c v p m))).
Proof. unfold calling, called.
  destruct (crun c (State (vals_of v) (ptrs_of p) m)) as [s t]. cbn [fst snd]. now destruct (q s (cells s)).
Qed.
Lemma alike_calling c v v' p q q' : oblivious c -> (forall s s', alike (q s) (q' s')) -> alike (calling c v p q) (calling c v' p q').
Proof.
  intros O Q m m'. rewrite !calling_snd. f_equal; [now apply O|]. apply Q.
Qed.
Lemma alike_nothing s s' : alike (nothing s) (nothing s').
Proof. now intros m m'. Qed.

Lemma select_alike fr t pos b b' : alike (select_prog fr t pos b) (select_prog fr t pos b').
Proof.
  unfold select_prog. apply alike_calling; [obl|]. intros s s'.
  apply alike_after; [now apply alike_calls|]. apply alike_after; [|apply alike_after; now apply alike_calls].
  apply alike_each. intros i _. apply alike_calling; [obl|]. intros u u'. now apply alike_calls.
Qed.
Lemma obl_digit i : oblivious (CSet "b" 0 (EConv W32 (EElem "e" (ELit i)))).
Proof. now apply (check_oblivious _ []). Qed.
Lemma step_alike fr h e i : alike (step_prog fr h e i) (step_prog fr h e i).
Proof.
  unfold step_prog. apply alike_calling; [apply obl_digit|]. intros s s'. apply alike_after; [apply select_alike|now apply alike_calls].
Qed.
Lemma base_silent fr h a e : silent (base_prog fr h a e).
Proof.
  change (alike (base_prog fr h a e) (base_prog fr h a e)). unfold base_prog. apply alike_calling; [obl|]. intros _ _.
  apply alike_after; [now apply alike_calls|]. apply alike_after; [apply alike_each; intros; apply step_alike|].
  apply alike_after; [now apply alike_calls|]. apply alike_each; intros; apply step_alike.
Qed.
Lemma encode_silent fr p out tmp : silent (encode_prog fr p out tmp).
Proof.
  change (alike (encode_prog fr p out tmp) (encode_prog fr p out tmp)). unfold encode_prog.
  apply alike_after; [now apply alike_calls|]. apply alike_after; (apply alike_calling; [obl|]); [apply alike_nothing|].
  intros s s'. apply alike_calling; [obl|]. apply alike_nothing.
Qed.
Lemma public_silent fr h a e out tmp : silent (public_prog fr h a e out tmp).
Proof. exact (alike_after _ _ _ _ (base_silent fr h a e) (encode_silent fr h out tmp)). Qed.

(* ---- what comes out ---- *)
Lemma all_dst c x : In x (targets (code_of c)) -> params c x = dst c.
Proof. destruct c; cbn; intuition (subst; reflexivity). Qed.
Lemma perform_kept c m l i : l <> dst c -> fst (perform c m) l i = m l i.
Proof.
  intro N. rewrite perform_run. apply (cells_kept _ (State (value_params c) (params c) m)). cbn [ptrs]. intro I.
  apply in_map_iff in I. destruct I as (x & <- & I). apply N. now apply all_dst.
Qed.
Definition small (l : list call) : bool := forallb (fun c => Nat.leb (snd (dst c)) 3) l.
Lemma perform_all_kept l : forall m e i, small l = true -> (4 <= snd e)%nat -> fst (perform_all l m) e i = m e i.
Proof.
  induction l as [|c l IH]; intros m e i S4 H; [reflexivity|]. cbn [small forallb] in S4. apply andb_prop in S4. destruct S4 as [C S4].
  cbn [perform_all]. pose proof (perform_kept c m e i) as K. destruct (perform c m) as [m1 t1]. specialize (IH m1 e i S4 H).
  destruct (perform_all l m1) as [m2 t2]. cbn [fst] in *. rewrite IH. apply K. intros ->. apply Nat.leb_le in C. pose proof (Nat.le_trans _ _ _ H C) as L. lia.
Qed.
Lemma small_app l k : small l = true -> small k = true -> small (l ++ k) = true.
Proof. unfold small. intros H K. rewrite forallb_app. apply andb_true_intro. now split. Qed.
Lemma small_flat {A} (f : A -> list call) l : (forall x, small (f x) = true) -> small (flat_map f l) = true.
Proof. intro H. induction l as [|x l IH]; [reflexivity|]. cbn [flat_map]. now apply small_app. Qed.
Lemma all_app l k m : fst (perform_all (l ++ k) m) = fst (perform_all k (fst (perform_all l m))).
Proof.
  revert m. induction l as [|c l IH]; intro m; [reflexivity|]. cbn [app perform_all]. destruct (perform c m) as [m1 t1]. specialize (IH m1).
  destruct (perform_all (l ++ k) m1), (perform_all l m1). cbn [fst] in *. exact IH.
Qed.
Lemma each_fst {A} (f : A -> prog) (g : A -> list call) l : (forall x m, In x l -> fst (f x m) = fst (perform_all (g x) m)) ->
  forall m, fst (each f l m) = fst (perform_all (flat_map g l) m).
Proof.
  induction l as [|x l IH]; intros H m; [reflexivity|]. cbn [each flat_map]. rewrite after_fst, all_app, (H x) by (now left).
  apply IH. intros y n I. apply H. now right.
Qed.
Lemma select_fst fr t pos b m : fst (select_prog fr t pos b m) = fst (perform_all (selectPoint_calls fr t pos b) m).
Proof.
  unfold select_prog, selectPoint_calls. cbv zeta. rewrite calling_fst.
  destruct (bAbs_code_ok (State (vals_of [("b", b)]) (ptrs_of []) m)) as (A1 & A2 & A3). fold (called bAbs_code [("b", b)] [] m) in A1, A2, A3.
  rewrite A1, A2, A3. cbn [cells vars]. change (vals_of [("b", b)] "b" 0%nat) with b.
  rewrite !after_fst, !all_app. do 4 apply f_equal.
  apply each_fst. intros i n _. rewrite calling_fst.
  set (x := (b - (((0 - negative b) && b) << 1))%i32). set (y := i32 (Z.of_nat i + 1)).
  destruct (equal_code_ok (State (vals_of [("b", x); ("c", y)]) (ptrs_of []) n)) as (B1 & B2).
  fold (called equal_code [("b", x); ("c", y)] [] n) in B1, B2. unfold result. rewrite B1, B2. reflexivity.
Qed.

Lemma i32_i8 z : i32 (i8 z) = i8 z.
Proof. unfold i32, i8. pose proof (Z.mod_pos_bound (z + 128) 256 ltac:(lia)). rewrite Z.mod_small; lia. Qed.

Lemma recode_i8 n : forall c e, length e = S n -> Forall (fun z => i32 z = z) (recode n c e) /\ length (recode n c e) = S n.
Proof.
  induction n as [|n IH]; intros c [|x e] L; try discriminate; cbn [recode].
  - destruct e; [|discriminate]. split; [repeat constructor; apply i32_i8|reflexivity].
  - destruct (IH (Z.shiftr (i8 (i8 (x + c) + 8)) 4) e ltac:(cbn in L; congruence)) as [F E]. split; [constructor; [apply i32_i8|exact F]|].
    cbn [length]. now rewrite E.
Qed.
Lemma contains_nth m l z i : contains m l z -> (i < length z)%nat -> m l (Z.of_nat i) = nth i z 0.
Proof.
  intros C H. rewrite <- C at 1. rewrite (nth_indep _ 0 (m l (Z.of_nat 0))) by now rewrite map_length, seq_length.
  rewrite (map_nth (fun j => m l (Z.of_nat j))), seq_nth by exact H. reflexivity.
Qed.
Definition digits_ok (z : list Z) : Prop := Forall (fun x => i32 x = x) z /\ length z = 64%nat.
Lemma step_small fr h z i : small (base_step_calls fr h z i) = true.
Proof. reflexivity. Qed.
Lemma step_fst fr h e z i m : digits_ok z -> contains m e z -> (i < 64)%nat ->
  fst (step_prog fr h e i m) = fst (perform_all (base_step_calls fr h z i) m).
Proof.
  intros [D L] C H. unfold step_prog, base_step_calls. cbv zeta. rewrite calling_fst, after_fst, !all_app.
  set (c := CSet "b" 0 (EConv W32 (EElem "e" (ELit (Z.of_nat i))))).
  assert (V : vars (called c [] [("e", e)] m) "b" 0%nat = at_ z i).
  { change (vars (called c [] [("e", e)] m) "b" 0%nat) with (i32 (m e (Z.of_nat i))). rewrite (contains_nth _ _ _ _ C) by lia.
    unfold at_. rewrite Forall_forall in D. apply D, nth_In. lia. }
  rewrite V. change (cells (called c [] [("e", e)] m)) with m. rewrite select_fst. reflexivity.
Qed.
Lemma contains_kept m m' e z : (forall i, m' e i = m e i) -> contains m e z -> contains m' e z.
Proof. intros K C. unfold contains in *. rewrite <- C at 2. apply map_ext. intro i. apply K. Qed.
Lemma steps_fst fr h e z l : digits_ok z -> (4 <= snd e)%nat -> Forall (fun i => (i < 64)%nat) l -> forall m, contains m e z ->
  fst (each (step_prog fr h e) l m) = fst (perform_all (flat_map (base_step_calls fr h z) l) m).
Proof.
  intros D He. induction 1 as [|i l Hi _ IH]; intros m C; [reflexivity|]. cbn [each flat_map]. rewrite after_fst, all_app.
  rewrite (step_fst fr h e z i m D C Hi). apply IH. apply (contains_kept m); [|exact C].
  intro j. apply perform_all_kept; [apply step_small|exact He].
Qed.
Lemma below_64 (f : nat -> nat) : (forall k, k < 32 -> f k < 64)%nat -> Forall (fun i => (i < 64)%nat) (map f (seq 0 32)).
Proof. intro H. apply Forall_forall. intros i I. apply in_map_iff in I. destruct I as (k & <- & I). apply in_seq in I. apply H. lia. Qed.
Lemma calling_with c v p q m (R : state -> Prop) : R (fst (crun c (State (vals_of v) (ptrs_of p) m))) ->
  exists s, R s /\ fst (calling c v p q m) = fst (q s (cells s)).
Proof. intro H. exists (called c v p m). split; [exact H|]. apply calling_fst. Qed.
Lemma recode_called a e b m : e <> a -> length b = 32%nat -> has_bytes m a b ->
  let s := fst (crun recode_code (State (vals_of []) (ptrs_of [("a", a); ("e", e)]) m)) in
  contains (cells s) e (recode 63 0 (nibbles b)) /\ only_at [e] m (cells s).
Proof. intros N L H. exact (recode_code_ok (State (vals_of []) (ptrs_of [("a", a); ("e", e)]) m) b L N H). Qed.
Lemma base_fst fr h a e b m : array e -> e <> a -> length b = 32%nat -> has_bytes m a b ->
  exists m0, only_at [e] m m0 /\ fst (base_prog fr h a e m) = fst (perform_all (GeScalarMultBase_calls fr h b) m0).
Proof.
  intros [He _] N L H. unfold base_prog, GeScalarMultBase_calls. cbv zeta.
  assert (D : digits_ok (recode 63 0 (nibbles b))).
  { apply recode_i8. rewrite (proj1 (nibbles_ok b)), L. reflexivity. }
  destruct (calling_with _ _ _ (fun _ => after (perform_all (e_zero_calls h))
   (after (each (step_prog fr h e) (map (fun k => 2 * k + 1)%nat (seq 0 32)))
   (after (perform_all (e_double_calls (fr + 3) h (fr + 1) ++ c_to_projective_calls (fr + 1) (fr + 2) ++
                        p_double_calls (fr + 3) (fr + 2) (fr + 1) ++ c_to_projective_calls (fr + 1) (fr + 2) ++
                        p_double_calls (fr + 3) (fr + 2) (fr + 1) ++ c_to_projective_calls (fr + 1) (fr + 2) ++
                        p_double_calls (fr + 3) (fr + 2) (fr + 1) ++ c_to_extended_calls (fr + 1) h))
          (each (step_prog fr h e) (map (fun k => 2 * k)%nat (seq 0 32)))))) m
     (fun s => contains (cells s) e (recode 63 0 (nibbles b)) /\ only_at [e] m (cells s)) (recode_called a e b m N L H)) as (s0 & (C & O) & E).
  exists (cells s0). split; [exact O|]. rewrite E. clear E.
  set (z := recode 63 0 (nibbles b)) in *. clearbody z. generalize dependent (cells s0). clear s0. intros m0 C O.
  rewrite !after_fst.
  set (mid := e_double_calls (fr + 3) h (fr + 1) ++ _).
  match goal with |- _ = fst (perform_all ?L m0) => replace L with (e_zero_calls h ++ flat_map (base_step_calls fr h z) (map (fun k => 2 * k + 1)%nat (seq 0 32)) ++ mid ++ flat_map (base_step_calls fr h z) (map (fun k => 2 * k)%nat (seq 0 32))) by (unfold mid; now rewrite <- !app_assoc) end.
  rewrite !all_app.
  assert (K : forall l n, small l = true -> contains n e z -> contains (fst (perform_all l n)) e z).
  { intros l n Sl Cn. apply (contains_kept n); [|exact Cn]. intro j. now apply perform_all_kept. }
  rewrite (steps_fst fr h e z _ D He (below_64 (fun k => 2 * k + 1)%nat ltac:(intros k Hk; cbv beta; lia))) by (now apply K).
  apply (steps_fst fr h e z _ D He (below_64 (fun k => 2 * k)%nat ltac:(intros k Hk; cbv beta; lia))).
  apply K; [reflexivity|]. apply K; [apply small_flat; intro; apply step_small|]. now apply K.
Qed.

Lemma fe_same m m' e : (forall x i, x <> e -> m' x i = m x i) -> forall x, x <> e -> as_fe m' x = as_fe m x.
Proof. intros H x N. unfold as_fe. now rewrite !(H x _ N). Qed.
Lemma globals_kept m m' e : only_at [e] m m' -> 0 <= fst e -> globals (as_fe m) -> globals (as_fe m').
Proof.
  intros O He. apply (only_globals (fst e) 0); [|exact He|lia]. intros x N L. apply (fe_same m m' e); [|intros ->; lia].
  intros y i D. apply O. intros [-> |[]]. now apply D.
Qed.
Lemma globals_ext m m' : (forall x, m' x = m x) -> globals m -> globals m'.
Proof. intros H. apply (only_globals 0 0); [|lia|lia]. intros x _ _. apply H. Qed.
Lemma get_e_ext m m' h : (forall x, m' x = m x) -> get_e m' h = get_e m h.
Proof. intro H. unfold get_e. now rewrite !H. Qed.
Lemma base_value fr h a e b m : globals (as_fe m) -> 0 <= h < fr -> array e -> e <> a -> length b = 32%nat -> byte_at b 31 <= 127 -> has_bytes m a b ->
  let m' := as_fe (fst (base_prog fr h a e m)) in
  ext_rep (get_e m' h) (zmul (le_val b) pB) /\ globals m' /\ (forall x, x <> e -> fst x <> h -> fst x < fr -> m' x = as_fe m x).
Proof.
  intros G Hh A N L B H. destruct (base_fst fr h a e b m A N L H) as (m0 & O & E). cbv zeta. rewrite E. clear E.
  pose proof (globals_kept m m0 e O (proj2 A) G) as G0. destruct (base_mult_at (as_fe m0) fr h b G0 Hh L B) as (_ & R & K).
  pose proof (fun x => base_result fr h b m0 x) as E. cbv zeta in R, K.
  split; [rewrite (get_e_ext _ _ h E); exact R|]. split.
  - apply (globals_ext _ _ E). apply (only_globals h fr (as_fe m0)); [exact K|lia|lia|exact G0].
  - intros x X1 X2 X3. rewrite E, K by assumption. apply (fe_same m m0 e); [|exact X1]. intros y i D. apply O. intros [-> |[]]. now apply D.
Qed.

(* ---- the bytes of a point ---- *)
Lemma put_byte m m' l b n w : has_bytes m l b -> m' l (Z.of_nat n) = b2z w -> (forall k, k <> n -> m' l (Z.of_nat k) = m l (Z.of_nat k)) ->
  has_bytes m' l (set_nth n w b).
Proof.
  intros H E K. unfold has_bytes, contains. apply (nth_ext _ _ 0 0); [now rewrite !map_length, seq_length|].
  intros i Hi. rewrite map_length, seq_length, map_length, length_set_nth in Hi.
  rewrite (nth_indep _ 0 (m' l (Z.of_nat 0))) by (now rewrite map_length, seq_length, map_length, length_set_nth).
  rewrite (map_nth (fun j => m' l (Z.of_nat j))), seq_nth by (now rewrite map_length, length_set_nth). cbn [plus].
  change 0 with (b2z x00) at 1. rewrite map_nth. destruct (Nat.eq_dec i n) as [-> |D].
  - now rewrite nth_set_nth_eq.
  - rewrite nth_set_nth_neq by congruence. rewrite K by exact D. now apply bytes_get.
Qed.
Lemma flip_fst (tb : fe -> bytes * fe) (ng : fe -> Z * fe) (M : mem) x y : x <> y ->
  fst (let '(s, m) := (let '(b, f) := tb (M y) in (b, Pointers.put M y f)) in
       let '(neg, m) := (let '(z, f) := ng (m x) in (z, Pointers.put m x f)) in (flip_sign s neg, m)) = flip_sign (fst (tb (M y))) (fst (ng (M x))).
Proof.
  intro N. destruct (tb (M y)) as [b f]. rewrite put_other by exact N. now destruct (ng (M x)).
Qed.
Lemma xyz_fst fr p m : let M := run (invert_calls (fr + 3) (f0 fr) (f2 p) ++ [Mul (f0 (fr + 1)) (f0 p) (f0 fr); Mul (f0 (fr + 2)) (f1 p) (f0 fr)]) m in
  fst (xyz_to_bytes_at fr p m) = flip_sign (fst (FeToBytes (M (f0 (fr + 2))))) (fst (FeIsNegative (M (f0 (fr + 1))))).
Proof.
  cbv zeta. rewrite <- (flip_fst FeToBytes FeIsNegative) by (intro E; injection E; lia). unfold xyz_to_bytes_at. cbv zeta.
  rewrite run_app. change (run (invert_calls (fr + 3) (f0 fr) (f2 p)) m) with (FeInvert_at (fr + 3) (f0 fr) (f2 p) m).
  set (M := run _ (FeInvert_at (fr + 3) (f0 fr) (f2 p) m)). clearbody M. reflexivity.
Qed.

Lemma to_bytes_called l h v m : l <> h -> let s := fst (crun FeToBytes_code (State (vals_of v) (ptrs_of [("s", l); ("h", h)]) m)) in
  has_bytes (cells s) l (fst (FeToBytes (as_fe m h))) /\ only_at [l; h] m (cells s).
Proof.
  intro N. destruct (to_bytes_leaves (State (vals_of v) (ptrs_of [("s", l); ("h", h)]) m) N) as (G1 & _ & G3). split; [exact G1|exact G3].
Qed.
Lemma negative_called l h v m : l <> h -> let s := fst (crun FeIsNegative_code (State (vals_of v) (ptrs_of [("s", l); ("h", h)]) m)) in
  result s = fst (FeIsNegative (as_fe m h)) /\ only_at [l; h] m (cells s).
Proof.
  intro N. pose proof (is_negative_code (State (vals_of v) (ptrs_of [("s", l); ("h", h)]) m) N) as G. cbv zeta in G |- *.
  cbn [ptrs cells] in G. change (ptrs_of [("s", l); ("h", h)] "h") with h in G. change (ptrs_of [("s", l); ("h", h)] "s") with l in G.
  destruct (FeIsNegative (as_fe m h)) as [r f]. destruct G as (G1 & _ & G3). split; [exact G1|exact G3].
Qed.
Lemma flip_put out m b r : has_bytes m out b -> length b = 32%nat ->
  has_bytes (fst (calling (CPut "s" (ELit 31) (EBin U8 OXor (EElem "s" (ELit 31)) (EBin U8 OShl (EVar "b" 0) (ELit 7)))) [("b", r)] [("s", out)] nothing m)) out (flip_sign b r).
Proof.
  intros H L. rewrite calling_fst. unfold called. rewrite put_state. unfold nothing. cbn [fst]. unfold flip_sign.
  apply (put_byte m); [exact H| |].
  - cbn [cells set_cell cval calc wrap ptrs vars]. change (ptrs_of [("s", out)] "s") with out. change (vals_of [("b", r)] "b" 0%nat) with r.
    rewrite eqb_self. change (Z.of_nat 31) with 31. cbn [Z.eqb Pos.eqb andb]. rewrite b2z_bxor, b2z_z2b.
    change 31 with (Z.of_nat 31). rewrite (bytes_get m out b 31 H) by (rewrite L; lia). reflexivity.
  - intros k D. cbn [cells set_cell cval]. destruct (Z.eqb_spec (Z.of_nat k) 31) as [E|]; [|reflexivity]. exfalso. apply D. lia.
Qed.
Lemma array_field l p : array l -> l <> f0 p.
Proof. intros [H _] ->. cbn in H. lia. Qed.
Lemma encode_value fr p out tmp m P : globals (as_fe m) -> 0 <= fr -> p < fr -> array out -> array tmp -> out <> tmp -> on P -> ext_rep (get_e (as_fe m) p) P ->
  has_bytes (fst (encode_prog fr p out tmp m)) out (point_bytes P).
Proof.
  intros G F Hp Ao At N OP R. pose proof (encode_at (as_fe m) fr p G F Hp) as En.
  pose proof (xyz_fst fr p (as_fe m)) as X. cbv zeta in X. destruct (xyz_to_bytes_at fr p (as_fe m)) as [s m']. cbn [fst] in X.
  destruct En as (_ & _ & _ & En). specialize (En P OP R). rewrite <- En, X. clear En X s m' R OP.
  unfold encode_prog. cbv zeta. rewrite !after_fst.
  set (l := invert_calls (fr + 3) (f0 fr) (f2 p) ++ _). set (m1 := fst (perform_all l m)).
  rewrite <- (perform_all_fe l m (f0 (fr + 2))), <- (perform_all_fe l m (f0 (fr + 1))). fold m1. clearbody m1 l.
  set (y := f0 (fr + 2)). set (x := f0 (fr + 1)).
  destruct (calling_with FeToBytes_code [] [("s", out); ("h", y)] nothing m1
    (fun s => has_bytes (cells s) out (fst (FeToBytes (as_fe m1 y))) /\ only_at [out; y] m1 (cells s)) (to_bytes_called out y [] m1 (array_field _ _ Ao))) as (s2 & (B2 & O2) & E2).
  rewrite E2. clear E2. unfold nothing at 2. cbn [fst]. generalize dependent (cells s2). clear s2. intros m2 B2 O2.
  match goal with |- has_bytes (fst (calling _ _ _ ?q _)) _ _ =>
    destruct (calling_with FeIsNegative_code [] [("s", tmp); ("h", x)] q m2
      (fun s => result s = fst (FeIsNegative (as_fe m2 x)) /\ only_at [tmp; x] m2 (cells s)) (negative_called tmp x [] m2 (array_field _ _ At))) as (s3 & (B3 & O3) & E3) end.
  rewrite E3. clear E3. rewrite B3.
  assert (Ex : as_fe m2 x = as_fe m1 x).
  { assert (H : forall i, m2 x i = m1 x i) by (intro i; apply O2; intros [E|[E|[]]]; [now apply (array_field out (fr + 1) Ao)|injection E; lia]).
    unfold as_fe. now rewrite !H. }
  rewrite Ex. apply flip_put; [|apply to_bytes_length].
  apply (contains_kept m2); [|exact B2]. intro i. apply O3. intros [E|[E|[]]]; [now apply N|]. now apply (array_field out (fr + 1) Ao).
Qed.
Lemma public_value fr h a e out tmp b m : globals (as_fe m) -> 0 <= h < fr -> array e -> array out -> array tmp -> e <> a -> out <> tmp ->
  length b = 32%nat -> byte_at b 31 <= 127 -> has_bytes m a b ->
  has_bytes (fst (public_prog fr h a e out tmp m)) out (point_bytes (zmul (le_val b) pB)).
Proof.
  intros G Hh Ae Ao At N N' L B H. destruct (base_value fr h a e b m G Hh Ae N L B H) as (R & G' & _). unfold public_prog. rewrite after_fst.
  apply encode_value; try assumption; try lia. apply on_zmul. exact on_pB.
Qed.
