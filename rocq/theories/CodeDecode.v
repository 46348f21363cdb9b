From Verif Require Import PointerTop PointerMult PointerFacts PointerWitness StepFacts DecodeFacts ScalarRedFacts EdSigFacts PointBytes ZMul CodeFacts CodeBytes CodeLeaf CodeScalar CodeWholeFacts.
From Verif Require Export SpecPointers SpecWhole.
Local Open Scope string_scope.
Local Open Scope list_scope.
Local Open Scope Z_scope.

(* the fields of the points are those of the other memory *)
Definition agree (m : arrays) (M : mem) : Prop := forall x, (snd x <= 3)%nat -> as_fe m x = M x.
Definition fields (l : list call) : bool := forallb (fun c : call => forallb (fun x : loc => Nat.leb (snd x) 3) (args c)) l.
Lemma val0_agree (c : call) M M' : forallb (fun x : loc => Nat.leb (snd x) 3) (args c) = true ->
  (forall x : loc, (snd x <= 3)%nat -> M x = M' x) -> val0 M c = val0 M' c.
Proof.
  intros F E. assert (G : M g_zero = M' g_zero) by (apply E; cbn; lia). rewrite forallb_forall in F.
  assert (H : forall x, In x (args c) -> M x = M' x) by (intros x I; apply E; apply Nat.leb_le; now apply F).
  destruct c; cbn [val0 val args] in *; rewrite ?G; rewrite ?H by (cbn; auto); reflexivity.
Qed.
Lemma run_agree l : forall M M', fields l = true -> (forall x : loc, (snd x <= 3)%nat -> M x = M' x) ->
  forall x : loc, (snd x <= 3)%nat -> run l M x = run l M' x.
Proof.
  induction l as [|c l IH]; intros M M' F E x Hx; [now apply E|]. cbn [fields forallb] in F. apply andb_prop in F. destruct F as [F1 F2].
  change (run l (exec c M) x = run l (exec c M') x). apply IH; [exact F2| |exact Hx].
  intros y Hy. rewrite !exec_put, (val0_agree c M M' F1 E). unfold Pointers.put. now rewrite (E y Hy).
Qed.
Lemma agree_calls l m M : fields l = true -> agree m M -> agree (fst (perform_all l m)) (run l M).
Proof. intros F A x Hx. rewrite perform_all_fe. now apply run_agree. Qed.
Lemma agree_put m m' M h l f : (snd h <= 3)%nat -> (4 <= snd l)%nat -> agree m M -> only_at [l; h] m m' -> as_fe m' h = f -> agree m' (Pointers.put M h f).
Proof.
  intros Hh Hl A O E x Hx. unfold Pointers.put. destruct (loc_eqb_spec x h) as [-> |N]; [exact E|]. rewrite <- (A x Hx).
  assert (K : forall i, m' x i = m x i) by (intro i; apply O; intros [<- |[-> |[]]]; [lia|now apply N]). unfold as_fe. now rewrite !K.
Qed.

Section Decode.
  Context (s tmp tmpX : loc) (b : bytes) (As : array s) (At : array tmp) (Ax : array tmpX) (N1 : s <> tmp) (N2 : s <> tmpX) (L : length b = 32%nat).
  Definition inv (m : arrays) (M : mem) : Prop := agree m M /\ has_bytes m s b.
  Lemma inv_calls l m M : fields l = true -> small l = true -> inv m M -> inv (fst (perform_all l m)) (run l M).
  Proof.
    intros F Sl [A B]. split; [now apply agree_calls|]. apply (contains_kept m); [|exact B]. intro i. apply perform_all_kept; [exact Sl|exact (proj1 As)].
  Qed.
  Lemma inv_put m m' M h l f : (snd h <= 3)%nat -> array l -> s <> l -> inv m M -> only_at [l; h] m m' -> as_fe m' h = f -> inv m' (Pointers.put M h f).
  Proof.
    intros Hh Al N [A B] O E. split; [exact (agree_put m m' M h l f Hh (proj1 Al) A O E)|]. apply (contains_kept m); [|exact B].
    intro i. apply O. intros [E'|[E'|[]]]; [now apply N|]. pose proof (proj1 As) as H. rewrite <- E' in H. lia.
  Qed.
  Lemma other (l h : loc) : array l -> (snd h <= 3)%nat -> l <> h.
  Proof. intros [H _] Hh ->. lia. Qed.
  Lemma inv_negative h m M : (snd h <= 3)%nat -> inv m M -> let q := called FeIsNegative_code [] [("s", tmp); ("h", h)] m in
    result q = fst (FeIsNegative (M h)) /\ inv (cells q) (Pointers.put M h (snd (FeIsNegative (M h)))).
  Proof.
    intros Hh I. pose proof (is_negative_code (State (vals_of []) (ptrs_of [("s", tmp); ("h", h)]) m) (other tmp h At Hh)) as G. cbv zeta in G |- *.
    cbn [ptrs cells] in G. change (ptrs_of [("s", tmp); ("h", h)] "h") with h in G. change (ptrs_of [("s", tmp); ("h", h)] "s") with tmp in G.
    rewrite (proj1 I h Hh) in G. destruct (FeIsNegative (M h)) as [r f]. destruct G as (G1 & G2 & G3). cbn [fst snd].
    split; [exact G1|]. exact (inv_put m _ M h tmp f Hh At N1 I G3 G2).
  Qed.
  Lemma inv_nonzero h m M : (snd h <= 3)%nat -> inv m M -> let q := called FeIsNonZero_code [] [("s", tmp); ("h", h)] m in
    result q = fst (FeIsNonZero (M h)) /\ inv (cells q) (Pointers.put M h (snd (FeIsNonZero (M h)))).
  Proof.
    intros Hh I. pose proof (is_nonzero_code (State (vals_of []) (ptrs_of [("s", tmp); ("h", h)]) m) (other tmp h At Hh)) as G. cbv zeta in G |- *.
    cbn [ptrs cells] in G. change (ptrs_of [("s", tmp); ("h", h)] "h") with h in G. change (ptrs_of [("s", tmp); ("h", h)] "s") with tmp in G.
    rewrite (proj1 I h Hh) in G. destruct (FeIsNonZero (M h)) as [r f]. destruct G as (G1 & G2 & G3). cbn [fst snd].
    split; [exact G1|]. exact (inv_put m _ M h tmp f Hh At N1 I G3 G2).
  Qed.
  Lemma inv_bytes h m M : (snd h <= 3)%nat -> inv m M -> let q := called FeToBytes_code [] [("s", tmpX); ("h", h)] m in
    inv (cells q) (Pointers.put M h (snd (FeToBytes (M h)))).
  Proof.
    intros Hh I. destruct (to_bytes_leaves (State (vals_of []) (ptrs_of [("s", tmpX); ("h", h)]) m) (other tmpX h Ax Hh)) as (_ & G2 & G3).
    cbn [ptrs cells] in G2, G3. change (ptrs_of [("s", tmpX); ("h", h)] "h") with h in G2, G3. change (ptrs_of [("s", tmpX); ("h", h)] "s") with tmpX in G3.
    rewrite (proj1 I h Hh) in G2. exact (inv_put m _ M h tmpX _ Hh Ax N2 I G3 G2).
  Qed.
  Lemma inv_from h m M : (snd h <= 3)%nat -> inv m M -> inv (cells (called FeFromBytes_code [] [("src", s); ("h", h)] m)) (FeFromBytes_at h b M).
  Proof.
    intros Hh I. destruct (from_bytes_code (State (vals_of []) (ptrs_of [("src", s); ("h", h)]) m) b L (proj2 I)) as (G1 & G2).
    cbn [ptrs cells] in G1, G2. change (ptrs_of [("src", s); ("h", h)] "h") with h in G1, G2.
    destruct (inv_put m _ M h tmp _ Hh At N1 I (fun x i H => G2 x i (fun I => H (or_intror I))) G1) as [A B]. split; [|exact B].
    intros x Hx. exact (eq_trans (A x Hx) (eq_sym (store_all_ok h (FeFromBytes b) M x))).
  Qed.
  Lemma let_pair {A B C} (t : A * B) (f : A -> B -> C) : (let '(x, y) := t in f x y) = f (fst t) (snd t).
  Proof. now destruct t. Qed.
  Lemma finish_sim X Y T m M : (snd X <= 3)%nat -> (snd Y <= 3)%nat -> (snd T <= 3)%nat -> inv m M ->
    let q := called FeIsNegative_code [] [("s", tmp); ("h", X)] m in
    let m := if result q =? Z.shiftr (cells q s 31) 7 then cells q else fst (perform_all [Neg X X] (cells q)) in
    inv (fst (perform_all [Mul T X Y] m))
      (FeMul_at T X Y (if fst (FeIsNegative (M X)) =? Z.shiftr (byte_at b 31) 7 then Pointers.put M X (snd (FeIsNegative (M X)))
                       else FeNeg_at X X (Pointers.put M X (snd (FeIsNegative (M X)))))).
  Proof.
    intros HX HY HT I. cbv zeta. destruct (inv_negative X m M HX I) as [R J]. cbv zeta in R, J.
    set (q := called FeIsNegative_code [] [("s", tmp); ("h", X)] m) in *. clearbody q. rewrite R.
    pose proof (bytes_get (cells q) s b 31 (proj2 J) ltac:(rewrite L; lia)) as E. change (Z.of_nat 31) with 31 in E. rewrite E.
    set (r := fst (FeIsNegative (M X))) in *. set (M1 := Pointers.put M X (snd (FeIsNegative (M X)))) in *. clearbody r M1.
    assert (F : forall x : loc, (snd x <= 3)%nat -> Nat.leb (snd x) 3 = true) by (intros; now apply Nat.leb_le).
    change (FeMul_at T X Y ?k) with (run [Mul T X Y] k). change (FeNeg_at X X M1) with (run [Neg X X] M1).
    assert (G : forall n N, inv n N -> inv (fst (perform_all [Mul T X Y] n)) (run [Mul T X Y] N)).
    { intros n N. apply inv_calls; unfold fields, small; cbn [forallb args dst]; rewrite !F by assumption; reflexivity. }
    destruct (r =? Z.shiftr (byte_at b 31) 7); apply G; [exact J|].
    apply inv_calls; [| |exact J]; unfold fields, small; cbn [forallb args dst]; rewrite !F by assumption; reflexivity.
  Qed.
  Lemma decode_sim fr p m M : inv m M ->
    fst (decode_prog fr p s tmp tmpX m) = fst (e_from_bytes_at fr p b M) /\ inv (snd (decode_prog fr p s tmp tmpX m)) (snd (e_from_bytes_at fr p b M)).
  Proof.
    intro I. unfold decode_prog, e_from_bytes_at. cbv zeta.
    assert (H3 : forall q, (snd (f0 q) <= 3)%nat /\ (snd (f1 q) <= 3)%nat /\ (snd (f2 q) <= 3)%nat /\ (snd (f3 q) <= 3)%nat) by (intro q; cbn; lia).
    pose proof (inv_from (f1 p) m M (proj1 (proj2 (H3 p))) I) as I1.
    set (m1 := cells _) in *. set (M1 := FeFromBytes_at _ _ _) in *. clearbody m1 M1. clear I m M.
    set (l1 := One (f2 p) :: _). pose proof (inv_calls l1 m1 M1 eq_refl eq_refl I1) as I2.
    set (m2 := fst (perform_all l1 m1)) in *. set (M2 := run l1 M1) in *. clearbody m2 M2. clear I1 m1 M1 l1.
    pose proof (inv_calls (pow22523_calls (fr + 5) (f0 p) (f0 p)) m2 M2 eq_refl eq_refl I2) as I3.
    change (run (pow22523_calls (fr + 5) (f0 p) (f0 p)) M2) with (fePow22523_at (fr + 5) (f0 p) (f0 p) M2) in I3.
    set (m3 := fst (perform_all (pow22523_calls _ _ _) m2)) in *. set (M3 := fePow22523_at _ _ _ M2) in *. clearbody m3 M3. clear I2 m2 M2.
    set (l3 := Mul (f0 p) (f0 p) (f0 (fr + 2)) :: _). pose proof (inv_calls l3 m3 M3 eq_refl eq_refl I3) as I4.
    set (m4 := fst (perform_all l3 m3)) in *. set (M4 := run l3 M3) in *. clearbody m4 M4. clear I3 m3 M3 l3.
    set (X := f0 p) in *. set (check := f0 (fr + 4)) in *.
    destruct (inv_nonzero check m4 M4 (proj1 (H3 (fr + 4))) I4) as [R5 I5]. cbv zeta in R5, I5.
    set (q5 := called FeIsNonZero_code [] [("s", tmp); ("h", check)] m4) in *. change (result q5 = fst (FeIsNonZero (M4 check))) in R5. change (inv (cells q5) (Pointers.put M4 check (snd (FeIsNonZero (M4 check))))) in I5. clearbody q5. rewrite R5. clear R5.
    unfold FeIsNonZero_at at 1 3. rewrite !(let_pair (FeIsNonZero (M4 check))).
    set (r5 := fst (FeIsNonZero (M4 check))) in *. set (M5 := Pointers.put M4 check (snd (FeIsNonZero (M4 check)))) in *. clearbody r5 M5. clear I4 m4 M4.
    destruct (r5 =? 1).
    - pose proof (inv_calls [Add check (f0 (fr + 3)) (f0 fr)] _ _ eq_refl eq_refl I5) as I6.
      change (run [Add check (f0 (fr + 3)) (f0 fr)] M5) with (FeAdd_at check (f0 (fr + 3)) (f0 fr) M5) in I6.
      set (m6 := fst (perform_all _ (cells q5))) in *. set (M6 := FeAdd_at _ _ _ M5) in *. clearbody m6 M6. clear I5 q5 M5.
      destruct (inv_nonzero check m6 M6 (proj1 (H3 (fr + 4))) I6) as [R7 I7]. cbv zeta in R7, I7.
      set (q7 := called FeIsNonZero_code [] [("s", tmp); ("h", check)] m6) in *. change (result q7 = fst (FeIsNonZero (M6 check))) in R7. change (inv (cells q7) (Pointers.put M6 check (snd (FeIsNonZero (M6 check))))) in I7. clearbody q7. rewrite R7. clear R7.
      unfold FeIsNonZero_at. rewrite !(let_pair (FeIsNonZero (M6 check))).
      set (r7 := fst (FeIsNonZero (M6 check))) in *. set (M7 := Pointers.put M6 check (snd (FeIsNonZero (M6 check)))) in *. clearbody r7 M7. clear I6 m6 M6.
      destruct (r7 =? 1); [split; [reflexivity|exact I7]|].
      pose proof (inv_calls [Mul X X g_SqrtM1] _ _ eq_refl eq_refl I7) as I8.
      change (run [Mul X X g_SqrtM1] M7) with (FeMul_at X X g_SqrtM1 M7) in I8.
      set (m8 := fst (perform_all _ (cells q7))) in *. set (M8 := FeMul_at _ _ _ M7) in *. clearbody m8 M8. clear I7 q7 M7.
      pose proof (inv_bytes X m8 M8 (proj1 (H3 p)) I8) as I9. cbv zeta in I9.
      set (q9 := called FeToBytes_code _ _ m8) in *. clearbody q9. unfold FeToBytes_at. rewrite !(let_pair (FeToBytes (M8 X))).
      set (M9 := Pointers.put M8 X _) in *. clearbody M9. clear I8 m8 M8.
      unfold FeIsNegative_at. rewrite !(let_pair (FeIsNegative (M9 X))). split; [reflexivity|].
      destruct (H3 p) as (HX & HY & _ & HT). exact (finish_sim X (f1 p) (f3 p) (cells q9) M9 HX HY HT I9).
    - unfold FeIsNegative_at. rewrite !(let_pair (FeIsNegative (M5 X))). split; [reflexivity|].
      destruct (H3 p) as (HX & HY & _ & HT). exact (finish_sim X (f1 p) (f3 p) (cells q5) M5 HX HY HT I5).
  Qed.
End Decode.

Lemma agree_self m : agree m (as_fe m).
Proof. now intros x _. Qed.
Lemma agree_e m M p : agree m M -> get_e (as_fe m) p = get_e M p.
Proof. intro A. unfold get_e. rewrite !A by (cbn; lia). reflexivity. Qed.
Lemma decode_value fr p s tmp tmpX b m : globals (as_fe m) -> 0 <= p < fr -> array s -> array tmp -> array tmpX -> s <> tmp -> s <> tmpX ->
  length b = 32%nat -> has_bytes m s b ->
  let '(ok, m') := decode_prog fr p s tmp tmpX m in
  if ok then decoded b (get_e (as_fe m') p) else forall x, ~ on_curve x (enc_y b).
Proof.
  intros G Hp As At Ax N1 N2 L H.
  destruct (decode_sim s tmp tmpX b As At Ax N1 N2 L fr p m (as_fe m) (conj (agree_self m) H)) as [E [A _]].
  pose proof (decode_at (as_fe m) fr p b G Hp L) as D.
  destruct (decode_prog fr p s tmp tmpX m) as [ok m'], (e_from_bytes_at fr p b (as_fe m)) as [ok' M']. cbn [fst snd] in E, A. subst ok'.
  destruct D as [_ D]. destruct ok; [|exact D]. rewrite (agree_e m' M' p A). exact (proj2 D).
Qed.
Lemma box_bytes l m1 M1 (out : loc) (h : loc) : array out -> (snd h <= 3)%nat -> agree m1 M1 -> fields l = true ->
  has_bytes (cells (called FeToBytes_code [] [("s", out); ("h", h)] (fst (perform_all l m1)))) out (fst (FeToBytes (run l M1 h))).
Proof.
  intros Ao Hh A F. pose proof (agree_calls l m1 M1 F A h Hh) as E. rewrite <- E.
  apply (to_bytes_called out h [] (fst (perform_all l m1))). intros ->. destruct Ao as [Ao _]. lia.
Qed.
Lemma box_sim fr s tmp tmpX b m : array s -> array tmp -> array tmpX -> s <> tmp -> s <> tmpX -> length b = 32%nat -> has_bytes m s b ->
  let '(ok, m') := box_prog fr s tmp tmpX m in
  match fst (ToBox_at fr b (as_fe m)) with Some u => ok = true /\ has_bytes m' s u | None => ok = false end.
Proof.
  intros As At Ax N1 N2 L H. unfold box_prog, ToBox_at. cbv zeta.
  destruct (decode_sim s tmp tmpX b As At Ax N1 N2 L (fr + 3) fr m (as_fe m) (conj (agree_self m) H)) as [E [A _]].
  destruct (decode_prog (fr + 3) fr s tmp tmpX m) as [ok m1], (e_from_bytes_at (fr + 3) fr b (as_fe m)) as [ok' M1]. cbn [fst snd] in E, A. subst ok'.
  destruct ok; [|reflexivity].
  pose proof (agree_calls [One (f0 (fr + 1)); Sub (f0 (fr + 1)) (f0 (fr + 1)) (f1 fr); One (f0 (fr + 2)); Add (f0 (fr + 2)) (f0 (fr + 2)) (f1 fr)] m1 M1 eq_refl A) as A2.
  set (m2 := fst (perform_all _ m1)) in *. set (M2 := run _ M1) in *. clearbody m2 M2. clear A m1 M1.
  pose proof (agree_calls (invert_calls (fr + 3) (f0 (fr + 1)) (f0 (fr + 1))) m2 M2 eq_refl A2) as A3.
  change (run (invert_calls (fr + 3) (f0 (fr + 1)) (f0 (fr + 1))) M2) with (FeInvert_at (fr + 3) (f0 (fr + 1)) (f0 (fr + 1)) M2) in A3.
  set (m3 := fst (perform_all _ m2)) in *. set (M3 := FeInvert_at _ _ _ M2) in *. clearbody m3 M3. clear A2 m2 M2.
  pose proof (box_bytes [Mul (f0 (fr + 2)) (f0 (fr + 2)) (f0 (fr + 1))] m3 M3 s (f0 (fr + 2)) As ltac:(cbn; lia) A3 eq_refl) as B.
  change (run [Mul (f0 (fr + 2)) (f0 (fr + 2)) (f0 (fr + 1))] M3) with (FeMul_at (f0 (fr + 2)) (f0 (fr + 2)) (f0 (fr + 1)) M3) in B.
  set (M4 := FeMul_at _ _ _ M3) in *. clearbody M4. unfold FeToBytes_at. destruct (FeToBytes (M4 (f0 (fr + 2)))) as [u f]. cbn [fst] in B |- *. split; [reflexivity|exact B].
Qed.
Lemma box_value fr s tmp tmpX b m : globals (as_fe m) -> 0 <= fr -> array s -> array tmp -> array tmpX -> s <> tmp -> s <> tmpX ->
  length b = 32%nat -> has_bytes m s b ->
  let '(ok, m') := box_prog fr s tmp tmpX m in
  if ok then exists u, has_bytes m' s u /\ (exists x, on_curve x (enc_y b)) /\ F_encodes u ((F1 + enc_y b) / (F1 - enc_y b))%F
  else forall x, ~ on_curve x (enc_y b).
Proof.
  intros G F As At Ax N1 N2 L H. pose proof (box_sim fr s tmp tmpX b m As At Ax N1 N2 L H) as Sm.
  pose proof (to_box_at (as_fe m) fr [] [] b G F L) as T. pose proof (pub_ToBox_ok [] [] b L) as P.
  destruct (box_prog fr s tmp tmpX m) as [ok m'], (ToBox_at fr b (as_fe m)) as [o M']. cbn [fst] in Sm. destruct T as [_ T].
  destruct (pub_ToBox (Pub [] [] b)) as [u|e|]; [|destruct P as [P _]|contradiction]; subst o; cbv beta iota in Sm.
  - destruct Sm as [-> B]. exists u. split; [exact B|]. exact P.
  - subst ok. exact P.
Qed.
Lemma box_outcome fr s tmp tmpX b m a num : globals (as_fe m) -> 0 <= fr -> array s -> array tmp -> array tmpX -> s <> tmp -> s <> tmpX ->
  length b = 32%nat -> has_bytes m s b ->
  let '(ok, m') := box_prog fr s tmp tmpX m in
  match pub_ToBox (Pub a num b) with Ok u => ok = true /\ has_bytes m' s u | _ => ok = false end.
Proof.
  intros G F As At Ax N1 N2 L H. pose proof (box_sim fr s tmp tmpX b m As At Ax N1 N2 L H) as Sm.
  pose proof (to_box_at (as_fe m) fr a num b G F L) as T.
  destruct (box_prog fr s tmp tmpX m) as [ok m'], (ToBox_at fr b (as_fe m)) as [o M']. cbn [fst] in Sm. destruct T as [_ T].
  destruct (pub_ToBox (Pub a num b)) as [u|e|]; subst o; exact Sm.
Qed.

(* ---- numbers modulo the group order ---- *)
Lemma muladd_value s a b c : length a = 32%nat -> length b = 32%nat -> length c = 32%nat ->
  has_bytes (cells s) (ptrs s "a") a -> has_bytes (cells s) (ptrs s "b") b -> has_bytes (cells s) (ptrs s "c") c ->
  has_bytes (cells (fst (crun ScMulAdd_code s))) (ptrs s "s") (le_bytes 32 ((le_val a * le_val b + le_val c) mod ell)).
Proof.
  intros A B C HA HB HC. rewrite <- (le_bytes_unique _ _ (ScMulAdd_length a b c) (ScMulAdd_ok a b c A B C)).
  exact (proj1 (muladd_code s a b c A B C HA HB HC)).
Qed.
Lemma reduce_value s b : length b = 64%nat -> has_bytes (cells s) (ptrs s "s") b ->
  has_bytes (cells (fst (crun ScReduce_code s))) (ptrs s "out") (le_bytes 32 (le_val b mod ell)).
Proof.
  intros L H. rewrite <- (le_bytes_unique _ _ (ScReduce_length b) (ScReduce_ok b L)). exact (proj1 (reduce_code s b L H)).
Qed.
Lemma minimal_value s b : length b = 32%nat -> has_bytes (cells s) (ptrs s "scalar") b -> contains (cells s) (ptrs s "order") order ->
  vars (fst (crun ScMinimal_code s)) "result" 0%nat = (if le_val b <? ell then 1 else 0).
Proof. intros L H O. rewrite (minimal_code_ok s b L H O), (ScMinimal_ok b L). reflexivity. Qed.

(* ---- a memory with the package variables and bytes in one array ---- *)
Definition held (l0 : loc) (b : bytes) : arrays := fun l i =>
  if loc_eqb l l0 then nth (Z.to_nat i) (map b2z b) 0 else limb (Z.to_nat i) (start FeZero l).
Lemma held_globals l0 b : 0 <= fst l0 -> globals (as_fe (held l0 b)).
Proof.
  intro H. apply (only_globals (fst l0) 0 (start FeZero)); [|exact H|lia|apply start_globals].
  intros x _ Hx. unfold as_fe, held. rewrite neqb by (intros ->; lia). now destruct (start FeZero x).
Qed.
Lemma held_bytes l0 b : has_bytes (held l0 b) l0 b.
Proof.
  unfold has_bytes, contains, held. rewrite eqb_self. apply (nth_ext _ _ 0 0); [now rewrite map_length, seq_length|].
  intros i Hi. rewrite map_length, seq_length in Hi. rewrite (nth_indep _ 0 ((fun j => nth (Z.to_nat (Z.of_nat j)) (map b2z b) 0) 0%nat)) by now rewrite map_length, seq_length.
  rewrite (map_nth (fun j => nth (Z.to_nat (Z.of_nat j)) (map b2z b) 0)), seq_nth by exact Hi. now rewrite Nat2Z.id.
Qed.
Lemma one_B : point_bytes (zmul (le_val (x01 :: repeat x00 31)) pB) = x58 :: repeat x66 31.
Proof. replace (le_val (x01 :: repeat x00 31)) with 1 by reflexivity. rewrite zmul_1. vm_compute. reflexivity. Qed.
