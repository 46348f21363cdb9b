(* Using an encoder after Close, and after a failed write (C59, C60). *)
From Verif Require Export B64StreamFacts GoBase64Facts.

Lemma run_calls_never {S} (wr : Writer S) cs : never_fails wr -> forall s, exists s', run_calls wr cs s = (None, s').
Proof.
  intro H. induction cs as [|c cs IH]; intro s; [exists s; reflexivity|]. cbn [run_calls].
  pose proof (H c s) as E. destruct (wr c s) as [[n x] s1]. cbn [fst snd] in E. subst x. apply IH.
Qed.

(* the encoder after Close *)
Definition closed (e : enc) : enc := if (0 <? e_index e)%nat then Enc 0 (e_buf e) 0 else e.
Lemma enc_close_never {S} (wr : Writer S) e s : never_fails wr ->
  enc_close wr (e, s) = (None, (closed e, snd (run_calls wr (close_plan e) s))).
Proof.
  intro H. unfold enc_close, close_plan, closed. destruct (0 <? e_index e)%nat.
  - cbn [run_calls]. pose proof (H (StdEncode (enc_pending e)) s) as E1. destruct (wr (StdEncode (enc_pending e)) s) as [[n x] s1]. cbn [fst snd] in E1. subst x.
    pose proof (H [x0a] s1) as E2. destruct (wr [x0a] s1) as [[n2 x] s2]. cbn [fst snd] in E2. subst x. reflexivity.
  - cbn [run_calls]. pose proof (H [x0a] s) as E2. destruct (wr [x0a] s) as [[n2 x] s2]. cbn [fst snd] in E2. subst x. reflexivity.
Qed.

Lemma session_on_spec {S} (obs : S -> bytes) (wr : Writer S) segs e s : honest obs wr -> never_fails wr -> enc_ok e ->
  let x := enc_pending e ++ concat segs in
  exists s', session_on wr segs (e, s) = (None, (closed (snd (plan_all e segs)), s')) /\
    obs s' = obs s ++ wrap72 (col e) (StdEncode (full3 x)) ++ StdEncode (rest3 x) ++ [x0a].
Proof.
  intros Hh Hn He x. destruct (plan_all_spec segs e He) as (P1 & P2 & P3 & P4). fold x in P1, P2, P4.
  unfold session_on. destruct (write_all_plan wr segs e s) as (e1 & ->).
  destruct (run_calls_never wr (fst (plan_all e segs)) Hn s) as (s1 & E1). rewrite E1.
  rewrite enc_close_never by exact Hn. destruct (run_calls_never wr (close_plan (snd (plan_all e segs))) Hn s1) as (s2 & E2).
  rewrite E2. exists s2. split; [reflexivity|].
  destruct (run_calls_honest obs wr Hh _ _ _ _ E1) as (q & r & C1 & O1 & R1). rewrite (R1 eq_refl), app_nil_r in C1.
  destruct (run_calls_honest obs wr Hh _ _ _ _ E2) as (q2 & r2 & C2 & O2 & R2). rewrite (R2 eq_refl), app_nil_r in C2.
  rewrite O2, O1, <- C1, <- C2, P1, close_plan_spec, P2, <- app_assoc by exact P3. reflexivity.
Qed.

Lemma closed_ok e : enc_ok e -> enc_ok (closed e) /\ enc_pending (closed e) = [] /\
  (enc_pending e <> [] -> col (closed e) = 0%nat) /\ (enc_pending e = [] -> col (closed e) = col e).
Proof.
  intro He. pose proof (pending_length e He) as L. pose proof He as (B & I & Ln & M). unfold closed.
  destruct (Nat.ltb_spec 0 (e_index e)) as [H|H].
  - split; [repeat split; cbn; try assumption; lia|]. split; [reflexivity|]. split; [reflexivity|].
    intro E. rewrite E in L. cbn in L. lia.
  - assert (E : enc_pending e = []) by (destruct (enc_pending e); [reflexivity|cbn in L; lia]).
    split; [exact He|]. split; [exact E|]. split; [intro N; contradiction|reflexivity].
Qed.

Lemma second_session S (obs : S -> bytes) (wr : Writer S) segs1 segs2 s : honest obs wr -> never_fails wr ->
  let x1 := concat segs1 in let x2 := concat segs2 in
  exists es1 es2 out2, session_on wr segs1 (NewEncoder, s) = (None, es1) /\ session_on wr segs2 es1 = (None, es2) /\
    obs (snd es1) = obs s ++ spec_encoded x1 /\ obs (snd es2) = obs (snd es1) ++ out2 /\
    no_lf out2 = spec_base64 x2 /\
    (x2 = [] -> out2 = [x0a]) /\
    ((length x1 mod 3 <> 0)%nat -> out2 = spec_encoded x2) /\
    ((length x1 mod 3 = 0)%nat -> exists t, spec_encoded x1 = t ++ [x0a] /\ spec_encoded (x1 ++ x2) = t ++ out2).
Proof.
  intros Hh Hn x1 x2.
  destruct (session_on_spec obs wr segs1 NewEncoder s Hh Hn NewEncoder_ok) as (s1 & E1 & O1).
  destruct (plan_all_spec segs1 NewEncoder NewEncoder_ok) as (_ & P2 & P3 & P4).
  set (e1 := snd (plan_all NewEncoder segs1)) in *.
  change (enc_pending NewEncoder) with (@nil byte) in *. cbn [app] in *. change (col NewEncoder) with 0%nat in *. fold x1 in O1, P2, P4.
  destruct (closed_ok e1 P3) as (K1 & K2 & K3 & K4).
  destruct (session_on_spec obs wr segs2 (closed e1) s1 Hh Hn K1) as (s2 & E2 & O2). rewrite K2 in O2. cbn [app] in O2. fold x2 in O2.
  exists (closed e1, s1). eexists. exists (wrap72 (col (closed e1)) (StdEncode (full3 x2)) ++ StdEncode (rest3 x2) ++ [x0a]).
  cbn [snd]. split; [exact E1|]. split; [exact E2|]. cbn [snd].
  split; [rewrite O1, spec_encoded_wrapped; reflexivity|]. split; [exact O2|]. split; [|split; [|split]].
  - rewrite !no_lf_app, no_lf_wrap. rewrite <- (no_lf_spec_encoded x2), spec_encoded_wrapped. unfold wrapped.
    rewrite !no_lf_app, no_lf_wrap. reflexivity.
  - intros ->. reflexivity.
  - intro N. assert (NE : enc_pending e1 <> []).
    { rewrite P2. intro Q. apply N. rewrite <- length_rest3, Q. reflexivity. }
    rewrite (K3 NE), spec_encoded_wrapped. reflexivity.
  - intro N. assert (R1 : rest3 x1 = []) by (pose proof (length_rest3 x1) as L; rewrite N in L; destruct (rest3 x1); [reflexivity|discriminate]).
    assert (F1 : full3 x1 = x1) by (rewrite <- (full3_rest3 x1) at 2; rewrite R1, app_nil_r; reflexivity).
    assert (C : col (closed e1) = (length (StdEncode x1) mod 72)%nat).
    { rewrite K4 by (rewrite P2; exact R1). rewrite P4, F1. reflexivity. }
    exists (wrap72 0 (StdEncode x1)). rewrite !spec_encoded_wrapped. unfold wrapped. rewrite R1, F1. split; [reflexivity|].
    destruct (rest3_app x1 x2 N) as [-> ->]. rewrite StdEncode_app by exact N. rewrite wrap72_app, C by lia.
    rewrite Nat.add_0_l, <- app_assoc. reflexivity.
Qed.

(* an encoder that is at the start of a line only after data that is no multiple of 3 *)
Lemma reuse_refuted : exists x1 x2 es1 es2,
  session_on buffer_write [x1] (NewEncoder, []) = (None, es1) /\
  session_on buffer_write [x2] es1 = (None, es2) /\ snd es2 <> snd es1 ++ spec_encoded x2.
Proof.
  exists (repeat x41 3), (repeat x42 54). do 2 eexists. split; [vm_compute; reflexivity|]. split; [vm_compute; reflexivity|].
  intro H. vm_compute in H. discriminate.
Qed.

(* ---- C60 ---- *)
(* past 54 the line counter never hits the limit again *)
Lemma plan_past p : forall e, length (e_buf e) = 3%nat -> (e_index e < 3)%nat -> 54 <= e_line e ->
  concat (fst (enc_plan e p)) = StdEncode (full3 (enc_pending e ++ p)).
Proof.
  induction p as [|b p IH]; intros e B I L.
  - cbn [enc_plan fst concat]. rewrite app_nil_r.
    assert (Lp : length (enc_pending e) = e_index e) by (unfold enc_pending; rewrite firstn_length; lia).
    destruct (split3_unique [] (enc_pending e) (enc_pending e)) as [F _]; [reflexivity|reflexivity|lia|]. rewrite <- F. reflexivity.
  - cbn [enc_plan].
    assert (Hp : firstn (e_index e + 1) (set_nth (e_index e) b (e_buf e)) = enc_pending e ++ [b] /\ length (set_nth (e_index e) b (e_buf e)) = 3%nat).
    { unfold enc_pending. destruct (e_buf e) as [|b0 [|b1 [|b2 [|]]]]; try discriminate B.
      destruct (e_index e) as [|[|[|]]]; try lia; split; reflexivity. }
    destruct Hp as [Hp Hl]. destruct (Nat.eqb_spec (e_index e + 1) 3) as [E|E].
    + rewrite E in Hp. rewrite firstn_all2 in Hp by lia.
      destruct (Z.eqb_spec (e_line e + 3) decodedSize) as [Q|_]; [unfold decodedSize in Q; lia|].
      specialize (IH (Enc (e_line e + 3) [x00; x00; x00] 0)). cbn [e_buf e_index e_line] in IH.
      destruct (enc_plan (Enc (e_line e + 3) [x00; x00; x00] 0) p) as [cs e']. cbn [fst] in *. cbn [concat]. rewrite IH by (try reflexivity; lia).
      change (enc_pending (Enc (e_line e + 3) [x00; x00; x00] 0) ++ p) with p.
      replace (enc_pending e ++ b :: p) with (set_nth (e_index e) b (e_buf e) ++ p) by (rewrite Hp, <- app_assoc; reflexivity).
      destruct (rest3_app (set_nth (e_index e) b (e_buf e)) p) as [_ ->]; [rewrite Hl; reflexivity|].
      rewrite StdEncode_app by (rewrite Hl; reflexivity). reflexivity.
    + specialize (IH (Enc (e_line e) (set_nth (e_index e) b (e_buf e)) (e_index e + 1))). cbn [e_buf e_index e_line] in IH.
      rewrite IH by (try exact Hl; lia). f_equal. f_equal. unfold enc_pending at 1. cbn [e_buf e_index]. rewrite Hp, <- app_assoc. reflexivity.
Qed.

Lemma quantum_accepted a b c p n l b0 b1 b2 t sch : l + 3 <> 54 ->
  enc_write_loop failing_write (a :: b :: c :: p) n (Enc l [b0; b1; b2] 0) (t, None :: sch) =
  enc_write_loop failing_write p (n + 3) (Enc (l + 3) [x00; x00; x00] 0) (t ++ StdEncode [a; b; c], sch).
Proof.
  intro H. cbn [enc_write_loop e_index e_buf e_line set_nth Nat.add Nat.eqb failing_write snd fst].
  destruct (Z.eqb_spec (l + 3) decodedSize) as [Q|_]; [contradiction|reflexivity].
Qed.
Lemma quanta_accepted k : forall y p n l b0 b1 b2 t sch, length y = (3 * k)%nat -> l + 3 * Z.of_nat k < 54 ->
  exists b0' b1' b2', enc_write_loop failing_write (y ++ p) n (Enc l [b0; b1; b2] 0) (t, repeat None k ++ sch) =
  enc_write_loop failing_write p (n + 3 * Z.of_nat k) (Enc (l + 3 * Z.of_nat k) [b0'; b1'; b2'] 0) (t ++ StdEncode y, sch).
Proof.
  induction k as [|k IH]; intros y p n l b0 b1 b2 t sch L H.
  - destruct y; [|discriminate L]. exists b0, b1, b2. cbn [app repeat]. change (StdEncode []) with (@nil byte).
    rewrite app_nil_r. change (3 * Z.of_nat 0) with 0. rewrite !Z.add_0_r. reflexivity.
  - destruct y as [|a [|b [|c y]]]; cbn [length] in L; try lia. cbn [repeat app]. rewrite quantum_accepted by lia.
    edestruct (IH y p (n + 3) (l + 3) x00 x00 x00 (t ++ StdEncode [a; b; c]) sch) as (c0 & c1 & c2 & E); [lia|lia|].
    exists c0, c1, c2. etransitivity; [exact E|]. change (a :: b :: c :: y) with ([a; b; c] ++ y).
    rewrite (StdEncode_app [a; b; c] y) by reflexivity. rewrite app_assoc, Nat2Z.inj_succ.
    replace (n + 3 + 3 * Z.of_nat k) with (n + 3 * Z.succ (Z.of_nat k)) by lia.
    replace (l + 3 + 3 * Z.of_nat k) with (l + 3 * Z.succ (Z.of_nat k)) by lia. reflexivity.
Qed.
Lemma fail_at_newline y x : length y = 54%nat ->
  exists e, enc_write failing_write y (NewEncoder, ([], newline_refused x)) = ((51, Some x), (e, (StdEncode y, []))) /\
    e_line e = 54 /\ e_index e = 0%nat /\ length (e_buf e) = 3%nat.
Proof.
  intro L. rewrite <- (firstn_skipn 51 y).
  assert (L1 : length (firstn 51 y) = (3 * 17)%nat) by (rewrite firstn_length, L; reflexivity).
  assert (L2 : length (skipn 51 y) = 3%nat) by (rewrite skipn_length, L; reflexivity).
  revert L1 L2. generalize (firstn 51 y) (skipn 51 y). clear y L. intros y z L1 L2.
  unfold enc_write. cbn [fst snd].
  destruct (quanta_accepted 17 y z 0 0 x00 x00 x00 [] [None; Some (0%nat, x)] L1 eq_refl) as (b0 & b1 & b2 & H).
  change (repeat None 17 ++ [None; Some (0%nat, x)]) with (newline_refused x) in H.
  destruct z as [|a [|b [|c [|]]]]; try discriminate L2. exists (Enc 54 [x00; x00; x00] 0).
  split; [|split; [|split]]; try reflexivity.
  rewrite StdEncode_app by (rewrite L1; reflexivity).
  etransitivity; [exact H|].
  cbn [enc_write_loop e_index e_buf e_line set_nth Nat.add Nat.eqb failing_write snd fst].
  change (0 + 3 * Z.of_nat 17 + 3 =? decodedSize) with true. cbv iota.
  cbn [failing_write snd fst firstn length app]. rewrite app_nil_r. reflexivity.
Qed.

Lemma no_more_breaks y x z : length y = 54%nat ->
  exists es n es', enc_write failing_write y (NewEncoder, ([], newline_refused x)) = ((51, Some x), es) /\
    enc_write failing_write z es = ((n, None), es') /\
    fst (snd es') = spec_base64 (y ++ firstn (3 * (length z / 3)) z).
Proof.
  intro L. destruct (fail_at_newline y x L) as (e & E & H1 & H2 & H3).
  exists (e, (StdEncode y, [])). unfold enc_write at 2. cbn [fst snd].
  destruct (enc_write_loop_plan failing_write z 0 e (StdEncode y, [])) as (n & e1 & H).
  assert (R : forall cs t, run_calls failing_write cs (t, []) = (None, (t ++ concat cs, []))).
  { clear. induction cs as [|c cs IH]; intro t; [cbn [run_calls concat]; rewrite app_nil_r; reflexivity|].
    cbn [run_calls failing_write snd fst concat]. rewrite IH, app_assoc. reflexivity. }
  rewrite R in H. eexists n, _. split; [exact E|]. split; [exact H|]. cbn [fst snd].
  rewrite plan_past by lia. unfold enc_pending. rewrite H2. cbn [firstn app].
  rewrite <- StdEncode_app by (rewrite L; reflexivity). unfold full3. rewrite (Nat.mul_comm 3). rewrite <- StdEncode_spec. reflexivity.
Qed.
