(* Facts about the model of package base64. *)
From Verif Require Export B64Stream GoBase64Facts.

(* ---- wrapping ---- *)
(* a newline after every 72nd character; [col] characters are already on the
   current line *)
Fixpoint wrap72 (col : nat) (t : bytes) : bytes :=
  match t with
  | [] => []
  | c :: r => if (S col =? 72)%nat then c :: x0a :: wrap72 0 r
              else c :: wrap72 (S col) r
  end.

Lemma wrap72_app t : forall col u, (col < 72)%nat ->
  wrap72 col (t ++ u) = wrap72 col t ++ wrap72 ((col + length t) mod 72) u.
Proof.
  induction t as [|c t IH]; intros col u Hc.
  - cbn [app wrap72 length]. rewrite Nat.add_0_r, Nat.mod_small by lia. reflexivity.
  - cbn [app wrap72 length]. destruct (S col =? 72)%nat eqn:E.
    + apply Nat.eqb_eq in E. rewrite IH by lia. cbn [app].
      replace (col + S (length t))%nat with (0 + length t + 1 * 72)%nat by lia.
      rewrite Nat.mod_add by lia. reflexivity.
    + apply Nat.eqb_neq in E. rewrite IH by lia. cbn [app].
      replace (S col + length t)%nat with (col + S (length t))%nat by lia. reflexivity.
Qed.

Lemma wrap72_4 col a b c d : (col < 72)%nat -> (col mod 4 = 0)%nat ->
  wrap72 col [a; b; c; d] = [a; b; c; d] ++ (if (col + 4 =? 72)%nat then [x0a] else []).
Proof.
  intros H1 H2. cbn [wrap72].
  assert (Hc : (col <= 68)%nat).
  { pose proof (Nat.div_mod col 4 ltac:(lia)). lia. }
  destruct (S col =? 72)%nat eqn:E1; [apply Nat.eqb_eq in E1; lia|].
  destruct (S (S col) =? 72)%nat eqn:E2; [apply Nat.eqb_eq in E2; lia|].
  destruct (S (S (S col)) =? 72)%nat eqn:E3; [apply Nat.eqb_eq in E3; lia|].
  replace (col + 4)%nat with (S (S (S (S col)))) by lia.
  destruct (S (S (S (S col))) =? 72)%nat; reflexivity.
Qed.

Lemma no_lf_wrap t : forall col, no_lf (wrap72 col t) = no_lf t.
Proof.
  unfold no_lf. induction t as [|c t IH]; intro col; [reflexivity|].
  cbn [wrap72]. destruct (S col =? 72)%nat; cbn [filter]; destruct (negb (beqb c x0a)); cbn [filter];
    rewrite ?beqb_refl; cbn [negb]; rewrite IH; reflexivity.
Qed.

Lemma no_lf_app a b : no_lf (a ++ b) = no_lf a ++ no_lf b.
Proof. apply filter_app. Qed.

Lemma no_lf_nlfree t : nlfree t -> no_lf t = t.
Proof.
  induction t as [|c r IH]; intro H; [reflexivity|]. apply nlfree_cons in H. destruct H as [H1 H2].
  unfold no_lf. cbn [filter]. unfold is_nl in H1. apply orb_false_iff in H1. rewrite (proj1 H1). cbn [negb].
  f_equal. exact (IH H2).
Qed.

(* ---- the encoder as a list of underlying writes ---- *)
Fixpoint run_calls {S} (wr : Writer S) (cs : list bytes) (s : S) : option error * S :=
  match cs with
  | [] => (None, s)
  | c :: r => match wr c s with
              | ((_, Some e), s) => (Some e, s)
              | ((_, None), s) => run_calls wr r s
              end
  end.

Lemma run_calls_app {S} (wr : Writer S) a b s :
  run_calls wr (a ++ b) s =
  match run_calls wr a s with (None, s) => run_calls wr b s | r => r end.
Proof.
  revert s; induction a as [|c a IH]; intro s; cbn [app run_calls]; [reflexivity|].
  destruct (wr c s) as [[n [e|]] s']; [reflexivity|apply IH].
Qed.

(* the underlying writes of Write(p) if none fails, and the encoder afterwards *)
Fixpoint enc_plan (e : enc) (p : bytes) : list bytes * enc :=
  match p with
  | [] => ([], e)
  | b :: r =>
      let buf := set_nth (e_index e) b (e_buf e) in
      let index := (e_index e + 1)%nat in
      if (index =? 3)%nat then
        let line := e_line e + 3 in
        if line =? decodedSize
        then let '(cs, e') := enc_plan (Enc 0 [x00; x00; x00] 0) r in (StdEncode buf :: [x0a] :: cs, e')
        else let '(cs, e') := enc_plan (Enc line [x00; x00; x00] 0) r in (StdEncode buf :: cs, e')
      else enc_plan (Enc (e_line e) buf index) r
  end.

Definition close_plan (e : enc) : list bytes :=
  if (0 <? e_index e)%nat then [StdEncode (enc_pending e); [x0a]] else [[x0a]].

Lemma enc_write_loop_plan {S} (wr : Writer S) p : forall w e s,
  exists n e1, enc_write_loop wr p w e s =
    match run_calls wr (fst (enc_plan e p)) s with
    | (None, s') => ((n, None), (snd (enc_plan e p), s'))
    | (Some x, s') => ((n, Some x), (e1, s'))
    end.
Proof.
  induction p as [|b r IH]; intros w e s.
  - exists w, e. reflexivity.
  - cbn [enc_write_loop enc_plan]. destruct (e_index e + 1 =? 3)%nat.
    + destruct (e_line e + 3 =? decodedSize) eqn:El.
      * destruct (wr (StdEncode (set_nth (e_index e) b (e_buf e))) s) as [[n [x|]] s1] eqn:E1.
        -- do 2 eexists. destruct (enc_plan _ r) as [cs e']. cbn [fst snd run_calls]. rewrite E1. reflexivity.
        -- destruct (wr [x0a] s1) as [[n2 [x|]] s2] eqn:E2.
           ++ do 2 eexists. destruct (enc_plan _ r) as [cs e']. cbn [fst snd run_calls]. rewrite E1, E2. reflexivity.
           ++ destruct (IH (w + 3) (Enc 0 [x00; x00; x00] 0) s2) as (n' & e1 & H).
              exists n', e1. rewrite H. destruct (enc_plan _ r) as [cs e'].
              cbn [fst snd run_calls]. rewrite E1, E2. reflexivity.
      * destruct (wr (StdEncode (set_nth (e_index e) b (e_buf e))) s) as [[n [x|]] s1] eqn:E1.
        -- do 2 eexists. destruct (enc_plan _ r) as [cs e']. cbn [fst snd run_calls]. rewrite E1. reflexivity.
        -- destruct (IH (w + 3) (Enc (e_line e + 3) [x00; x00; x00] 0) s1) as (n' & e1 & H).
           exists n', e1. rewrite H. destruct (enc_plan _ r) as [cs e'].
           cbn [fst snd run_calls]. rewrite E1. reflexivity.
    + apply IH.
Qed.

Lemma enc_close_plan {S} (wr : Writer S) e s :
  exists e1, enc_close wr (e, s) =
    match run_calls wr (close_plan e) s with
    | (None, s') => (None, (e1, s'))
    | (Some x, s') => (Some x, (e1, s'))
    end.
Proof.
  unfold enc_close, close_plan. destruct (0 <? e_index e)%nat.
  - cbn [run_calls]. destruct (wr (StdEncode (enc_pending e)) s) as [[n [x|]] s1].
    + eexists. reflexivity.
    + destruct (wr [x0a] s1) as [[n2 [x|]] s2]; eexists; reflexivity.
  - cbn [run_calls]. destruct (wr [x0a] s) as [[n2 [x|]] s2]; eexists; reflexivity.
Qed.

(* reachable encoder states (no failed write so far) *)
Definition enc_ok (e : enc) : Prop :=
  length (e_buf e) = 3%nat /\ (e_index e < 3)%nat /\ 0 <= e_line e < 54 /\ e_line e mod 3 = 0.
Definition col (e : enc) : nat := (Z.to_nat (e_line e) / 3 * 4)%nat.

Lemma NewEncoder_ok : enc_ok NewEncoder.
Proof. repeat split; cbn; lia. Qed.

(* full groups and the rest *)
Definition full3 (x : bytes) : bytes := firstn (length x / 3 * 3) x.
Definition rest3 (x : bytes) : bytes := skipn (length x / 3 * 3) x.

Lemma full3_rest3 x : full3 x ++ rest3 x = x. Proof. apply firstn_skipn. Qed.
Lemma length_full3 x : length (full3 x) = (length x / 3 * 3)%nat.
Proof. unfold full3. rewrite firstn_length. pose proof (Nat.div_mod (length x) 3 ltac:(lia)). lia. Qed.
Lemma full3_mod x : (length (full3 x) mod 3 = 0)%nat.
Proof. rewrite length_full3. apply Nat.mod_mul. lia. Qed.
Lemma length_rest3 x : length (rest3 x) = (length x mod 3)%nat.
Proof. unfold rest3. rewrite skipn_length. pose proof (Nat.div_mod (length x) 3 ltac:(lia)). lia. Qed.
Lemma rest3_lt x : (length (rest3 x) < 3)%nat.
Proof. rewrite length_rest3. apply Nat.mod_upper_bound. lia. Qed.
Lemma split3_unique g r x : x = g ++ r -> (length g mod 3 = 0)%nat -> (length r < 3)%nat ->
  g = full3 x /\ r = rest3 x.
Proof.
  intros -> Hg Hr. unfold full3, rest3.
  assert (E : (length (g ++ r) / 3 * 3 = length g)%nat).
  { rewrite app_length. pose proof (Nat.div_mod (length g) 3 ltac:(lia)).
    rewrite Hg, Nat.add_0_r in H. rewrite H at 1. rewrite (Nat.mul_comm 3), Nat.div_add_l by lia.
    rewrite (Nat.div_small (length r)) by lia. lia. }
  rewrite E. rewrite firstn_app, skipn_app, Nat.sub_diag, firstn_all, skipn_all. cbn.
  rewrite app_nil_r. split; reflexivity.
Qed.
Lemma rest3_app g y : (length g mod 3 = 0)%nat -> rest3 (g ++ y) = rest3 y /\ full3 (g ++ y) = g ++ full3 y.
Proof.
  intro H. destruct (split3_unique (g ++ full3 y) (rest3 y) (g ++ y)) as [E1 E2].
  - rewrite <- app_assoc, full3_rest3. reflexivity.
  - rewrite app_length. rewrite Nat.add_mod, H, full3_mod by lia. reflexivity.
  - apply rest3_lt.
  - split; congruence.
Qed.

Lemma pending_length e : enc_ok e -> length (enc_pending e) = e_index e.
Proof. intros (H1 & H2 & _). unfold enc_pending. rewrite firstn_length. lia. Qed.

Lemma pending_push e b : enc_ok e ->
  firstn (e_index e + 1) (set_nth (e_index e) b (e_buf e)) = enc_pending e ++ [b] /\
  length (set_nth (e_index e) b (e_buf e)) = 3%nat.
Proof.
  intros (H1 & H2 & _). unfold enc_pending. destruct (e_buf e) as [|a1 [|a2 [|a3 [|]]]]; try discriminate.
  destruct (e_index e) as [|[|[|]]]; cbn in *; try lia; split; reflexivity.
Qed.

Lemma col_mod e : enc_ok e -> (col e < 72)%nat /\ (col e mod 4 = 0)%nat.
Proof.
  intros (_ & _ & H & H3). unfold col. split; [|apply Nat.mod_mul; lia].
  assert (Z.to_nat (e_line e) / 3 < 18)%nat by (apply Nat.div_lt_upper_bound; lia). lia.
Qed.

Lemma enc_plan_spec p : forall e, enc_ok e ->
  let x := enc_pending e ++ p in
  let e' := snd (enc_plan e p) in
  concat (fst (enc_plan e p)) = wrap72 (col e) (StdEncode (full3 x)) /\
  enc_pending e' = rest3 x /\ enc_ok e' /\ col e' = ((col e + length (StdEncode (full3 x))) mod 72)%nat.
Proof.
  induction p as [|b p IH]; intros e He x e'; subst x e'.
  - rewrite app_nil_r. cbn [enc_plan fst snd concat].
    pose proof (pending_length e He) as Hl. pose proof He as (_ & Hi & _).
    destruct (split3_unique [] (enc_pending e) (enc_pending e)) as [F R]; [reflexivity|reflexivity|lia|].
    rewrite <- F, <- R. cbn [StdEncode wrap72 length]. rewrite Nat.add_0_r, Nat.mod_small by apply col_mod, He.
    auto.
  - cbn [enc_plan]. destruct (pending_push e b He) as [Hp Hl3].
    pose proof (col_mod e He) as [Hc1 Hc2].
    destruct (e_index e + 1 =? 3)%nat eqn:E3.
    + apply Nat.eqb_eq in E3. rewrite E3 in Hp. rewrite firstn_all2 in Hp by lia.
      set (buf := set_nth (e_index e) b (e_buf e)) in *.
      assert (Hx : enc_pending e ++ b :: p = buf ++ p).
      { rewrite Hp, <- app_assoc. reflexivity. }
      rewrite Hx. destruct (rest3_app buf p ltac:(rewrite Hl3; reflexivity)) as [Er Ef].
      rewrite Er, Ef. rewrite StdEncode_app by (rewrite Hl3; reflexivity).
      assert (L4 : length (StdEncode buf) = 4%nat) by (rewrite StdEncode_length, Hl3; reflexivity).
      rewrite wrap72_app by exact Hc1. rewrite app_length, L4.
      assert (W4 : wrap72 (col e) (StdEncode buf) = StdEncode buf ++ (if (col e + 4 =? 72)%nat then [x0a] else [])).
      { destruct (StdEncode buf) as [|q1 [|q2 [|q3 [|q4 [|]]]]]; try discriminate. apply wrap72_4; assumption. }
      rewrite W4.
      pose proof He as (_ & Hi & Hline & Hlm).
      assert (Hcol : Z.of_nat (col e) = e_line e / 3 * 4).
      { unfold col. rewrite Nat2Z.inj_mul, Nat2Z.inj_div, Z2Nat.id by lia. reflexivity. }
      pose proof (Z.div_mod (e_line e) 3 ltac:(lia)) as Hdm. rewrite Hlm in Hdm.
      destruct (e_line e + 3 =? decodedSize) eqn:El.
      * apply Z.eqb_eq in El. unfold decodedSize in El.
        assert (Ec : (col e = 68)%nat) by lia.
        assert (Hok : enc_ok (Enc 0 [x00; x00; x00] 0)) by exact NewEncoder_ok.
        specialize (IH _ Hok). cbv zeta in IH. change (enc_pending (Enc 0 [x00; x00; x00] 0) ++ p) with p in IH.
        change (col (Enc 0 [x00; x00; x00] 0)) with 0%nat in IH.
        destruct (enc_plan (Enc 0 [x00; x00; x00] 0) p) as [cs e'] eqn:Epl. cbn [fst snd] in *.
        destruct IH as (I1 & I2 & I3 & I4). rewrite Ec. change (68 + 4 =? 72)%nat with true.
        change ((68 + 4) mod 72)%nat with 0%nat. cbn [concat]. rewrite I1. split; [|split; [exact I2|split; [exact I3|]]].
        -- rewrite <- app_assoc. reflexivity.
        -- rewrite I4.
           replace (68 + (4 + length (StdEncode (full3 p))))%nat
             with (0 + length (StdEncode (full3 p)) + 1 * 72)%nat by lia.
           rewrite Nat.mod_add by lia. reflexivity.
      * apply Z.eqb_neq in El. unfold decodedSize in El.
        set (e1 := Enc (e_line e + 3) [x00; x00; x00] 0).
        assert (Hok : enc_ok e1).
        { unfold e1. repeat split; cbn [e_buf e_index e_line length]; try lia.
          replace (e_line e + 3) with (e_line e + 1 * 3) by lia. rewrite Z.mod_add by lia. exact Hlm. }
        assert (Ec1 : (col e1 = col e + 4)%nat).
        { apply Nat2Z.inj. rewrite Nat2Z.inj_add, Hcol. unfold col, e1. cbn [e_line].
          rewrite Nat2Z.inj_mul, Nat2Z.inj_div, Z2Nat.id by lia.
          replace (e_line e + 3) with (e_line e + 1 * 3) by lia. change (Z.of_nat 3) with 3. rewrite Z.div_add by lia. lia. }
        assert (Hne : (col e + 4 <> 72)%nat) by lia.
        assert (Hle : (col e + 4 < 72)%nat) by (pose proof (proj1 (col_mod e1 Hok)); lia).
        apply Nat.eqb_neq in Hne. rewrite Hne.
        specialize (IH _ Hok). cbv zeta in IH. change (enc_pending e1 ++ p) with p in IH.
        destruct (enc_plan e1 p) as [cs e'] eqn:Epl. cbn [fst snd concat] in *.
        destruct IH as (I1 & I2 & I3 & I4). rewrite I1, Ec1. rewrite (Nat.mod_small (col e + 4)) by exact Hle.
        split; [rewrite <- app_assoc; reflexivity|split; [exact I2|split; [exact I3|]]].
        rewrite I4, Ec1. f_equal. lia.
    + apply Nat.eqb_neq in E3. pose proof He as (Hb & Hi & Hline & Hlm).
      set (e1 := Enc (e_line e) (set_nth (e_index e) b (e_buf e)) (e_index e + 1)).
      assert (Hok : enc_ok e1).
      { unfold e1. split; [exact Hl3|]. split; [cbn; lia|]. split; assumption. }
      specialize (IH _ Hok). cbv zeta in IH.
      assert (Hp1 : enc_pending e1 = enc_pending e ++ [b]) by exact Hp.
      change (col e1) with (col e) in IH. rewrite Hp1, <- app_assoc in IH. cbn [app] in IH. exact IH.
Qed.

Lemma close_plan_spec e : enc_ok e ->
  concat (close_plan e) = StdEncode (enc_pending e) ++ [x0a].
Proof.
  intro He. pose proof (pending_length e He) as Hl.
  unfold close_plan. destruct (0 <? e_index e)%nat eqn:E; [reflexivity|].
  apply Nat.ltb_ge in E. assert (enc_pending e = []) as ->; [|reflexivity].
  destruct (enc_pending e); [reflexivity|cbn in Hl; lia].
Qed.

(* ---- the block specification in terms of wrapping ---- *)
Definition wrapped (x : bytes) : bytes :=
  wrap72 0 (StdEncode (full3 x)) ++ StdEncode (rest3 x) ++ [x0a].

Lemma wrap72_short t : forall c, (c + length t < 72)%nat -> wrap72 c t = t.
Proof.
  induction t as [|a t IH]; intros c H; [reflexivity|]. cbn [wrap72 length] in *.
  destruct (Nat.eqb_spec (S c) 72); [lia|]. f_equal. apply IH. lia.
Qed.
Lemma wrap72_full t : forall c, (c + length t = 72)%nat -> t <> [] -> wrap72 c t = t ++ [x0a].
Proof.
  induction t as [|a t IH]; intros c H Hn; [congruence|]. cbn [wrap72 length app] in *.
  destruct (Nat.eqb_spec (S c) 72).
  - destruct t; [reflexivity|cbn in H; lia].
  - destruct t; [cbn in H; lia|]. f_equal. apply IH; [lia|discriminate].
Qed.

Lemma StdEncode_split x : StdEncode x = StdEncode (full3 x) ++ StdEncode (rest3 x).
Proof. rewrite <- StdEncode_app by apply full3_mod. rewrite full3_rest3. reflexivity. Qed.

Lemma spec_wrapped_aux : forall fuel x, (length x <= fuel)%nat ->
  flat_map (fun b => spec_base64 b ++ [x0a]) (blocks54 fuel x) = wrapped x.
Proof.
  assert (Hsmall : forall x, (length x < 54)%nat -> spec_base64 x ++ [x0a] = wrapped x).
  { intros x Hx. unfold wrapped. rewrite wrap72_short.
    - rewrite app_assoc, <- StdEncode_split, StdEncode_spec. reflexivity.
    - rewrite StdEncode_length, length_full3.
      assert (length x / 3 < 18)%nat by (apply Nat.div_lt_upper_bound; lia).
      replace ((length x / 3 * 3 + 2) / 3)%nat with (length x / 3)%nat; [lia|].
      rewrite Nat.div_add_l by lia. cbn. lia. }
  induction fuel as [|k IH]; intros x Hx.
  - cbn [blocks54 flat_map]. rewrite app_nil_r. apply Hsmall. lia.
  - cbn [blocks54]. destruct (Nat.ltb_spec (length x) 54).
    + cbn [flat_map]. rewrite app_nil_r. apply Hsmall. lia.
    + cbn [flat_map]. rewrite IH by (rewrite skipn_length; lia).
      set (b := firstn 54 x). set (y := skipn 54 x).
      assert (Hxe : x = b ++ y) by (symmetry; apply firstn_skipn).
      assert (Hb : length b = 54%nat) by (apply firstn_length_le; lia).
      unfold wrapped. rewrite Hxe. destruct (rest3_app b y ltac:(rewrite Hb; reflexivity)) as [-> ->].
      rewrite StdEncode_app by (rewrite Hb; reflexivity).
      assert (L : length (StdEncode b) = 72%nat) by (rewrite StdEncode_length, Hb; reflexivity).
      rewrite wrap72_app by lia. rewrite L. change ((0 + 72) mod 72)%nat with 0%nat.
      rewrite (wrap72_full (StdEncode b)); [|lia|intro E; rewrite E in L; discriminate].
      rewrite <- StdEncode_spec, <- !app_assoc. reflexivity.
Qed.

Lemma spec_encoded_wrapped x : spec_encoded x = wrapped x.
Proof. apply spec_wrapped_aux. lia. Qed.

Lemma no_lf_spec_encoded x : no_lf (spec_encoded x) = spec_base64 x.
Proof.
  rewrite spec_encoded_wrapped. unfold wrapped. rewrite !no_lf_app, no_lf_wrap.
  change (no_lf [x0a]) with (@nil byte). rewrite app_nil_r, <- no_lf_app, <- StdEncode_split.
  rewrite <- StdEncode_spec. apply no_lf_nlfree, StdEncode_nlfree.
Qed.

Lemma lines_acc_nlfree u : nlfree u -> forall cur r, lines_acc cur (u ++ x0a :: r) = (rev cur ++ u) :: lines_acc [] r.
Proof.
  induction u as [|c u IH]; intros Hf cur r.
  - cbn. rewrite app_nil_r. reflexivity.
  - apply nlfree_cons in Hf. destruct Hf as [Hn Hf].
    unfold is_nl in Hn. apply orb_false_iff in Hn. destruct Hn as [Hn _].
    cbn [app lines_acc]. rewrite Hn, IH by exact Hf. cbn [rev]. rewrite <- app_assoc. reflexivity.
Qed.

Lemma lines_blocks : forall fuel x, (length x <= fuel)%nat ->
  lines (flat_map (fun b => spec_base64 b ++ [x0a]) (blocks54 fuel x)) =
  map spec_base64 (blocks54 fuel x) ++ [[]].
Proof.
  intros fuel x _. generalize (blocks54 fuel x) as bs. unfold lines.
  induction bs as [|b bs IH]; [reflexivity|].
  cbn [flat_map map app]. rewrite <- app_assoc. cbn [app].
  rewrite lines_acc_nlfree by (rewrite <- StdEncode_spec; apply StdEncode_nlfree).
  rewrite IH. reflexivity.
Qed.

Lemma spec_lines x : lines (spec_encoded x) = map spec_base64 (blocks54 (length x) x) ++ [[]].
Proof. apply lines_blocks. lia. Qed.

Lemma spec_base64_length x : length (spec_base64 x) = ((length x + 2) / 3 * 4)%nat.
Proof. rewrite <- StdEncode_spec. apply StdEncode_length. Qed.

Lemma blocks_lines_ok : forall fuel x, (length x <= fuel)%nat ->
  Forall (fun l => length l <= 72)%nat (map spec_base64 (blocks54 fuel x) ++ [[]]) /\
  only_last_short (map spec_base64 (blocks54 fuel x) ++ [[]]).
Proof.
  assert (Hs : forall x, (length x < 54)%nat -> (length (spec_base64 x) <= 72)%nat).
  { intros x Hx. rewrite spec_base64_length.
    assert ((length x + 2) / 3 <= 18)%nat by (apply Nat.lt_succ_r, Nat.div_lt_upper_bound; lia). lia. }
  induction fuel as [|k IH]; intros x Hx.
  - cbn [blocks54 map app]. split; [|cbn [only_last_short]; split; [congruence|exact I]].
    constructor; [apply Hs; lia|]. constructor; [cbn [length]; lia|constructor].
  - cbn [blocks54]. destruct (Nat.ltb_spec (length x) 54).
    + cbn [map app]. split; [|cbn [only_last_short]; split; [congruence|exact I]].
      constructor; [apply Hs; lia|]. constructor; [cbn [length]; lia|constructor].
    + destruct (IH (skipn 54 x) ltac:(rewrite skipn_length; lia)) as [F O].
      assert (L : length (spec_base64 (firstn 54 x)) = 72%nat).
      { rewrite spec_base64_length, firstn_length_le by lia. reflexivity. }
      cbn [map app]. split; [constructor; [lia|exact F]|].
      destruct (map spec_base64 (blocks54 k (skipn 54 x)) ++ [[]]) as [|l ls] eqn:E; [exact I|].
      cbn [only_last_short]. split; [intros _; exact L|exact O].
Qed.

(* ---- sessions ---- *)
Fixpoint plan_all (e : enc) (segs : list bytes) : list bytes * enc :=
  match segs with
  | [] => ([], e)
  | p :: r => let '(cs, e1) := enc_plan e p in
              let '(cs2, e2) := plan_all e1 r in (cs ++ cs2, e2)
  end.

Lemma write_all_plan {S} (wr : Writer S) segs : forall e s,
  exists e1, write_all wr segs (e, s) =
    match run_calls wr (fst (plan_all e segs)) s with
    | (None, s') => (None, (snd (plan_all e segs), s'))
    | (Some x, s') => (Some x, (e1, s'))
    end.
Proof.
  induction segs as [|p segs IH]; intros e s.
  - exists e. reflexivity.
  - cbn [write_all plan_all]. unfold enc_write. cbn [fst snd].
    destruct (enc_write_loop_plan wr p 0 e s) as (n & e1 & H). rewrite H.
    destruct (enc_plan e p) as [cs e'] eqn:Ep. cbn [fst snd].
    destruct (plan_all e' segs) as [cs2 e2] eqn:Ea. cbn [fst snd]. rewrite run_calls_app.
    destruct (run_calls wr cs s) as [[x|] s1].
    + exists e1. reflexivity.
    + destruct (IH e' s1) as (e3 & H3). rewrite Ea in H3. cbn [fst snd] in H3. exists e3. rewrite H3. reflexivity.
Qed.

Definition session_plan (segs : list bytes) : list bytes :=
  let '(cs, e) := plan_all NewEncoder segs in cs ++ close_plan e.

Lemma encode_session_plan {S} (wr : Writer S) segs s :
  encode_session wr segs s = run_calls wr (session_plan segs) s.
Proof.
  unfold encode_session, session_plan. destruct (write_all_plan wr segs NewEncoder s) as (e1 & H). rewrite H.
  destruct (plan_all NewEncoder segs) as [cs e]. cbn [fst snd]. rewrite run_calls_app.
  destruct (run_calls wr cs s) as [[x|] s1]; [reflexivity|].
  destruct (enc_close_plan wr e s1) as (e2 & H2). rewrite H2.
  destruct (run_calls wr (close_plan e) s1) as [[x|] s2]; reflexivity.
Qed.

Lemma plan_all_spec segs : forall e, enc_ok e ->
  let x := enc_pending e ++ concat segs in
  let e' := snd (plan_all e segs) in
  concat (fst (plan_all e segs)) = wrap72 (col e) (StdEncode (full3 x)) /\
  enc_pending e' = rest3 x /\ enc_ok e' /\ col e' = ((col e + length (StdEncode (full3 x))) mod 72)%nat.
Proof.
  induction segs as [|p segs IH]; intros e He x e'; subst x e'.
  - exact (enc_plan_spec [] e He).
  - cbn [plan_all concat]. destruct (enc_plan_spec p e He) as (P1 & P2 & P3 & P4).
    destruct (enc_plan e p) as [cs e1]. cbn [fst snd] in *.
    destruct (IH e1 P3) as (Q1 & Q2 & Q3 & Q4).
    destruct (plan_all e1 segs) as [cs2 e2]. cbn [fst snd] in *.
    rewrite concat_app, P1, Q1, P2, P4 in *.
    set (y := enc_pending e ++ p) in *.
    assert (Hx : enc_pending e ++ p ++ concat segs = full3 y ++ (rest3 y ++ concat segs)).
    { rewrite app_assoc, (app_assoc (full3 y)), full3_rest3. reflexivity. }
    rewrite Hx. destruct (rest3_app (full3 y) (rest3 y ++ concat segs) (full3_mod y)) as [-> ->].
    rewrite StdEncode_app by apply full3_mod. rewrite app_length, wrap72_app by (apply col_mod, He).
    split; [reflexivity|]. split; [exact Q2|]. split; [exact Q3|].
    rewrite Q4. rewrite Nat.add_mod_idemp_l by lia. f_equal. lia.
Qed.

Theorem session_plan_spec segs : concat (session_plan segs) = spec_encoded (concat segs).
Proof.
  unfold session_plan. destruct (plan_all_spec segs NewEncoder NewEncoder_ok) as (P1 & P2 & P3 & P4).
  destruct (plan_all NewEncoder segs) as [cs e]. cbn [fst snd] in *.
  rewrite concat_app, P1, close_plan_spec by exact P3. rewrite P2, spec_encoded_wrapped. reflexivity.
Qed.

(* ---- writers ---- *)
Lemma run_calls_honest {S} (obs : S -> bytes) (wr : Writer S) : honest obs wr ->
  forall cs s e s', run_calls wr cs s = (e, s') ->
    exists q r, concat cs = q ++ r /\ obs s' = obs s ++ q /\ (e = None -> r = []).
Proof.
  intros Hh. induction cs as [|c cs IH]; intros s e s' H; cbn [run_calls concat] in *.
  - injection H as <- <-. exists [], []. rewrite !app_nil_r. auto.
  - destruct (wr c s) as [[n [x|]] s1] eqn:E.
    + injection H as <- <-. destruct (Hh _ _ _ _ _ E) as (q & r & -> & Ho & _).
      exists q, (r ++ concat cs). rewrite app_assoc. split; [reflexivity|]. split; [exact Ho|discriminate].
    + destruct (Hh _ _ _ _ _ E) as (q & r & -> & Ho & Hr). rewrite (Hr eq_refl), app_nil_r in *.
      destruct (IH _ _ _ H) as (q2 & r2 & -> & Ho2 & Hr2).
      exists (q ++ q2), r2. rewrite Ho2, Ho, !app_assoc. auto.
Qed.

Lemma encode_session_honest {S} (obs : S -> bytes) (wr : Writer S) segs s e s' :
  honest obs wr -> encode_session wr segs s = (e, s') ->
  exists q r, spec_encoded (concat segs) = q ++ r /\ obs s' = obs s ++ q /\ (e = None -> r = []).
Proof.
  intros Hh H. rewrite encode_session_plan in H.
  rewrite <- session_plan_spec. exact (run_calls_honest obs wr Hh _ _ _ _ H).
Qed.

Lemma buffer_honest : honest (fun s => s) buffer_write.
Proof. intros p s n e s' H. injection H as <- <- <-. exists p, []. rewrite (app_nil_r p). auto. Qed.

Lemma failing_honest : honest fst failing_write.
Proof.
  intros p [o sched] n e s' H. unfold failing_write in H. cbn [fst snd] in H.
  destruct sched as [|[[k x]|] sched]; injection H as <- <- <-.
  - exists p, []. rewrite (app_nil_r p). repeat split.
  - exists (firstn k p), (skipn k p). rewrite firstn_skipn. split; [reflexivity|]. split; [reflexivity|discriminate].
  - exists p, []. rewrite (app_nil_r p). repeat split.
Qed.

Lemma run_calls_failing cs : forall s e s', run_calls failing_write cs s = (e, s') ->
  exists pre, (forall x, In x pre -> x = None) /\
    match e with
    | None => snd s = pre ++ snd s' \/ (snd s = pre /\ snd s' = [])
    | Some x => exists k, snd s = pre ++ Some (k, x) :: snd s'
    end.
Proof.
  induction cs as [|c cs IH]; intros [o sched] e s' H; cbn [run_calls] in H.
  - injection H as <- <-. exists []. split; [intros ? []|]. left. reflexivity.
  - unfold failing_write at 1 in H. cbn [fst snd] in *. destruct sched as [|[[k x]|] sched].
    + destruct (IH _ _ _ H) as (pre & Hp & Hm). cbn [snd] in Hm. exists pre. split; [exact Hp|exact Hm].
    + injection H as <- <-. exists []. split; [intros ? []|]. exists k. reflexivity.
    + destruct (IH _ _ _ H) as (pre & Hp & Hm). cbn [snd] in Hm. exists (None :: pre). split.
      * intros x [<-|Hx]; [reflexivity|apply Hp; exact Hx].
      * destruct e as [x|].
        -- destruct Hm as (k & ->). exists k. reflexivity.
        -- destruct Hm as [->|[-> Hs]]; [left; reflexivity|right; split; [reflexivity|exact Hs]].
Qed.

(* count returned by Write over a writer that does not fail *)
Lemma enc_write_loop_count {S} (wr : Writer S) : never_fails wr -> forall p w e s, (e_index e < 3)%nat ->
  fst (enc_write_loop wr p w e s) = (w + 3 * ((Z.of_nat (e_index e) + Z.of_nat (length p)) / 3), None).
Proof.
  intros Hn. induction p as [|b p IH]; intros w e s Hi.
  - cbn [enc_write_loop length fst]. rewrite Z.add_0_r, Z.div_small by lia. f_equal. lia.
  - cbn [enc_write_loop]. destruct (e_index e + 1 =? 3)%nat eqn:E3.
    + apply Nat.eqb_eq in E3.
      assert (Hq : w + 3 + 3 * ((Z.of_nat 0 + Z.of_nat (length p)) / 3) =
                   w + 3 * ((Z.of_nat (e_index e) + Z.of_nat (length (b :: p))) / 3)).
      { cbn [length]. replace (Z.of_nat (e_index e) + Z.of_nat (Datatypes.S (length p)))
          with (Z.of_nat (length p) + 1 * 3) by lia.
        rewrite Z.div_add by lia. cbn [Z.of_nat Z.add]. lia. }
      pose proof (Hn (StdEncode (set_nth (e_index e) b (e_buf e))) s) as H1.
      destruct (wr (StdEncode (set_nth (e_index e) b (e_buf e))) s) as [[n1 e1] s1]. cbn in H1. subst e1.
      destruct (e_line e + 3 =? decodedSize).
      * pose proof (Hn [x0a] s1) as H2. destruct (wr [x0a] s1) as [[n2 e2] s2]. cbn in H2. subst e2.
        rewrite IH by (cbn; lia). cbn [e_index]. f_equal. exact Hq.
      * rewrite IH by (cbn; lia). cbn [e_index]. f_equal. exact Hq.
    + apply Nat.eqb_neq in E3. rewrite IH by (cbn; lia). cbn [e_index length]. f_equal. f_equal. f_equal. f_equal. lia.
Qed.

(* ---- the decoder over a script ---- *)
(* what dec_loop collects *)
Lemma dec_loop_script_total : forall l fuel enclen c n buf, (length l < fuel)%nat ->
  n <= enclen -> Z.of_nat (length buf) = n ->
  exists r l', dec_loop fuel script_read enclen c n buf l = (Some r, l') /\
    (r = Panic -> False) /\
    (forall b, r = Ok b -> Z.of_nat (length b) <= enclen) /\
    (forall e, r = Err e -> e <> EOF).
Proof.
  induction l as [|x l IH]; intros fuel enclen c n buf Hf Hn Hb; destruct fuel as [|fuel]; try (cbn in Hf; lia).
  - cbn [dec_loop]. destruct (n =? enclen) eqn:E.
    + do 2 eexists. split; [reflexivity|]. split; [discriminate|]. split; [|discriminate].
      intros b H. injection H as <-. lia.
    + cbn [script_read]. do 2 eexists. split; [reflexivity|]. split; [discriminate|]. split; [|discriminate].
      intros b H. injection H as <-. lia.
  - cbn [dec_loop]. destruct (Z.eqb_spec n enclen).
    + do 2 eexists. split; [reflexivity|]. split; [discriminate|]. split; [|discriminate].
      intros b H. injection H as <-. lia.
    + assert (Hcont : forall c',
        exists r l', (if beqb c' x0a then dec_loop fuel script_read enclen c' n buf l
                      else dec_loop fuel script_read enclen c' (n + 1) (buf ++ [c']) l) = (Some r, l') /\
        (r = Panic -> False) /\ (forall b, r = Ok b -> Z.of_nat (length b) <= enclen) /\ (forall e, r = Err e -> e <> EOF)).
      { intro c'. cbn [length] in Hf. destruct (beqb c' x0a).
        - apply IH; lia.
        - apply IH; try lia. rewrite app_length. cbn. lia. }
      assert (Herr : forall e, exists r l', (match e with EOF => (Some (Ok buf), l) | _ => (Some (Err e), l) end) = (Some r, l') /\
        (r = Panic -> False) /\ (forall b, r = Ok b -> Z.of_nat (length b) <= enclen) /\ (forall e, r = Err e -> e <> EOF)).
      { intro e. destruct e; (do 2 eexists; split; [reflexivity|]; split; [discriminate|]; split;
          [intros b H; try discriminate; injection H as <-; lia|intros e' H; try discriminate; injection H as <-; discriminate]). }
      destruct x as [b|b e|  |e]; cbn [script_read]; try apply Hcont; apply Herr.
Qed.

Lemma enclen_mult3 k : EncodedLen (Z.of_nat (3 * k)) = Z.of_nat (4 * k).
Proof.
  unfold EncodedLen. replace (Z.of_nat (3 * k) + 2) with (2 + Z.of_nat k * 3) by lia.
  rewrite Z.div_add by lia. change (2 / 3) with 0. lia.
Qed.

Lemma dec_read_no_panic k l : fst (dec_read_script (3 * k)%nat l) <> RPanic.
Proof.
  unfold dec_read_script, dec_read. rewrite enclen_mult3.
  destruct (dec_loop_script_total l (script_fuel l (Z.of_nat (4 * k))) (Z.of_nat (4 * k)) x00 0 [])
    as (r & l' & H & Hp & Hb & He); [unfold script_fuel; lia|lia|reflexivity|].
  rewrite H. destruct r as [b|e|]; [|discriminate|exfalso; apply Hp; reflexivity].
  cbn [fst]. specialize (Hb b eq_refl). rewrite StdDecode_ref; [discriminate|].
  pose proof (nonl_length b). pose proof (quarter_mono (length (nonl b)) (4 * k) ltac:(lia)) as Hq.
  rewrite (Nat.mul_comm 4 k), Nat.div_mul in Hq by lia. lia.
Qed.

Lemma decode_loop_err len fuel : forall room src acc b e, decode_loop len fuel room src acc = RRet b (Some e) -> exists n, e = CorruptInput n.
Proof.
  assert (Hq : forall src d rest o e, decodeQuantum len d src = Quantum rest o (Some e) -> exists n, e = CorruptInput n).
  { induction src as [|c r IH]; intros d rest o e H; cbn [decodeQuantum] in H.
    - destruct d; [discriminate|]. injection H as <- <- <-. eauto.
    - destruct (decodeMap c).
      + destruct (length (d ++ [z]) =? 4)%nat; [discriminate|]. eapply IH; exact H.
      + destruct (is_nl c); [eapply IH; exact H|]. destruct (negb (beqb c padChar)); [injection H as <- <- <-; eauto|].
        destruct (length d) as [|[|[|]]]; try (injection H as <- <- <-; eauto; fail).
        * destruct (skip_nl r) as [|c' r']; [injection H as <- <- <-; eauto|]. destruct (negb (beqb c' padChar)); [injection H as <- <- <-; eauto|].
          destruct (skip_nl r'); [discriminate|]. injection H as <- <- <-; eauto.
        * destruct (skip_nl r); [discriminate|]. injection H as <- <- <-; eauto. }
  induction fuel as [|fuel IH]; intros room src acc b e H; destruct src as [|c src]; cbn [decode_loop] in H; try discriminate.
  destruct (decodeQuantum len [] (c :: src)) as [rest o [x|]] eqn:E.
  - destruct (room <? Z.of_nat (length o)); [discriminate|]. injection H as <- <-. eapply Hq; exact E.
  - destruct (room <? Z.of_nat (length o)); [discriminate|]. eapply IH; exact H.
Qed.

Lemma dec_read_never_eof n l b : fst (dec_read_script n l) <> RRet b (Some EOF).
Proof.
  unfold dec_read_script, dec_read.
  destruct (dec_loop_script_total l (script_fuel l (EncodedLen (Z.of_nat n))) (EncodedLen (Z.of_nat n)) x00 0 [])
    as (r & l' & H & Hp & Hb & He); [unfold script_fuel; lia| |reflexivity|].
  { unfold EncodedLen. assert (0 <= (Z.of_nat n + 2) / 3) by (apply Z.div_pos; lia). lia. }
  rewrite H. destruct r as [x|e|]; cbn [fst].
  - intro E. apply decode_loop_err in E. destruct E as (m & E). discriminate.
  - intro E. injection E as _ E. apply (He e eq_refl). exact E.
  - discriminate.
Qed.

Lemma dec_read_at_eof n : dec_read_script n [] = (RRet [] None, []).
Proof.
  unfold dec_read_script, dec_read, script_fuel. cbn [length dec_loop script_read].
  destruct (0 =? EncodedLen (Z.of_nat n)); reflexivity.
Qed.

(* reading plain text *)
Definition plain (t : bytes) : list r1 := map RByte t.

Lemma dec_loop_plain : forall t fuel m c n buf, (length t < fuel)%nat -> n <= Z.of_nat m ->
  Z.of_nat (length buf) = n ->
  exists t', dec_loop fuel script_read (Z.of_nat m) c n buf (plain t) =
    (Some (Ok (buf ++ firstn (m - length buf) (no_lf t))), plain t') /\
    no_lf t' = skipn (m - length buf) (no_lf t).
Proof.
  induction t as [|x t IH]; intros fuel m c n buf Hf Hn Hb; destruct fuel as [|fuel]; try (cbn in Hf; lia).
  - exists []. cbn [dec_loop plain map script_read no_lf filter]. rewrite firstn_nil, skipn_nil, app_nil_r.
    destruct (n =? Z.of_nat m); split; reflexivity.
  - cbn [dec_loop plain map script_read]. destruct (Z.eqb_spec n (Z.of_nat m)) as [E|E].
    + exists (x :: t). replace (m - length buf)%nat with 0%nat by lia.
      cbn [firstn skipn]. rewrite app_nil_r. split; reflexivity.
    + cbn [length] in Hf.
      assert (Hc : no_lf (x :: t) = if beqb x x0a then no_lf t else x :: no_lf t).
      { unfold no_lf. cbn [filter]. destruct (beqb x x0a); reflexivity. }
      rewrite Hc. clear Hc. destruct (beqb x x0a) eqn:Ex.
      * apply IH; lia.
      * destruct (IH fuel m x (n + 1) (buf ++ [x]) ltac:(lia) ltac:(lia)) as (t' & H1 & H2).
        { rewrite app_length. cbn. lia. }
        exists t'. fold (plain t). rewrite H1, H2. rewrite app_length. cbn [length].
        replace (m - length buf)%nat with (S (m - (length buf + 1))) by lia.
        cbn [firstn skipn]. rewrite <- app_assoc. split; reflexivity.
Qed.

Lemma firstn_encode k x : firstn (4 * k)%nat (StdEncode x) = StdEncode (firstn (3 * k)%nat x) /\
                          skipn (4 * k)%nat (StdEncode x) = StdEncode (skipn (3 * k)%nat x).
Proof.
  destruct (Nat.le_gt_cases (3 * k) (length x)) as [H|H].
  - rewrite <- (firstn_skipn (3 * k) x) at 1 3.
    assert (L : length (firstn (3 * k)%nat x) = (3 * k)%nat) by (apply firstn_length_le; lia).
    rewrite StdEncode_app by (rewrite L, Nat.mul_comm; apply Nat.mod_mul; lia).
    assert (L2 : length (StdEncode (firstn (3 * k)%nat x)) = (4 * k)%nat).
    { rewrite StdEncode_length, L. rewrite (Nat.mul_comm 3), Nat.div_add_l by lia. cbn. lia. }
    rewrite firstn_app, skipn_app, L2, Nat.sub_diag. cbn [firstn skipn].
    rewrite firstn_all2, skipn_all2, app_nil_r by lia. split; reflexivity.
  - assert (L2 : (length (StdEncode x) <= 4 * k)%nat).
    { rewrite StdEncode_length. assert ((length x + 2) / 3 <= k)%nat by (apply Nat.lt_succ_r, Nat.div_lt_upper_bound; lia). lia. }
    rewrite !firstn_all2, !skipn_all2 by lia. split; reflexivity.
Qed.

Lemma dec_read_plain k t x : no_lf t = StdEncode x ->
  exists t', dec_read_script (3 * k)%nat (plain t) = (RRet (firstn (3 * k)%nat x) None, plain t') /\
             no_lf t' = StdEncode (skipn (3 * k)%nat x).
Proof.
  intro Ht. unfold dec_read_script, dec_read. rewrite enclen_mult3.
  destruct (dec_loop_plain t (script_fuel (plain t) (Z.of_nat (4 * k))) (4 * k) x00 0 []) as (t' & H1 & H2).
  - unfold script_fuel, plain. rewrite map_length. lia.
  - lia.
  - reflexivity.
  - exists t'. rewrite H1, H2, Ht. cbn [length app]. rewrite Nat.sub_0_r.
    destruct (firstn_encode k x) as [-> ->]. split; [|reflexivity].
    rewrite StdDecode_ref.
    + rewrite (nlfree_nonl _ (StdEncode_nlfree _)), ref_decode_encode. reflexivity.
    + rewrite (nlfree_nonl _ (StdEncode_nlfree _)), StdEncode_length.
      rewrite Nat.div_mul by lia.
      assert ((length (firstn (3 * k)%nat x) + 2) / 3 <= k)%nat.
      { rewrite firstn_length. assert (Nat.min (3 * k) (length x) <= 3 * k)%nat by lia.
        transitivity ((3 * k + 2) / 3)%nat; [apply Nat.div_le_mono; lia|].
        rewrite (Nat.mul_comm 3), Nat.div_add_l by lia. cbn. lia. }
      lia.
Qed.

Lemma read_seq_plain : forall ks t x, no_lf t = StdEncode x ->
  read_seq dec_read_script (map (fun k => 3 * k)%nat ks) (plain t) =
  map (fun b => RRet b None) (cut (map (fun k => 3 * k)%nat ks) x).
Proof.
  induction ks as [|k ks IH]; intros t x Ht; [reflexivity|].
  cbn [map read_seq cut]. destruct (dec_read_plain k t x Ht) as (t' & H1 & H2). rewrite H1.
  cbn [map]. f_equal. apply IH. exact H2.
Qed.

(* too little room: panic *)
Lemma decode_loop_panic len x : forall fuel room acc, (length x mod 3 = 0)%nat -> room < Z.of_nat (length x) ->
  (length (StdEncode x) <= fuel)%nat -> 0 <= room -> decode_loop len fuel room (StdEncode x) acc = RPanic.
Proof.
  induction x as [|a|a b|a b c r IH] using list_ind3; intros fuel room acc Hm Hr Hf H0;
    try (vm_compute in Hm; discriminate).
  - cbn in Hr. lia.
  - rewrite StdEncode_cons3 in *. destruct fuel as [|fuel]; [cbn in Hf; lia|].
    cbn [decode_loop decodeQuantum].
    rewrite !decodeMap_spec_char by (try apply c1_range; try apply c2_range; try apply c3_range; apply c4_range).
    cbn [app length Nat.eqb]. 
    change (quantum_out [c1 a; c2 a b; c3 b c; c4 c] 4) with (dec3 (c1 a) (c2 a b) (c3 b c) (c4 c)).
    rewrite dec3_group. cbn [length]. destruct (Z.ltb_spec room (Z.of_nat 3)); [reflexivity|].
    cbn [length] in *. apply IH; try lia.
    replace (S (S (S (length r)))) with (length r + 1 * 3)%nat in Hm by lia.
    rewrite Nat.mod_add in Hm by lia. exact Hm.
Qed.

Lemma dec_read_panics n : (n mod 3 <> 0)%nat ->
  exists x, fst (dec_read_script n (plain (spec_encoded x))) = RPanic.
Proof.
  intro Hn. set (k := (n / 3 + 1)%nat). exists (repeat x00 (3 * k)).
  set (x := repeat x00 (3 * k)).
  assert (Lx : length x = (3 * k)%nat) by apply repeat_length.
  assert (Ek : EncodedLen (Z.of_nat n) = Z.of_nat (4 * k)).
  { unfold EncodedLen. pose proof (Nat.div_mod n 3 ltac:(lia)). pose proof (Nat.mod_upper_bound n 3 ltac:(lia)).
    replace (Z.of_nat n + 2) with ((Z.of_nat n + 2 - 3 * Z.of_nat k) + Z.of_nat k * 3) by lia.
    rewrite Z.div_add by lia. rewrite Z.div_small by lia. lia. }
  unfold dec_read_script, dec_read. rewrite Ek.
  destruct (dec_loop_plain (spec_encoded x) (script_fuel (plain (spec_encoded x)) (Z.of_nat (4 * k))) (4 * k) x00 0 []) as (t' & H1 & H2).
  - unfold script_fuel, plain. rewrite map_length. lia.
  - lia.
  - reflexivity.
  - rewrite H1. cbn [app length fst]. rewrite Nat.sub_0_r, no_lf_spec_encoded, <- StdEncode_spec.
    destruct (firstn_encode k x) as [-> _]. rewrite firstn_all2 by lia.
    unfold StdDecode. apply decode_loop_panic.
    + rewrite Lx, Nat.mul_comm. apply Nat.mod_mul. lia.
    + rewrite Lx. pose proof (Nat.div_mod n 3 ltac:(lia)). pose proof (Nat.mod_upper_bound n 3 ltac:(lia)). lia.
    + lia.
    + lia.
Qed.

(* ---- statements in their final form ---- *)
Lemma run_calls_never {S} (wr : Writer S) : never_fails wr -> forall cs s, exists s', run_calls wr cs s = (None, s').
Proof.
  intros Hn. induction cs as [|c cs IH]; intro s; cbn [run_calls]; [eexists; reflexivity|].
  pose proof (Hn c s) as H. destruct (wr c s) as [[n e] s1]. cbn in H. subst e. apply IH.
Qed.

Lemma encoder_output {S} (obs : S -> bytes) (wr : Writer S) segs s :
  honest obs wr -> never_fails wr ->
  exists s', encode_session wr segs s = (None, s') /\ obs s' = obs s ++ spec_encoded (concat segs).
Proof.
  intros Hh Hn. destruct (run_calls_never wr Hn (session_plan segs) s) as (s' & H).
  rewrite <- encode_session_plan in H. exists s'. split; [exact H|].
  destruct (encode_session_honest obs wr segs s None s' Hh H) as (q & r & E & Ho & Hr).
  rewrite (Hr eq_refl), app_nil_r in E. rewrite E. exact Ho.
Qed.

Lemma encoder_output_nil {S} (obs : S -> bytes) (wr : Writer S) segs s s' :
  honest obs wr -> encode_session wr segs s = (None, s') ->
  obs s' = obs s ++ spec_encoded (concat segs).
Proof.
  intros Hh H. destruct (encode_session_honest obs wr segs s None s' Hh H) as (q & r & E & Ho & Hr).
  rewrite (Hr eq_refl), app_nil_r in E. rewrite E. exact Ho.
Qed.

Lemma encoder_lines segs t :
  encode_session buffer_write segs [] = (None, t) ->
  Forall (fun l => length l <= 72)%nat (lines t) /\ only_last_short (lines t) /\
  no_lf t = spec_base64 (concat segs).
Proof.
  intro H. apply (encoder_output_nil (fun s => s)) in H; [|exact buffer_honest]. cbn [app] in H. subst t.
  rewrite spec_lines. destruct (blocks_lines_ok (length (concat segs)) (concat segs) ltac:(lia)) as [F O].
  split; [exact F|]. split; [exact O|]. apply no_lf_spec_encoded.
Qed.

Lemma forall_mod3 sizes : Forall (fun n => n mod 3 = 0)%nat sizes ->
  exists ks, sizes = map (fun k => 3 * k)%nat ks.
Proof.
  induction sizes as [|n r IH]; intro H; [exists []; reflexivity|].
  inversion H as [|? ? Hn Hr]; subst. destruct (IH Hr) as (ks & ->). exists ((n / 3)%nat :: ks).
  cbn [map]. f_equal. pose proof (Nat.div_mod n 3 ltac:(lia)). lia.
Qed.

Lemma concat_cut sizes : forall x, concat (cut sizes x) = firstn (list_sum sizes) x.
Proof.
  induction sizes as [|n r IH]; intro x; [reflexivity|].
  cbn [cut concat list_sum fold_right]. rewrite IH. fold (list_sum r).
  rewrite <- (firstn_skipn n x) at 3. rewrite firstn_app, firstn_firstn.
  replace (Nat.min (n + list_sum r) n) with n by lia. f_equal.
  rewrite firstn_length. destruct (Nat.le_gt_cases n (length x)).
  - replace (n + list_sum r - Nat.min n (length x))%nat with (list_sum r) by lia. reflexivity.
  - rewrite (skipn_all2 x) by lia. rewrite !firstn_nil. reflexivity.
Qed.

Lemma encode_decode segs t sizes :
  encode_session buffer_write segs [] = (None, t) ->
  Forall (fun n => n mod 3 = 0)%nat sizes ->
  read_seq dec_read_script sizes (map RByte t) =
    map (fun b => RRet b None) (cut sizes (concat segs)) /\
  concat (cut sizes (concat segs)) = firstn (list_sum sizes) (concat segs).
Proof.
  intros H Hs. apply (encoder_output_nil (fun s => s)) in H; [|exact buffer_honest]. cbn [app] in H. subst t.
  destruct (forall_mod3 sizes Hs) as (ks & ->). split; [|apply concat_cut].
  apply read_seq_plain. rewrite no_lf_spec_encoded. symmetry. apply StdEncode_spec.
Qed.

Lemma dec_read_total3 n l : (n mod 3 = 0)%nat -> fst (dec_read_script n l) <> RPanic.
Proof.
  intro H. pose proof (Nat.div_mod n 3 ltac:(lia)) as E. rewrite H, Nat.add_0_r in E. rewrite E.
  apply dec_read_no_panic.
Qed.

Lemma write_count {S} (wr : Writer S) segs s e s' p :
  never_fails wr -> write_all wr segs (NewEncoder, s) = (None, (e, s')) ->
  fst (enc_write wr p (e, s')) =
    (3 * ((Z.of_nat (length (concat segs) mod 3) + Z.of_nat (length p)) / 3), None).
Proof.
  intros Hn H. destruct (write_all_plan wr segs NewEncoder s) as (e1 & Hp). rewrite Hp in H. clear Hp.
  destruct (plan_all_spec segs NewEncoder NewEncoder_ok) as (P1 & P2 & P3 & P4).
  destruct (run_calls wr (fst (plan_all NewEncoder segs)) s) as [[x|] s1]; [discriminate|].
  injection H as E _. rewrite E in *. unfold enc_write. cbn [fst snd].
  pose proof P3 as (_ & Hi & _).
  rewrite (enc_write_loop_count wr Hn p 0 e s' Hi). f_equal. rewrite Z.add_0_l.
  rewrite <- (pending_length e P3), P2, length_rest3. reflexivity.
Qed.

Lemma encoder_failure {S} (obs : S -> bytes) (wr : Writer S) segs s e s' :
  honest obs wr -> encode_session wr segs s = (e, s') ->
  exists q r, spec_encoded (concat segs) = q ++ r /\ obs s' = obs s ++ q.
Proof.
  intros Hh H. destruct (encode_session_honest obs wr segs s e s' Hh H) as (q & r & E & Ho & Hr).
  exists q, r. split; assumption.
Qed.

Lemma encoder_error segs sched e t sched' :
  encode_session failing_write segs ([], sched) = (Some e, (t, sched')) ->
  exists pre k, (forall x, In x pre -> x = None) /\ sched = pre ++ Some (k, e) :: sched'.
Proof.
  intro H. rewrite encode_session_plan in H. apply run_calls_failing in H.
  destruct H as (pre & Hp & k & E). exists pre, k. split; [exact Hp|exact E].
Qed.

Lemma encoder_ok_no_fault segs sched t sched' :
  encode_session failing_write segs ([], sched) = (None, (t, sched')) ->
  exists pre, (forall x, In x pre -> x = None) /\ (sched = pre ++ sched').
Proof.
  intro H. rewrite encode_session_plan in H. apply run_calls_failing in H.
  destruct H as (pre & Hp & [E|[E1 E2]]); exists pre; (split; [exact Hp|]); cbn [snd] in *.
  - exact E.
  - rewrite E2, app_nil_r. exact E1.
Qed.

Lemma nonl_no_crlf t : nonl t = no_crlf t. Proof. reflexivity. Qed.

Lemma dec_read_data_with_eof b n t :
  dec_read_script n [RByteErr b EOF] = (RRet t None, []) -> t = [].
Proof.
  unfold dec_read_script, dec_read, script_fuel. cbn [length dec_loop script_read].
  destruct (0 =? EncodedLen (Z.of_nat n)) eqn:E.
  - intro H. discriminate.
  - cbn. congruence.
Qed.

(* ---- refutations ---- *)
Lemma write_contract_refuted :
  (exists segs p n, fst (enc_write buffer_write p (snd (write_all buffer_write segs (NewEncoder, [])))) = (n, None)
                    /\ n < Z.of_nat (length p)) /\
  (exists segs p n, fst (enc_write buffer_write p (snd (write_all buffer_write segs (NewEncoder, [])))) = (n, None)
                    /\ n > Z.of_nat (length p)).
Proof.
  split.
  - exists [], (str "ab"), 0. vm_compute. split; reflexivity.
  - exists [str "ab"], (str "c"), 3. vm_compute. split; reflexivity.
Qed.

Lemma canonical_refuted : exists s t b,
  s <> t /\ no_crlf s = s /\ no_crlf t = t /\ DecodeString s = Ok b /\ DecodeString t = Ok b.
Proof.
  exists (str "QQ=="), (str "QR=="), (str "A"). split; [discriminate|]. vm_compute. repeat split.
Qed.

Lemma reader_behaviour_refuted :
  (exists l, dec_read_script 3%nat (l ++ [RByteErr x44 EOF]) = (RRet [] (Some (CorruptInput 0)), []) /\
             dec_read_script 3%nat (l ++ [RByte x44]) = (RRet (str "ABC") None, [])) /\
  (exists l1 l2, fst (dec_read_script 6%nat (l1 ++ l2)) = RRet (str "ABCDEF") None /\
                 fst (dec_read_script 6%nat (l1 ++ RZero :: l2)) <> RRet (str "ABCDEF") None).
Proof.
  split.
  - exists (map RByte (str "QUJ")). vm_compute. split; reflexivity.
  - exists (map RByte (str "QUJ")), (map RByte (str "DREVG")). split; [reflexivity|]. vm_compute. discriminate.
Qed.
