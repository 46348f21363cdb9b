(* Where the decoder says a text goes wrong. *)
From Verif Require Export TextFacts.
Local Open Scope Z_scope.

Lemma digit_iff c : a_digit c <-> exists v, decodeMap c = Some v.
Proof.
  split.
  - intros (v & Hv & ->). exists v. apply decodeMap_spec_char, Hv.
  - intros (v & H). apply alpha_digit in H. exists v. split; [apply H|symmetry; apply H].
Qed.
Lemma not_digit_iff c : ~ a_digit c <-> decodeMap c = None.
Proof.
  rewrite digit_iff. destruct (decodeMap c) as [v|]; split; intro H; try discriminate; try reflexivity.
  - destruct H. exists v. reflexivity.
  - intros (v & E). discriminate.
Qed.
Lemma break_iff c : a_break c <-> is_nl c = true.
Proof.
  unfold a_break, is_nl. rewrite orb_true_iff, !beqb_eq. tauto.
Qed.
Lemma not_break_iff c : ~ a_break c <-> is_nl c = false.
Proof. rewrite break_iff. destruct (is_nl c); intuition discriminate. Qed.
Lemma break_not_digit c : is_nl c = true -> decodeMap c = None.
Proof. intro H. apply break_iff in H. destruct H as [-> | ->]; reflexivity. Qed.

Lemma no_crlf_cons c r : no_crlf (c :: r) = if is_nl c then no_crlf r else c :: no_crlf r.
Proof. change (no_crlf (c :: r)) with (nonl (c :: r)). unfold nonl. cbn [filter]. destruct (is_nl c); reflexivity. Qed.

Lemma skip_breaks nl r : breaks nl -> skip_nl (nl ++ r) = skip_nl r.
Proof.
  induction nl as [|c nl IH]; intro H; [reflexivity|]. apply Forall_cons_iff in H. destruct H as [Hc H].
  cbn [app skip_nl]. apply break_iff in Hc. rewrite Hc. apply IH, H.
Qed.
Lemma skip_stop c r : ~ a_break c -> skip_nl (c :: r) = c :: r.
Proof. intro H. apply not_break_iff in H. cbn [skip_nl]. rewrite H. reflexivity. Qed.
Lemma skip_split r : exists nl, breaks nl /\ r = nl ++ skip_nl r /\
  match skip_nl r with [] => True | c :: _ => ~ a_break c end.
Proof.
  induction r as [|c r (nl & H1 & H2 & H3)]; [exists []; repeat split; constructor|].
  cbn [skip_nl]. destruct (is_nl c) eqn:E.
  - exists (c :: nl). split; [constructor; [apply break_iff, E|exact H1]|]. split; [cbn [app]; congruence|exact H3].
  - exists []. split; [constructor|]. split; [reflexivity|]. apply not_break_iff, E.
Qed.

Lemma bad_from_plain len : forall pre k s, Forall (fun c => a_digit c \/ a_break c) pre -> (k < 4)%nat ->
  bad_from len k (pre ++ s) = bad_from len ((k + length (no_crlf pre)) mod 4) s.
Proof.
  induction pre as [|c pre IH]; intros k s H Hk.
  - cbn [app no_crlf filter length]. rewrite Nat.add_0_r, Nat.mod_small by exact Hk. reflexivity.
  - apply Forall_cons_iff in H. destruct H as [Hc H]. cbn [app bad_from]. rewrite no_crlf_cons.
    destruct (is_nl c) eqn:E.
    + rewrite (break_not_digit c E). apply IH; assumption.
    + destruct Hc as [Hc|Hc]; [|apply break_iff in Hc; congruence].
      apply digit_iff in Hc. destruct Hc as (v & ->). rewrite IH; [|exact H|destruct k as [|[|[|[|]]]]; lia].
      f_equal. cbn [length]. set (m := length (no_crlf pre)).
      destruct k as [|[|[|[|k]]]]; [reflexivity| | | |lia]; try (f_equal; lia).
      replace (3 + S m)%nat with (m + 1 * 4)%nat by lia. rewrite Nat.mod_add by lia. reflexivity.
Qed.

Lemma bad_at_plain pre k s : digits_left pre k ->
  bad_at (pre ++ s) = bad_from (size (pre ++ s)) k s.
Proof.
  intros [H <-]. unfold bad_at. rewrite bad_from_plain by (assumption || lia). reflexivity.
Qed.

Lemma index_size pre r : index_at (size (pre ++ r)) r = size pre.
Proof. unfold index_at, size. rewrite app_length. lia. Qed.

Lemma faulty_bad s n : faulty_at s n -> bad_at s = Some n.
Proof.
  intros [k D K|pre k c r -> D Hd Hb Hp|pre k r -> D K|pre nl -> D B|pre nl c r -> D B Hb Hp|pre nl nl' c r -> D B B' Hb|pre nl c r -> D B Hb].
  - pose proof (bad_at_plain s k [] D) as H. rewrite app_nil_r in H. rewrite H. cbn [bad_from].
    destruct k; [contradiction|]. reflexivity.
  - rewrite (bad_at_plain _ k) by exact D. cbn [bad_from]. apply not_digit_iff in Hd. apply not_break_iff in Hb.
    rewrite Hd, Hb. replace (beqb c padChar) with false by (symmetry; apply beqb_neq; exact Hp). cbn [negb].
    rewrite index_size. reflexivity.
  - rewrite (bad_at_plain _ k) by exact D. cbn [bad_from]. change (decodeMap x3d) with (@None Z).
    change (is_nl x3d) with false. change (beqb x3d padChar) with true. cbn [negb]. rewrite index_size.
    destruct k as [|[|k]]; [reflexivity|reflexivity|lia].
  - rewrite (bad_at_plain _ 2) by exact D. cbn [bad_from]. change (decodeMap x3d) with (@None Z).
    change (is_nl x3d) with false. change (beqb x3d padChar) with true. cbn [negb].
    replace (skip_nl nl) with (@nil byte); [reflexivity|]. symmetry. rewrite <- (app_nil_r nl), skip_breaks by exact B. reflexivity.
  - rewrite (bad_at_plain _ 2) by exact D. cbn [bad_from]. change (decodeMap x3d) with (@None Z).
    change (is_nl x3d) with false. change (beqb x3d padChar) with true. cbn [negb].
    rewrite skip_breaks, skip_stop by assumption. replace (beqb c padChar) with false by (symmetry; apply beqb_neq; exact Hp). cbn [negb].
    replace (pre ++ x3d :: nl ++ c :: r) with ((pre ++ x3d :: nl) ++ c :: r) by (rewrite <- app_assoc; reflexivity).
    rewrite index_size. reflexivity.
  - rewrite (bad_at_plain _ 2) by exact D. cbn [bad_from]. change (decodeMap x3d) with (@None Z).
    change (is_nl x3d) with false. change (beqb x3d padChar) with true. cbn [negb].
    rewrite skip_breaks, skip_stop by (try assumption; intros [E|E]; discriminate E).
    change (beqb x3d padChar) with true. cbn [negb]. rewrite skip_breaks, skip_stop by assumption.
    replace (pre ++ x3d :: nl ++ x3d :: nl' ++ c :: r) with ((pre ++ x3d :: nl ++ x3d :: nl') ++ c :: r)
      by (rewrite <- !app_assoc; cbn [app]; rewrite <- !app_assoc; reflexivity).
    rewrite index_size. reflexivity.
  - rewrite (bad_at_plain _ 3) by exact D. cbn [bad_from]. change (decodeMap x3d) with (@None Z).
    change (is_nl x3d) with false. change (beqb x3d padChar) with true. cbn [negb].
    rewrite skip_breaks, skip_stop by assumption.
    replace (pre ++ x3d :: nl ++ c :: r) with ((pre ++ x3d :: nl) ++ c :: r) by (rewrite <- app_assoc; reflexivity).
    rewrite index_size. reflexivity.
Qed.

Lemma plain_split s : exists pre k r, s = pre ++ r /\ digits_left pre k /\ (k < 4)%nat /\
  match r with [] => True | c :: _ => ~ a_digit c /\ ~ a_break c end.
Proof.
  assert (H : exists pre r, s = pre ++ r /\ Forall (fun c => a_digit c \/ a_break c) pre /\
    match r with [] => True | c :: _ => ~ a_digit c /\ ~ a_break c end).
  { induction s as [|c s (pre & r & -> & H1 & H2)]; [exists [], []; repeat split; constructor|].
    destruct (decodeMap c) as [v|] eqn:D.
    - exists (c :: pre), r. split; [reflexivity|]. split; [|exact H2]. constructor; [|exact H1].
      left. apply digit_iff. exists v. exact D.
    - destruct (is_nl c) eqn:E.
      + exists (c :: pre), r. split; [reflexivity|]. split; [|exact H2]. constructor; [|exact H1].
        right. apply break_iff, E.
      + exists [], (c :: pre ++ r). split; [reflexivity|]. split; [constructor|].
        split; [apply not_digit_iff, D|apply not_break_iff, E]. }
  destruct H as (pre & r & E & H1 & H2). exists pre, (length (no_crlf pre) mod 4)%nat, r.
  split; [exact E|]. split; [split; [exact H1|reflexivity]|]. split; [apply Nat.mod_upper_bound; lia|exact H2].
Qed.

Lemma bad_faulty s n : bad_at s = Some n -> faulty_at s n.
Proof.
  destruct (plain_split s) as (pre & k & r & -> & D & K & Hr). rewrite (bad_at_plain _ k) by exact D.
  destruct r as [|c r].
  - cbn [bad_from]. destruct k as [|k]; [discriminate|]. intro H. injection H as <-. rewrite app_nil_r. exact (FEnd _ (Datatypes.S k) D ltac:(lia)).
  - destruct Hr as [Hd Hb]. cbn [bad_from]. rewrite (proj1 (not_digit_iff c) Hd), (proj1 (not_break_iff c) Hb).
    destruct (beqb c padChar) eqn:Ep; cbn [negb].
    2: { intro H. injection H as <-. rewrite index_size. apply beqb_neq in Ep. exact (FChar _ pre k c r eq_refl D Hd Hb Ep). }
    apply beqb_eq in Ep. subst c. change padChar with x3d in *.
    destruct k as [|[|[|[|k]]]].
    + intro H. injection H as <-. rewrite index_size. apply (FEarly _ pre 0 r); [reflexivity|exact D|lia].
    + intro H. injection H as <-. rewrite index_size. apply (FEarly _ pre 1 r); [reflexivity|exact D|lia].
    + destruct (skip_split r) as (nl & B & E & Hc). destruct (skip_nl r) as [|c2 r2].
      { intro H. injection H as <-. rewrite app_nil_r in E. subst nl. exact (FHalf _ pre r eq_refl D B). }
      subst r. destruct (beqb c2 x3d) eqn:E2; cbn [negb].
      * apply beqb_eq in E2. subst c2. destruct (skip_split r2) as (nl' & B' & E & Hc'). destruct (skip_nl r2) as [|c3 r3]; [discriminate|].
        subst r2. intro H. injection H as <-.
        replace (pre ++ x3d :: nl ++ x3d :: nl' ++ c3 :: r3) with ((pre ++ x3d :: nl ++ x3d :: nl') ++ c3 :: r3) at 2
          by (rewrite <- !app_assoc; cbn [app]; rewrite <- !app_assoc; reflexivity).
        rewrite index_size. exact (FAfter2 _ pre nl nl' c3 r3 eq_refl D B B' Hc').
      * apply beqb_neq in E2. intro H. injection H as <-.
        replace (pre ++ x3d :: nl ++ c2 :: r2) with ((pre ++ x3d :: nl) ++ c2 :: r2) at 2 by (rewrite <- app_assoc; reflexivity).
        rewrite index_size. exact (FWrong _ pre nl c2 r2 eq_refl D B Hc E2).
    + destruct (skip_split r) as (nl & B & E & Hc). destruct (skip_nl r) as [|c2 r2]; [discriminate|].
      subst r. intro H. injection H as <-.
      replace (pre ++ x3d :: nl ++ c2 :: r2) with ((pre ++ x3d :: nl) ++ c2 :: r2) at 2 by (rewrite <- app_assoc; reflexivity).
      rewrite index_size. exact (FAfter1 _ pre nl c2 r2 eq_refl D B Hc).
    + lia.
Qed.

Theorem fault_iff s n : DecodeString s = Err (CorruptInput n) <-> faulty_at s n.
Proof.
  pose proof (bad_at_ref s) as HB. rewrite DecodeString_ref. split.
  - intro H. apply bad_faulty. unfold offset in H. destruct (ref_decode (nonl s)) as [b []]; [|discriminate].
    destruct (bad_at s) as [m|]; [|discriminate]. injection H as ->. reflexivity.
  - intro H. apply faulty_bad in H. unfold offset. rewrite H in *. destruct (ref_decode (nonl s)) as [b []]; [reflexivity|discriminate].
Qed.

Lemma faulty_unique s n m : faulty_at s n -> faulty_at s m -> n = m.
Proof. intros H H'. apply faulty_bad in H. apply faulty_bad in H'. congruence. Qed.
Lemma faulty_range s n : faulty_at s n -> 0 <= n <= size s.
Proof.
  intros [k D K|pre k c r -> D Hd Hb Hp|pre k r -> D K|pre nl -> D B|pre nl c r -> D B Hb Hp|pre nl nl' c r -> D B B' Hb|pre nl c r -> D B Hb];
    unfold size; repeat (rewrite app_length; cbn [length]); try lia.
  destruct D as [_ <-]. pose proof (nonl_length s) as L. change (nonl s) with (no_crlf s) in L.
  pose proof (Nat.mod_le (length (no_crlf s)) 4 ltac:(lia)). lia.
Qed.
Theorem text_or_fault s : (exists b, base64_of (no_crlf s) b) \/ exists n, faulty_at s n.
Proof.
  destruct (DecodeString s) as [b|e|] eqn:E.
  - left. exists b. apply decode_iff, E.
  - right. pose proof E as E'. rewrite DecodeString_ref in E'. destruct (ref_decode (nonl s)) as [b []]; [|discriminate].
    injection E' as <-. eexists. apply fault_iff, E.
  - rewrite DecodeString_ref in E. destruct (ref_decode (nonl s)) as [b []]; discriminate.
Qed.
Lemma fault_not_text s n b : faulty_at s n -> ~ base64_of (no_crlf s) b.
Proof. intros H Hb. apply fault_iff in H. apply decode_iff in Hb. congruence. Qed.

(* ---- data files ---- *)
Lemma misread_read file n : misread file n -> readDataFileBytes file = Err (CorruptInput n).
Proof.
  intros [(cs & line & tl & -> & Hc & Hf & Hn & Hl & He & Hb)|(-> & cs & Hne & Hc & H)].
  - apply comment_lines_spec in Hc. apply not_comment_spec in Hn.
    destruct (payload_line cs line tl Hc Hf Hn Hl He) as (com & H). unfold line_of. 
    rewrite (proj2 (fault_iff _ _) Hb) in H. exact H.
  - apply comment_lines_spec in Hc. destruct H as [H|(line & tl & -> & Hf & [[-> ->]|[Hl He]])].
    + destruct (exists_last Hne) as (cs' & c & ->). rewrite map_app, concat_app in H. cbn [map concat] in H. rewrite app_nil_r in H.
      unfold line_of in H. rewrite app_assoc in H. apply app_inj_tail in H. destruct H as [-> _].
      unfold readDataFileBytes. apply Forall_app in Hc. destruct Hc as [Hc Hx]. apply Forall_inv in Hx.
      rewrite raw_lines_comments by exact Hc.
      rewrite raw_lines_last by (try apply Hx; destruct Hx as (_ & Hx & _); destruct c; discriminate). cbn [rev app].
      pose proof (last_comment_read (cs' ++ [c]) []) as HL. rewrite app_nil_r in HL.
      match goal with |- context [scan_loop ?x [] []] => change x with (cs' ++ [c]) end.
      destruct (scan_loop (cs' ++ [c]) [] []) as [ln cm]. rewrite HL; [reflexivity| | |].
      * apply Forall_app. split; [exact Hc|]. constructor; [exact Hx|constructor].
      * destruct cs'; discriminate.
      * reflexivity.
    + cbn [app]. rewrite app_nil_r. apply only_comments; assumption.
    + unfold readDataFileBytes, line_of. rewrite raw_lines_comments by exact Hc.
      destruct (raw_lines_first line tl Hf He) as (r & Er). rewrite Er.
      pose proof (last_comment_read cs (line :: r) Hc Hne) as HL.
      match goal with |- context [scan_loop ?x [] []] => change x with (cs ++ line :: r) end.
      destruct (scan_loop (cs ++ line :: r) [] []) as [ln cm]. rewrite HL; [reflexivity|].
      intros l m. cbn [scan_loop]. destruct (Z.gtb_spec (Z.of_nat (length line)) maxLine) as [G|G]; [reflexivity|].
      unfold fits in Hl. unfold maxLine in G. lia.
Qed.

Lemma read_misread file n : readDataFileBytes file = Err (CorruptInput n) -> misread file n.
Proof.
  intro H. destruct (split_comments (length file) file (le_n _)) as (cs & Hcs & HS).
  destruct HS as [E|(line & tl & E & Hf & He & Hk)].
  - destruct cs as [|c cs].
    + cbn in E. subst file. cbn in H. discriminate.
    + pose proof H as H'. rewrite E in H'. unfold line_of in H'. rewrite only_comments in H' by (assumption || discriminate). injection H' as <-.
      right. split; [reflexivity|]. exists (c :: cs). split; [discriminate|]. split; [apply comment_lines_spec, Hcs|].
      right. exists [], []. split; [rewrite !app_nil_r; exact E|]. split; [intros []|]. left. split; reflexivity.
  - assert (Hdec : (fits line /\ has_prefix commentPrefix line = false) \/ comment_line line \/ ~ fits line).
    { destruct (Z.le_gt_cases (Z.of_nat (length line)) 65535) as [Hl|Hl]; [|right; right; unfold fits; lia].
      destruct (has_prefix commentPrefix line) eqn:Ep; [right; left; split; [exact Hf|split; assumption]|left; split; [exact Hl|reflexivity]]. }
    destruct Hdec as [[Hl Hp]|[Hc|Hl]].
    + left. exists cs, line, tl. split; [exact E|]. split; [apply comment_lines_spec, Hcs|]. split; [exact Hf|].
      split; [apply not_comment_spec, Hp|]. split; [exact Hl|]. split; [exact He|].
      destruct (payload_line cs line tl Hcs Hf Hp Hl He) as (com' & H'). rewrite E in H. pose proof (eq_trans (eq_sym H) H') as H2.
      apply fault_iff. destruct (DecodeString (without_cr line)); try discriminate. injection H2 as <-. reflexivity.
    + assert (W : misread file 9).
      { destruct Hk as [Hk|[Hk|Hk]].
        - destruct (Hk (proj2 (proj2 Hc))).
        - apply not_comment_spec in Hk. destruct Hc as (_ & Hp & _). congruence.
        - right. split; [reflexivity|]. exists (cs ++ [line]). split; [destruct cs; discriminate|]. split.
          + apply comment_lines_spec, Forall_app. split; [exact Hcs|]. constructor; [exact Hc|constructor].
          + left. subst tl. rewrite map_app, concat_app. cbn [map concat]. rewrite E, !app_nil_r. unfold line_of at 3. rewrite app_assoc. reflexivity. }
      pose proof (misread_read _ _ W) as H'. rewrite H in H'. injection H' as ->. exact W.
    + destruct cs as [|c cs].
      * cbn [map concat app] in E. rewrite E in H.
        rewrite data_file_long_line in H; [discriminate|exact Hf|unfold fits in Hl; lia|exact He].
      * assert (W : misread file 9).
        { right. split; [reflexivity|]. exists (c :: cs). split; [discriminate|]. split; [apply comment_lines_spec, Hcs|].
          right. exists line, tl. split; [exact E|]. split; [exact Hf|]. right. split; assumption. }
        pose proof (misread_read _ _ W) as H'. rewrite H in H'. injection H' as ->. exact W.
Qed.

Theorem data_file_fault file n : readDataFileBytes file = Err (CorruptInput n) <-> misread file n.
Proof. split; [apply read_misread|apply misread_read]. Qed.
Theorem held_or_misread file : (exists d, holds file d) \/ exists n, misread file n.
Proof.
  destruct (readDataFileBytes file) as [[com d]|e|] eqn:E.
  - left. exists d. exact (read_holds _ _ _ E).
  - right. pose proof (data_file_error _ _ E) as (n & ->). exists n. apply read_misread, E.
  - destruct (data_file_total file E).
Qed.
Lemma misread_unique file n m : misread file n -> misread file m -> n = m.
Proof. intros H H'. apply misread_read in H. apply misread_read in H'. congruence. Qed.
Lemma misread_not file n d : misread file n -> ~ holds file d.
Proof. intros H H'. apply misread_read in H. apply holds_read in H'. destruct H' as (com & H'). congruence. Qed.

(* ---- what stands before the fault can be continued ---- *)
Lemma good_text s : bad_at s = None -> exists b, base64_of (no_crlf s) b.
Proof.
  intro H. destruct (text_or_fault s) as [G|(n & G)]; [exact G|]. apply faulty_bad in G. congruence.
Qed.
Lemma plain_continues pre k : digits_left pre k -> exists t b, base64_of (no_crlf (pre ++ t)) b.
Proof.
  intro D. assert (K : (k < 4)%nat) by (destruct D as [_ <-]; apply Nat.mod_upper_bound; lia).
  exists (match k with 0%nat => [] | 1%nat => str "AAA" | 2%nat => str "==" | _ => str "=" end).
  apply good_text. rewrite (bad_at_plain _ k) by exact D. destruct k as [|[|[|[|k]]]]; [reflexivity..|lia].
Qed.
Lemma half_continues pre nl : digits_left pre 2 -> breaks nl -> exists b, base64_of (no_crlf ((pre ++ x3d :: nl) ++ [x3d])) b.
Proof.
  intros D B. apply good_text. rewrite <- app_assoc. rewrite (bad_at_plain _ 2) by exact D. cbn [app bad_from].
  change (decodeMap x3d) with (@None Z). change (is_nl x3d) with false. change (beqb x3d padChar) with true. cbn [negb].
  rewrite skip_breaks by exact B. reflexivity.
Qed.
Lemma plain_firstn pre k n : digits_left pre k -> exists k', digits_left (firstn n pre) k'.
Proof.
  intros [D _]. eexists. split; [|reflexivity]. rewrite Forall_forall in *. intros x Hx. apply D.
  rewrite <- (firstn_skipn n pre). apply in_or_app. left. exact Hx.
Qed.
Lemma firstn_size (a b : bytes) : firstn (Z.to_nat (size a)) (a ++ b) = a.
Proof. unfold size. rewrite Nat2Z.id, firstn_app, Nat.sub_diag, firstn_all, app_nil_r. reflexivity. Qed.

Theorem fault_before s n : faulty_at s n -> exists t b, base64_of (no_crlf (firstn (Z.to_nat n) s ++ t)) b.
Proof.
  intros [k D K|pre k c r -> D Hd Hb Hp|pre k r -> D K|pre nl -> D B|pre nl c r -> D B Hb Hp|pre nl nl' c r -> D B B' Hb|pre nl c r -> D B Hb].
  - destruct (plain_firstn _ _ (Z.to_nat (size s - Z.of_nat k)) D) as (k' & D'). exact (plain_continues _ _ D').
  - rewrite firstn_size. exact (plain_continues _ _ D).
  - rewrite firstn_size. exact (plain_continues _ _ D).
  - pose proof (firstn_size (pre ++ x3d :: nl) []) as E. rewrite app_nil_r in E. rewrite E. exists [x3d]. exact (half_continues _ _ D B).
  - destruct nl as [|x nl _] using rev_ind.
    + replace (size (pre ++ [x3d]) - 1) with (size pre) by (unfold size; rewrite app_length; cbn [length]; lia).
      rewrite firstn_size. exact (plain_continues _ _ D).
    + replace (size (pre ++ x3d :: nl ++ [x]) - 1) with (size (pre ++ x3d :: nl))
        by (unfold size; repeat (rewrite app_length; cbn [length]); lia).
      replace (pre ++ x3d :: (nl ++ [x]) ++ c :: r) with ((pre ++ x3d :: nl) ++ x :: c :: r)
        by (rewrite <- !app_assoc; cbn [app]; rewrite <- ?app_assoc; reflexivity).
      rewrite firstn_size. exists [x3d]. apply Forall_app in B. exact (half_continues _ _ D (proj1 B)).
  - replace (pre ++ x3d :: nl ++ x3d :: nl' ++ c :: r) with ((pre ++ x3d :: nl ++ x3d :: nl') ++ c :: r)
      by (rewrite <- !app_assoc; cbn [app]; rewrite <- !app_assoc; reflexivity).
    rewrite firstn_size. exists []. rewrite app_nil_r. apply good_text. rewrite (bad_at_plain _ 2) by exact D. cbn [bad_from].
    change (decodeMap x3d) with (@None Z). change (is_nl x3d) with false. change (beqb x3d padChar) with true. cbn [negb].
    rewrite skip_breaks by exact B. rewrite skip_stop by (intros [E|E]; discriminate E). change (beqb x3d padChar) with true. cbn [negb].
    rewrite <- (app_nil_r nl'), skip_breaks by exact B'. reflexivity.
  - replace (pre ++ x3d :: nl ++ c :: r) with ((pre ++ x3d :: nl) ++ c :: r) by (rewrite <- app_assoc; reflexivity).
    rewrite firstn_size. exists []. rewrite app_nil_r. apply good_text. rewrite (bad_at_plain _ 3) by exact D. cbn [bad_from].
    change (decodeMap x3d) with (@None Z). change (is_nl x3d) with false. change (beqb x3d padChar) with true. cbn [negb].
    rewrite <- (app_nil_r nl), skip_breaks by exact B. reflexivity.
Qed.

Theorem fault_exclusive s n : faulty_at s n -> 0 <= n <= size s /\ (forall m, faulty_at s m -> m = n) /\ forall b, ~ base64_of (no_crlf s) b.
Proof.
  intro H. split; [exact (faulty_range _ _ H)|]. split; [intros m Hm; exact (faulty_unique _ _ _ Hm H)|].
  intros b. exact (fault_not_text _ _ _ H).
Qed.

(* ---- examples ---- *)
Lemma example_faults :
  faulty_at (str "QUJDRE") 4 /\ faulty_at (str "QUJD!") 4 /\ faulty_at (str "Q===") 1 /\ faulty_at (str "QQ=" ++ [x0a]) 4 /\
  faulty_at (str "QQ=" ++ [x0a; x0a] ++ str "Q") 4 /\ faulty_at (str "QQ==" ++ [x0a] ++ str "Q") 5 /\ faulty_at (str "QUI=Q") 4 /\
  faulty_at (str "QU" ++ [x0a] ++ str "J") 1.
Proof. repeat split; apply bad_faulty; vm_compute; reflexivity. Qed.
Lemma example_misread :
  misread (str "hello") 4 /\ misread (str "untrusted comment: c" ++ [x0a] ++ str "QUJDR" ++ [x0d; x0a]) 4 /\
  misread (str "untrusted comment: c" ++ [x0a]) 9 /\ misread (str "untrusted comment: c") 9 /\
  misread (str "Untrusted comment: c" ++ [x0a] ++ str "QUJD" ++ [x0a]) 9.
Proof. repeat split; apply read_misread; vm_compute; reflexivity. Qed.
