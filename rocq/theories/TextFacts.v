(* Exactly which texts are decoded and which files are read. *)
From Verif Require Export SpecText DataFileFacts KeysFacts.
Local Open Scope Z_scope.

(* ---- digits ---- *)
Lemma alpha_digit c v : decodeMap c = Some v -> 0 <= v < 64 /\ spec_char v = c.
Proof.
  intro H. pose proof (decodeMap_range c v H). split; [assumption|].
  rewrite spec_char_enc by assumption. apply enc_char_decodeMap, H.
Qed.

Lemma digit_not_pad v : 0 <= v < 64 -> spec_char v <> x3d.
Proof. intros H E. pose proof (decodeMap_spec_char v H) as D. rewrite E in D. discriminate. Qed.

(* ---- bits of the digits of a group ---- *)
Lemma bits_of_byte_z2b z : bits_of_byte (z2b z) = map (Z.testbit z) [7; 6; 5; 4; 3; 2; 1; 0].
Proof.
  unfold bits_of_byte. cbn [map]. rewrite b2z_z2b.
  change 256 with (2 ^ 8). rewrite !Z.mod_pow2_bits_low by lia. reflexivity.
Qed.

Lemma digit_high v n : 0 <= v < 64 -> 6 <= n -> Z.testbit v n = false.
Proof.
  intros H Hn. rewrite <- (Z.mod_small v (2 ^ 6)) by exact H. apply Z.mod_pow2_bits_high. lia.
Qed.

Ltac tb := repeat first
  [ rewrite Z.lor_spec | rewrite Z.shiftl_spec by lia | rewrite Z.shiftr_spec by lia
  | rewrite Z.testbit_neg_r by lia ].
Ltac simpz := repeat match goal with
  |- context [Z.testbit ?v ?z] => let z' := eval vm_compute in z in progress change z with z' end.

Lemma group_bits a b c d : 0 <= a < 64 -> 0 <= b < 64 -> 0 <= c < 64 -> 0 <= d < 64 ->
  flat_map bits6 [a; b; c; d] = bits_of [z2b (Z.shiftr (val4 [a; b; c; d]) 16); z2b (Z.shiftr (val4 [a; b; c; d]) 8); z2b (val4 [a; b; c; d])].
Proof.
  intros Ha Hb Hc Hd. unfold bits_of. cbn [flat_map]. rewrite !bits_of_byte_z2b. unfold bits6. cbn [map app].
  unfold val4. cbn [nth].
  repeat (apply (f_equal2 (@cons bool)); [|try reflexivity]); tb; cbn [Z.add Z.sub Z.opp Z.pos_sub Pos.pred_double Pos.add Pos.succ Pos.add_carry Z.pred_double Pos.sub_mask Pos.sub];
  rewrite ?Z.testbit_neg_r by lia; rewrite ?(digit_high a), ?(digit_high b), ?(digit_high c), ?(digit_high d) by lia;
  rewrite ?orb_false_r; reflexivity.
Qed.

Lemma bits_of_byte_length x : length (bits_of_byte x) = 8%nat.
Proof. reflexivity. Qed.
Lemma bits_of_length b : length (bits_of b) = (8 * length b)%nat.
Proof. unfold bits_of. induction b as [|x b IH]; [reflexivity|]. cbn [flat_map length]. rewrite app_length, IH, bits_of_byte_length. lia. Qed.
Lemma bits6_length ds : length (flat_map bits6 ds) = (6 * length ds)%nat.
Proof. induction ds as [|x b IH]; [reflexivity|]. cbn [flat_map length]. rewrite app_length, IH. cbn. lia. Qed.
Lemma bits_of_byte_value x : bits_value (bits_of_byte x) = b2z x.
Proof. destruct x; reflexivity. Qed.
Lemma bits_of_byte_inj x y : bits_of_byte x = bits_of_byte y -> x = y.
Proof. intro H. apply b2z_inj. rewrite <- !bits_of_byte_value, H. reflexivity. Qed.
Lemma bits_of_cons x b : bits_of (x :: b) = bits_of_byte x ++ bits_of b.
Proof. reflexivity. Qed.

Lemma bits_of_app a b : bits_of (a ++ b) = bits_of a ++ bits_of b.
Proof. apply flat_map_app. Qed.

Lemma app_inj {A} (a b c d : list A) : length a = length b -> a ++ c = b ++ d -> a = b /\ c = d.
Proof.
  revert b. induction a as [|x a IH]; intros [|y b] H E; try discriminate; [split; [reflexivity|exact E]|].
  cbn in E, H. injection E as -> E. injection H as H. destruct (IH b H E) as [-> ->]. split; reflexivity.
Qed.

(* the first byte of bits that begin with those of x *)
Lemma bits_first x X b rest : bits_of_byte x ++ X = bits_of b ++ rest -> (length rest < 8)%nat ->
  exists b', b = x :: b' /\ X = bits_of b' ++ rest.
Proof.
  intros H Hr. destruct b as [|y b].
  - apply (f_equal (@length bool)) in H. rewrite app_length, bits_of_byte_length in H. cbn in H. lia.
  - rewrite bits_of_cons, <- app_assoc in H. apply app_inj in H; [|rewrite !bits_of_byte_length; reflexivity].
    destruct H as [H1 H2]. apply bits_of_byte_inj in H1. subst y. exists b. split; [reflexivity|exact H2].
Qed.
Lemma bits_none X b rest : X = bits_of b ++ rest -> (length X < 8)%nat -> b = [].
Proof.
  intros H Hl. destruct b; [reflexivity|]. apply (f_equal (@length bool)) in H.
  rewrite app_length, bits_of_length in H. cbn [length] in H. lia.
Qed.

Lemma group_bits3 a b c : 0 <= a < 64 -> 0 <= b < 64 -> 0 <= c < 64 ->
  exists rest, flat_map bits6 [a; b; c] = bits_of (quantum_out [a; b; c] 3) ++ rest /\ length rest = 2%nat.
Proof.
  intros Ha Hb Hc. pose proof (group_bits a b c 0 Ha Hb Hc ltac:(lia)) as H.
  apply (f_equal (firstn 18)) in H. exists (firstn 2 (bits_of_byte (z2b (val4 [a; b; c; 0])))).
  split; [|reflexivity]. unfold quantum_out. rewrite val4_short3. exact H.
Qed.
Lemma group_bits2 a b : 0 <= a < 64 -> 0 <= b < 64 ->
  exists rest, flat_map bits6 [a; b] = bits_of (quantum_out [a; b] 2) ++ rest /\ length rest = 4%nat.
Proof.
  intros Ha Hb. pose proof (group_bits a b 0 0 Ha Hb ltac:(lia) ltac:(lia)) as H.
  apply (f_equal (firstn 12)) in H. exists (firstn 4 (bits_of_byte (z2b (Z.shiftr (val4 [a; b; 0; 0]) 8)))).
  split; [|reflexivity]. unfold quantum_out. rewrite val4_short2. exact H.
Qed.

Lemma quantum3_length a b c : length (quantum_out [a; b; c] 3) = 2%nat. Proof. reflexivity. Qed.
Lemma quantum2_length a b : length (quantum_out [a; b] 2) = 1%nat. Proof. reflexivity. Qed.

Lemma ref_decode_text t b : ref_decode t = (b, false) -> base64_of t b.
Proof.
  revert b. induction t as [| | | |x1 x2 x3 x4 t IH] using list_ind4; intros r H; try discriminate.
  - cbn in H. injection H as <-. exists [], 0%nat, []. repeat split; try constructor; cbn; lia.
  - cbn [ref_decode] in H.
    destruct (decodeMap x1) as [v1|] eqn:D1; [|discriminate]. destruct (decodeMap x2) as [v2|] eqn:D2; [|discriminate].
    apply alpha_digit in D1. apply alpha_digit in D2. destruct D1 as [R1 <-]. destruct D2 as [R2 <-].
    destruct (decodeMap x3) as [v3|] eqn:D3; [apply alpha_digit in D3; destruct D3 as [R3 <-]; destruct (decodeMap x4) as [v4|] eqn:D4|].
    + apply alpha_digit in D4. destruct D4 as [R4 <-]. destruct (ref_decode t) as [o e] eqn:E. injection H as <- ->.
      destruct (IH o eq_refl) as (ds & pad & rest & F & -> & P & L & B & Hr).
      exists (v1 :: v2 :: v3 :: v4 :: ds), pad, rest. split; [repeat (constructor; [assumption|]); exact F|].
      split; [reflexivity|]. split; [exact P|]. split.
      { cbn [length]. set (n := length (map spec_char ds ++ repeat x3d pad)) in *.
        replace (S (S (S (S n)))) with (n + 1 * 4)%nat by lia. rewrite Nat.mod_add by lia. exact L. }
      split; [|exact Hr]. change (v1 :: v2 :: v3 :: v4 :: ds) with ([v1; v2; v3; v4] ++ ds).
      rewrite flat_map_app, group_bits, B by assumption. unfold dec3, quantum_out. cbn [Nat.sub firstn].
      rewrite !bits_of_cons, <- !app_assoc. reflexivity.
    + destruct (beqb x4 padChar) eqn:E4; [|discriminate]. apply beqb_eq in E4. subst x4.
      destruct t; [|discriminate]. injection H as <-.
      destruct (group_bits3 v1 v2 v3 R1 R2 R3) as (rest & B & Lr).
      exists [v1; v2; v3], 1%nat, rest. split; [repeat (constructor; [assumption|]); constructor|].
      split; [reflexivity|]. split; [lia|]. split; [reflexivity|]. split; [exact B|lia].
    + destruct (beqb x3 padChar && beqb x4 padChar) eqn:E4; [|discriminate]. apply andb_true_iff in E4. destruct E4 as [E3 E4].
      apply beqb_eq in E3. apply beqb_eq in E4. subst x3 x4. destruct t; [|discriminate]. injection H as <-.
      destruct (group_bits2 v1 v2 R1 R2) as (rest & B & Lr).
      exists [v1; v2], 2%nat, rest. split; [repeat (constructor; [assumption|]); constructor|].
      split; [reflexivity|]. split; [lia|]. split; [reflexivity|]. split; [exact B|lia].
Qed.

Lemma text_ref_decode t b : base64_of t b -> ref_decode t = (b, false).
Proof.
  intros (ds & pad & rest & F & -> & P & L & B & Hr). revert b F L B.
  induction ds as [|v1|v1 v2|v1 v2 v3|v1 v2 v3 v4 ds IH] using list_ind4; intros b F L B.
  - cbn [map app] in *. rewrite repeat_length in L.
    destruct pad as [|[|[|pad]]]; try discriminate; [|lia]. cbn [flat_map] in B.
    rewrite (bits_none _ _ _ B) by (cbn; lia). reflexivity.
  - exfalso. rewrite app_length, repeat_length in L. destruct pad as [|[|[|pad]]]; try discriminate; lia.
  - rewrite app_length, repeat_length in L. destruct pad as [|[|[|pad]]]; try discriminate; [|lia].
    apply Forall_cons_iff in F. destruct F as [R1 F]. apply Forall_cons_iff in F. destruct F as [R2 _].
    destruct (group_bits2 v1 v2 R1 R2) as (rest' & B' & Lr). rewrite B in B'.
    cbn [map app repeat ref_decode]. rewrite !decodeMap_spec_char by assumption.
    change (decodeMap x3d) with (@None Z). change (beqb x3d padChar) with true. cbn [andb]. f_equal.
    set (q := quantum_out [v1; v2] 2) in *. symmetry. symmetry in B'.
    assert (Lq : length q = 1%nat) by apply quantum2_length. destruct q as [|x [|y q]]; try discriminate.
    rewrite bits_of_cons, <- app_assoc in B'. apply bits_first in B'; [|exact Hr]. destruct B' as (b' & -> & B').
    cbn [bits_of flat_map app] in B'. rewrite (bits_none _ _ _ B') by lia. reflexivity.
  - rewrite app_length, repeat_length in L. destruct pad as [|[|[|pad]]]; try discriminate; [|lia].
    apply Forall_cons_iff in F. destruct F as [R1 F]. apply Forall_cons_iff in F. destruct F as [R2 F].
    apply Forall_cons_iff in F. destruct F as [R3 _].
    destruct (group_bits3 v1 v2 v3 R1 R2 R3) as (rest' & B' & Lr). rewrite B in B'.
    cbn [map app repeat ref_decode]. rewrite !decodeMap_spec_char by assumption.
    change (decodeMap x3d) with (@None Z). change (beqb x3d padChar) with true. cbn [andb]. f_equal.
    set (q := quantum_out [v1; v2; v3] 3) in *. symmetry. symmetry in B'.
    assert (Lq : length q = 2%nat) by apply quantum3_length. destruct q as [|x [|y [|z q]]]; try discriminate.
    rewrite !bits_of_cons, <- !app_assoc in B'. apply bits_first in B'; [|exact Hr]. destruct B' as (b' & -> & B').
    apply bits_first in B'; [|exact Hr]. destruct B' as (b'' & -> & B').
    cbn [bits_of flat_map app] in B'. rewrite (bits_none _ _ _ B') by lia. reflexivity.
  - apply Forall_cons_iff in F. destruct F as [R1 F]. apply Forall_cons_iff in F. destruct F as [R2 F].
    apply Forall_cons_iff in F. destruct F as [R3 F]. apply Forall_cons_iff in F. destruct F as [R4 F].
    change (v1 :: v2 :: v3 :: v4 :: ds) with ([v1; v2; v3; v4] ++ ds) in B. rewrite flat_map_app, group_bits in B by assumption.
    rewrite !bits_of_cons in B. cbn [bits_of flat_map] in B. rewrite app_nil_r, <- !app_assoc in B.
    apply bits_first in B; [|exact Hr]. destruct B as (b1 & -> & B). apply bits_first in B; [|exact Hr]. destruct B as (b2 & -> & B).
    apply bits_first in B; [|exact Hr]. destruct B as (b3 & -> & B).
    cbn [map app ref_decode]. rewrite !decodeMap_spec_char by assumption.
    rewrite (IH b3 F); [reflexivity| |exact B].
    cbn [map app length] in L. set (n := length (map spec_char ds ++ repeat x3d pad)) in *.
    replace (S (S (S (S n)))) with (n + 1 * 4)%nat in L by lia. rewrite Nat.mod_add in L by lia. exact L.
Qed.

Lemma ref_decode_iff t b : ref_decode t = (b, false) <-> base64_of t b.
Proof. split; [apply ref_decode_text|apply text_ref_decode]. Qed.

Lemma base64_of_unique t b b' : base64_of t b -> base64_of t b' -> b = b'.
Proof. intros H H'. apply text_ref_decode in H. apply text_ref_decode in H'. congruence. Qed.

Theorem decode_iff s b : DecodeString s = Ok b <-> base64_of (no_crlf s) b.
Proof.
  rewrite <- ref_decode_iff, DecodeString_ref. change (nonl s) with (no_crlf s).
  destruct (ref_decode (no_crlf s)) as [o []]; split; intro H; try discriminate; congruence.
Qed.
Theorem decode_error s : (forall b, ~ base64_of (no_crlf s) b) <-> exists n, DecodeString s = Err (CorruptInput n).
Proof.
  split.
  - intro H. rewrite DecodeString_ref. change (nonl s) with (no_crlf s).
    destruct (ref_decode (no_crlf s)) as [o []] eqn:E; [eexists; reflexivity|]. apply ref_decode_iff in E. destruct (H _ E).
  - intros (n & H) b Hb. apply decode_iff in Hb. congruence.
Qed.

(* ---- data files ---- *)
Lemma comment_line_spec c : comment_line c <-> lf_free c /\ a_comment c /\ fits c.
Proof. unfold comment_line, a_comment, fits. rewrite has_prefix_iff. reflexivity. Qed.
Lemma comment_lines_spec cs : Forall comment_line cs <-> Forall (fun c => lf_free c /\ a_comment c /\ fits c) cs.
Proof. rewrite !Forall_forall. split; intros H x Hx; apply comment_line_spec, H, Hx. Qed.
Lemma not_comment_spec l : has_prefix commentPrefix l = false <-> ~ a_comment l.
Proof.
  unfold a_comment. fold commentPrefix. rewrite <- has_prefix_iff.
  destruct (has_prefix commentPrefix l); intuition discriminate.
Qed.

Lemma holds_read file d : holds file d -> exists com, readDataFileBytes file = Ok (DataFile com d).
Proof.
  intros [(cs & line & tl & -> & Hc & Hf & Hn & Hl & He & Hb)|(-> & [->|(line & tl & -> & Hf & Hl & He)])].
  - apply comment_lines_spec in Hc. apply not_comment_spec in Hn.
    destruct (payload_line cs line tl Hc Hf Hn Hl He) as (com & H). exists com.
    apply decode_iff in Hb. rewrite <- dropCR_spec, (proj2 (dropCR_decode _ _) Hb) in H. exact H.
  - exists []. reflexivity.
  - exists []. apply data_file_long_line; [exact Hf| |exact He]. unfold fits in Hl. lia.
Qed.

(* the lines of a file up to the first that is not a comment *)
Lemma first_line file : file <> [] -> exists l tl, file = l ++ tl /\ lf_free l /\ ends_line l tl.
Proof.
  induction file as [|c r IH]; intro Hne; [contradiction Hne; reflexivity|].
  destruct (beqb c x0a) eqn:E.
  - apply beqb_eq in E. subst c. exists [], (x0a :: r). split; [reflexivity|]. split; [intros []|]. right. exists r. reflexivity.
  - destruct r as [|c' r].
    + exists [c], []. split; [reflexivity|]. split; [apply lf_free_cons; split; [exact E|intros []]|]. left. split; [reflexivity|discriminate].
    + destruct (IH ltac:(discriminate)) as (l & tl & -> & Hf & He). exists (c :: l), tl. split; [reflexivity|].
      split; [apply lf_free_cons; split; assumption|]. destruct He as [[-> _]|He]; [left; split; [reflexivity|discriminate]|right; exact He].
Qed.

Definition last_piece (line tl : bytes) : Prop :=
  lf_free line /\ ends_line line tl /\ (~ fits line \/ ~ a_comment line \/ tl = []).
Lemma split_comments : forall n file, (length file <= n)%nat ->
  exists cs, Forall comment_line cs /\
    (file = concat (map line_of cs) \/ exists line tl, file = concat (map line_of cs) ++ line ++ tl /\ last_piece line tl).
Proof.
  induction n as [|n IH]; intros file Hn.
  - destruct file; [|cbn in Hn; lia]. exists []. split; [constructor|left; reflexivity].
  - destruct file as [|c0 f0]; [exists []; split; [constructor|left; reflexivity]|].
    destruct (first_line (c0 :: f0) ltac:(discriminate)) as (l & tl & E & Hf & He). rewrite E.
    assert (Hdec : comment_line l \/ (~ fits l \/ ~ a_comment l)).
    { destruct (has_prefix commentPrefix l) eqn:Ep.
      - destruct (Z.le_gt_cases (Z.of_nat (length l)) 65535) as [Hl|Hl].
        + left. split; [exact Hf|]. split; assumption.
        + right. left. unfold fits. lia.
      - right. right. apply not_comment_spec, Ep. }
    destruct He as [[-> Hne]|(r & ->)].
    + exists []. split; [constructor|]. right. exists l, []. split; [reflexivity|]. split; [exact Hf|].
      split; [left; split; [reflexivity|exact Hne]|]. right. right. reflexivity.
    + destruct Hdec as [Hc|Hc].
      * destruct (IH r) as (cs & Hcs & H).
        { apply (f_equal (@length byte)) in E. rewrite app_length in E. cbn [length] in E, Hn. lia. }
        exists (l :: cs). split; [constructor; assumption|]. cbn [map concat].
        assert (Hr : forall x, l ++ x0a :: x = line_of l ++ x) by (intro x; unfold line_of; rewrite <- app_assoc; reflexivity).
        rewrite Hr. destruct H as [->|(line & tl & -> & HL)]; [left; reflexivity|].
        right. exists line, tl. split; [rewrite <- app_assoc; reflexivity|exact HL].
      * exists []. split; [constructor|]. right. exists l, (x0a :: r). split; [reflexivity|].
        split; [exact Hf|]. split; [right; exists r; reflexivity|]. destruct Hc as [Hc|Hc]; [left; exact Hc|right; left; exact Hc].
Qed.

(* after comments, a line that is too long or the end: the last comment is decoded *)
Lemma last_comment_read cs rest : Forall comment_line cs -> cs <> [] ->
  (forall line com, scan_loop rest line com = (line, com)) ->
  match scan_loop (cs ++ rest) [] [] with (line, com) => DecodeString line = Err (CorruptInput 9) end.
Proof.
  intros HF Hne Hr. destruct (scan_comments cs HF rest [] []) as (l1 & c1' & E & El & _). rewrite E, Hr.
  destruct (rev cs) as [|c rc] eqn:Er.
  - apply (f_equal (@rev bytes)) in Er. rewrite rev_involutive in Er. contradiction.
  - subst l1. assert (Hc : comment_line c).
    { rewrite Forall_forall in HF. apply HF. apply in_rev. rewrite Er. left. reflexivity. }
    destruct Hc as (_ & Hp & _). apply has_prefix_iff in Hp. destruct Hp as (t & ->).
    destruct (dropCR_prefix t) as (u & ->). apply comment_decode.
Qed.

Lemma read_holds file com d : readDataFileBytes file = Ok (DataFile com d) -> holds file d.
Proof.
  intro H. destruct (split_comments (length file) file (le_n _)) as (cs & Hcs & HS).
  destruct HS as [E|(line & tl & E & Hf & He & Hk)].
  - destruct cs as [|c cs].
    + cbn in E. subst file. cbn in H. injection H as <- <-. right. split; [reflexivity|left; reflexivity].
    + rewrite E in H. unfold line_of in H. rewrite only_comments in H by (assumption || discriminate). discriminate.
  - assert (Hdec : (fits line /\ has_prefix commentPrefix line = false) \/ comment_line line \/ ~ fits line).
    { destruct (Z.le_gt_cases (Z.of_nat (length line)) 65535) as [Hl|Hl]; [|right; right; unfold fits; lia].
      destruct (has_prefix commentPrefix line) eqn:Ep; [right; left; split; [exact Hf|split; assumption]|left; split; [exact Hl|reflexivity]]. }
    destruct Hdec as [[Hl Hp]|[Hc|Hl]].
    + left. exists cs, line, tl. split; [exact E|]. split; [apply comment_lines_spec, Hcs|]. split; [exact Hf|].
      split; [apply not_comment_spec, Hp|]. split; [exact Hl|]. split; [exact He|].
      destruct (payload_line cs line tl Hcs Hf Hp Hl He) as (com' & H'). rewrite E in H. pose proof (eq_trans (eq_sym H) H') as H2. clear H. rename H2 into H. symmetry in H.
      apply decode_iff, dropCR_decode. rewrite dropCR_spec. destruct (DecodeString (without_cr line)); try discriminate. injection H as _ ->. reflexivity.
    + destruct Hk as [Hk|[Hk|Hk]].
      * destruct (Hk (proj2 (proj2 Hc))).
      * apply not_comment_spec in Hk. destruct Hc as (_ & Hp & _). congruence.
      * exfalso. subst tl. rewrite app_nil_r in E. rewrite E in H. unfold readDataFileBytes in H.
        unfold line_of in H. rewrite raw_lines_comments in H by exact Hcs.
        destruct He as [[_ Hne]|(r & Hr)]; [|discriminate]. rewrite raw_lines_last in H by assumption. cbn [rev app] in H.
        pose proof (last_comment_read (cs ++ [line]) []) as HL. rewrite app_nil_r in HL.
        destruct (scan_loop (cs ++ [line]) [] []) as [ln cm]. rewrite HL in H; [discriminate| | |].
        -- apply Forall_app. split; [exact Hcs|]. constructor; [exact Hc|constructor].
        -- destruct cs; discriminate.
        -- reflexivity.
    + destruct cs as [|c cs].
      * right. cbn [map concat app] in E. rewrite E in H.
        rewrite data_file_long_line in H; [|exact Hf|unfold fits in Hl; lia|exact He]. injection H as <- <-.
        split; [reflexivity|]. right. exists line, tl. split; [exact E|]. split; [exact Hf|]. split; assumption.
      * exfalso. rewrite E in H. unfold readDataFileBytes in H. unfold line_of in H. rewrite raw_lines_comments in H by exact Hcs.
        destruct (raw_lines_first line tl Hf He) as (r & Er). rewrite Er in H.
        pose proof (last_comment_read (c :: cs) (line :: r) Hcs ltac:(discriminate)) as HL.
        change (scan_loop ((c :: cs) ++ line :: r) [] []) with (scan_loop (c :: cs ++ line :: r) [] []) in HL.
        change ((c :: cs) ++ line :: r) with (c :: cs ++ line :: r) in H.
        destruct (scan_loop (c :: cs ++ line :: r) [] []) as [ln cm]. rewrite HL in H; [discriminate|].
        intros l m. cbn [scan_loop]. destruct (Z.gtb_spec (Z.of_nat (length line)) maxLine) as [G|G]; [reflexivity|].
        unfold fits in Hl. unfold maxLine in G. lia.
Qed.

Theorem data_file_iff file d : (exists com, readDataFileBytes file = Ok (DataFile com d)) <-> holds file d.
Proof. split; [intros (com & H); exact (read_holds _ _ _ H)|apply holds_read]. Qed.

Lemma data_file_error file e : readDataFileBytes file = Err e -> exists n, e = CorruptInput n.
Proof.
  unfold readDataFileBytes. destruct (scan_loop _ _ _) as [line com]. rewrite DecodeString_ref.
  destruct (ref_decode (nonl line)) as [b []]; [|discriminate]. intro H. injection H as <-. eexists. reflexivity.
Qed.

Theorem data_file_not file : (forall d, ~ holds file d) <-> exists n, readDataFileBytes file = Err (CorruptInput n).
Proof.
  split.
  - intro H. destruct (readDataFileBytes file) as [[com d]|e|] eqn:E.
    + apply read_holds in E. destruct (H _ E).
    + apply data_file_error in E. destruct E as (n & ->). exists n. reflexivity.
    + destruct (data_file_total file E).
  - intros (n & E) d Hd. apply holds_read in Hd. destruct Hd as (com & Hd). congruence.
Qed.

Lemma holds_unique file d d' : holds file d -> holds file d' -> d = d'.
Proof. intros H H'. apply holds_read in H. apply holds_read in H'. destruct H as (c & H). destruct H' as (c' & H'). congruence. Qed.
