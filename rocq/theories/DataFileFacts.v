(* Facts about signify/common.go. *)
From Verif Require Export DataFile GoBase64Facts SpecFmt.

Lemma lf_free_cons c r : lf_free (c :: r) <-> beqb c x0a = false /\ lf_free r.
Proof.
  unfold lf_free. cbn [In]. split.
  - intro H. split; [apply beqb_neq; intro E; apply H; left; congruence|intro E; apply H; right; exact E].
  - intros [H1 H2] [->|H]; [rewrite beqb_refl in H1; discriminate|apply H2; exact H].
Qed.

Lemma raw_lines_line l : lf_free l -> forall cur r,
  raw_lines cur (l ++ x0a :: r) = (rev cur ++ l) :: raw_lines [] r.
Proof.
  induction l as [|c l IH]; intros Hf cur r.
  - cbn [app raw_lines]. rewrite beqb_refl, app_nil_r. reflexivity.
  - apply lf_free_cons in Hf. destruct Hf as [Hc Hf]. cbn [app raw_lines]. rewrite Hc, IH by exact Hf.
    cbn [rev]. rewrite <- app_assoc. reflexivity.
Qed.

Lemma raw_lines_last l : lf_free l -> forall cur, rev cur ++ l <> [] ->
  raw_lines cur l = [rev cur ++ l].
Proof.
  induction l as [|c l IH]; intros Hf cur Hne.
  - cbn [raw_lines]. rewrite app_nil_r in *. destruct cur; [contradiction Hne; reflexivity|reflexivity].
  - apply lf_free_cons in Hf. destruct Hf as [Hc Hf]. cbn [raw_lines]. rewrite Hc, IH; [|exact Hf|].
    + cbn [rev]. rewrite <- app_assoc. reflexivity.
    + cbn [rev]. rewrite <- app_assoc. intro E. apply Hne. exact E.
Qed.

Lemma dropCR_snoc l c : dropCR (l ++ [c]) = if beqb c x0d then l else l ++ [c].
Proof.
  unfold dropCR. rewrite rev_app_distr. cbn [rev app]. rewrite rev_involutive. reflexivity.
Qed.

Lemma nonl_app a b : nonl (a ++ b) = nonl a ++ nonl b.
Proof. apply filter_app. Qed.

Lemma dropCR_spec l : dropCR l = without_cr l.
Proof. unfold dropCR, without_cr. destruct (rev l) as [|c r]; [reflexivity|]. destruct c; reflexivity. Qed.

Lemma dropCR_nonl l : nonl (dropCR l) = nonl l.
Proof.
  destruct l as [|x l] using rev_ind; [reflexivity|]. rewrite dropCR_snoc.
  destruct (beqb x x0d) eqn:E; [|reflexivity]. apply beqb_eq in E. subst x.
  rewrite nonl_app. cbn. rewrite app_nil_r. reflexivity.
Qed.

Lemma dropCR_decode l b : DecodeString (dropCR l) = Ok b <-> DecodeString l = Ok b.
Proof. apply DecodeString_newlines, dropCR_nonl. Qed.

Lemma dropCR_prefix t : exists u, dropCR (commentPrefix ++ t) = commentPrefix ++ u.
Proof.
  destruct t as [|x t] using rev_ind.
  - exists []. reflexivity.
  - rewrite app_assoc, dropCR_snoc. destruct (beqb x x0d); [exists t; reflexivity|].
    exists (t ++ [x]). rewrite app_assoc. reflexivity.
Qed.

Lemma dropCR_has_prefix l : has_prefix commentPrefix (dropCR l) = has_prefix commentPrefix l.
Proof.
  destruct (has_prefix commentPrefix l) eqn:E.
  - apply has_prefix_iff in E. destruct E as (t & ->). apply has_prefix_iff. apply dropCR_prefix.
  - destruct (has_prefix commentPrefix (dropCR l)) eqn:E2; [|reflexivity]. exfalso.
    apply has_prefix_iff in E2. destruct E2 as (t & Ht).
    assert (has_prefix commentPrefix l = true); [|congruence].
    destruct l as [|x l _] using rev_ind; [discriminate|]. rewrite dropCR_snoc in Ht.
    apply has_prefix_iff. destruct (beqb x x0d); rewrite Ht; [|eexists; reflexivity].
    exists (t ++ [x]). rewrite app_assoc. reflexivity.
Qed.

(* a comment line is not base64 text *)
Lemma comment_offset t : offset (commentPrefix ++ t) = 9.
Proof.
  unfold offset, bad_at. rewrite app_length. change (length commentPrefix) with 19%nat.
  change (bad_from (Z.of_nat (19 + length t)) 0 (commentPrefix ++ t)) with
    (Some (index_at (Z.of_nat (19 + length t)) (str " comment: " ++ t))).
  unfold index_at. rewrite app_length. change (length (str " comment: ")) with 10%nat. lia.
Qed.
Lemma comment_decode t : DecodeString (commentPrefix ++ t) = Err (CorruptInput 9).
Proof.
  rewrite DecodeString_ref, comment_offset, nonl_app. change (nonl commentPrefix) with commentPrefix.
  unfold commentPrefix. cbn [str app String.list_byte_of_string].
  cbv [Ascii.byte_of_ascii]. cbn [app ref_decode].
  reflexivity.
Qed.

Definition comment_line (c : bytes) : Prop :=
  lf_free c /\ has_prefix commentPrefix c = true /\ Z.of_nat (length c) <= 65535.

Lemma scan_comments cs : Forall comment_line cs -> forall rest line com,
  exists line' com', scan_loop (cs ++ rest) line com = scan_loop rest line' com' /\
    match rev cs with [] => line' = line | c :: _ => line' = dropCR c end /\
    com' = com ++ concat (map (fun c => skipn (length commentPrefix) (dropCR c)) cs).
Proof.
  induction cs as [|c cs IH] using rev_ind; intros HF rest line com.
  - exists line, com. cbn. rewrite app_nil_r. auto.
  - apply Forall_app in HF. destruct HF as [H1 H2]. inversion H2 as [|? ? Hc _]; subst.
    destruct Hc as (Hf & Hp & Hl).
    destruct (IH H1 (c :: rest) line com) as (l1 & c1' & E & _ & Ec).
    exists (dropCR c), (c1' ++ skipn (length commentPrefix) (dropCR c)).
    rewrite <- app_assoc. cbn [app]. rewrite E. cbn [scan_loop].
    destruct (Z.gtb_spec (Z.of_nat (length c)) maxLine) as [H|H]; [unfold maxLine in H; lia|].
    rewrite dropCR_has_prefix, Hp. split; [reflexivity|]. rewrite rev_app_distr. split; [reflexivity|].
    rewrite Ec, map_app, concat_app. cbn. rewrite app_nil_r, <- app_assoc. reflexivity.
Qed.

Lemma raw_lines_comments cs : Forall comment_line cs -> forall r,
  raw_lines [] (concat (map (fun c => c ++ [x0a]) cs) ++ r) = cs ++ raw_lines [] r.
Proof.
  induction cs as [|c cs IH]; intros HF r; [reflexivity|]. inversion HF as [|? ? Hc Hr]; subst.
  cbn [map concat app]. rewrite <- !app_assoc. cbn [app]. rewrite raw_lines_line by apply Hc.
  cbn [rev app]. rewrite IH by exact Hr. reflexivity.
Qed.

(* end of a line: end of input or a newline followed by anything *)
Definition line_end (line tl : bytes) : Prop :=
  (tl = [] /\ line <> []) \/ exists r, tl = x0a :: r.

Lemma raw_lines_first line tl : lf_free line -> line_end line tl ->
  exists r, raw_lines [] (line ++ tl) = line :: r.
Proof.
  intros Hf [[-> Hn]|(r & ->)].
  - rewrite app_nil_r, raw_lines_last by assumption. exists []. reflexivity.
  - rewrite raw_lines_line by exact Hf. eexists. reflexivity.
Qed.

Lemma payload_line cs line tl :
  Forall comment_line cs -> lf_free line -> has_prefix commentPrefix line = false ->
  Z.of_nat (length line) <= 65535 -> line_end line tl ->
  exists com, readDataFileBytes (concat (map (fun c => c ++ [x0a]) cs) ++ line ++ tl) =
    match DecodeString (without_cr line) with
    | Ok d => Ok (DataFile com d)
    | Err e => Err e
    | Panic => Panic
    end.
Proof.
  intros HF Hf Hp Hl He. unfold readDataFileBytes. rewrite raw_lines_comments by exact HF.
  destruct (raw_lines_first line tl Hf He) as (r & ->).
  destruct (scan_comments cs HF (line :: r) [] []) as (l1 & c1' & E & _). rewrite E.
  cbn [scan_loop].
  destruct (Z.gtb_spec (Z.of_nat (length line)) maxLine) as [H|H]; [unfold maxLine in H; lia|].
  rewrite dropCR_has_prefix, Hp, dropCR_spec. exists c1'. reflexivity.
Qed.

Lemma only_comments cs : Forall comment_line cs -> cs <> [] ->
  readDataFileBytes (concat (map (fun c => c ++ [x0a]) cs)) = Err (CorruptInput 9).
Proof.
  intros HF Hne. unfold readDataFileBytes. rewrite <- (app_nil_r (concat _)), raw_lines_comments by exact HF.
  cbn [raw_lines]. destruct (scan_comments cs HF [] [] []) as (l1 & c1' & E & El & _). rewrite E. cbn [scan_loop].
  destruct (rev cs) as [|c rc] eqn:Er.
  - apply (f_equal (@rev bytes)) in Er. rewrite rev_involutive in Er. contradiction.
  - subst l1. assert (Hc : comment_line c).
    { rewrite Forall_forall in HF. apply HF. apply in_rev. rewrite Er. left. reflexivity. }
    destruct Hc as (_ & Hp & _). apply has_prefix_iff in Hp. destruct Hp as (t & ->).
    destruct (dropCR_prefix t) as (u & ->). rewrite comment_decode. reflexivity.
Qed.

Lemma data_file_total data : readDataFileBytes data <> Panic.
Proof.
  unfold readDataFileBytes. destruct (scan_loop (raw_lines [] data) [] []) as [line com].
  pose proof (DecodeString_no_panic line). destruct (DecodeString line); congruence.
Qed.

Lemma data_file_long_line line tl :
  lf_free line -> Z.of_nat (length line) > 65535 -> line_end line tl ->
  readDataFileBytes (line ++ tl) = Ok (DataFile [] []).
Proof.
  intros Hf Hl He. unfold readDataFileBytes. destruct (raw_lines_first line tl Hf He) as (r & ->).
  cbn [scan_loop]. destruct (Z.gtb_spec (Z.of_nat (length line)) maxLine) as [H|H]; [|unfold maxLine in H; lia].
  reflexivity.
Qed.

Lemma StdEncode_lf_free x : lf_free (StdEncode x).
Proof. intro H. apply StdEncode_no_nl in H. discriminate. Qed.

Lemma StdEncode_not_comment x : has_prefix commentPrefix (StdEncode x) = false.
Proof.
  destruct (has_prefix commentPrefix (StdEncode x)) eqn:E; [|reflexivity].
  apply has_prefix_iff in E. destruct E as (t & E).
  pose proof (DecodeString_StdEncode x) as H. rewrite E, comment_decode in H. discriminate.
Qed.

Lemma data_file_round_trip comment data :
  has_prefix commentPrefix comment = true -> lf_free comment ->
  Z.of_nat (length comment) <= 65535 -> Z.of_nat (length data) <= 49149 ->
  exists com, readDataFileBytes (dataFileBytes comment data) = Ok (DataFile com data).
Proof.
  intros Hp Hf Hc Hd. unfold dataFileBytes, df_Encode. cbn [df_comment df_data].
  destruct (payload_line [comment] (StdEncode data) [x0a]) as (com & H).
  - constructor; [|constructor]. split; [exact Hf|]. split; assumption.
  - apply StdEncode_lf_free.
  - apply StdEncode_not_comment.
  - rewrite StdEncode_length. rewrite Nat2Z.inj_mul, Nat2Z.inj_div, Nat2Z.inj_add.
    change (Z.of_nat 2) with 2. change (Z.of_nat 3) with 3. change (Z.of_nat 4) with 4.
    assert ((Z.of_nat (length data) + 2) / 3 <= 16383) by (apply Z.lt_succ_r, Z.div_lt_upper_bound; lia). lia.
  - right. exists []. reflexivity.
  - exists com. cbn [map concat] in H. rewrite app_nil_r, <- app_assoc in H.
    rewrite <- dropCR_spec, (proj2 (dropCR_decode _ data)) in H by apply DecodeString_StdEncode. exact H.
Qed.

Lemma fit_zero_extend n l : fit n l = zero_extend n l.
Proof.
  unfold zero_extend. destruct (Nat.le_gt_cases n (length l)) as [H|H].
  - rewrite fit_long by exact H. replace (n - length l)%nat with 0%nat by lia. cbn. rewrite app_nil_r. reflexivity.
  - rewrite fit_short by lia. rewrite firstn_all2 by lia. reflexivity.
Qed.
