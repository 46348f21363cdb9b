(* Key and signature files, verification, the streaming decoder and converted files, in terms of
   the texts of SpecText.v. *)
From Verif Require Export FaultFacts B64StreamFacts CmdFacts RoundTrip EdSigFacts SpecTextCmd.
Local Open Scope Z_scope.

(* ---- key files ---- *)
Lemma public_file_iff file a n k : readPublicKeyFile file = Ok (Pub a n k) <->
  holds file (a ++ n ++ k) /\ length a = 2%nat /\ length n = 8%nat /\ length k = 32%nat.
Proof.
  unfold readPublicKeyFile, rbind. split.
  - destruct (readDataFileBytes file) as [[com d]|e|] eqn:E; try discriminate. cbn [df_data]. intro H.
    apply read_public_bytes in H. destruct H as [(W1 & W2 & W3) <-]. split; [|auto]. exact (read_holds _ _ _ E).
  - intros (H & W). apply holds_read in H. destruct H as (com & ->). cbn [df_data].
    exact (pub_round_trip (Pub a n k) W).
Qed.
Lemma signature_file_iff file a n s : readSignatureFile file = Ok (Sig a n s) <->
  (exists d, holds file d /\ (10 <= length d)%nat /\ a ++ n ++ s = zero_extend 74 d) /\
  length a = 2%nat /\ length n = 8%nat /\ length s = 64%nat.
Proof.
  unfold readSignatureFile, rbind. split.
  - destruct (readDataFileBytes file) as [[com d]|e|] eqn:E; try discriminate. cbn [df_data]. intro H.
    assert (L : (10 <= length d)%nat).
    { destruct (Nat.le_gt_cases 10 (length d)) as [L|L]; [exact L|]. apply read_sig_panics in L. congruence. }
    destruct (read_sig_accepts d L) as (q & Eq & (W1 & W2 & W3) & B). rewrite H in Eq. injection Eq as <-.
    split; [|auto]. exists d. split; [exact (read_holds _ _ _ E)|]. split; [exact L|exact B].
  - intros ((d & H & L & B) & W). apply holds_read in H. destruct H as (com & ->). cbn [df_data].
    destruct (read_sig_accepts d L) as (q & Eq & Wq & Bq). rewrite Eq. f_equal.
    apply sig_encode_inj; [exact Wq|exact W|]. rewrite Bq. symmetry. exact B.
Qed.
Lemma private_file_iff file p : readPrivateKeyFile file = Ok p <->
  (exists d, holds file d /\ (41 <= length d)%nat /\ priv_encode p = zero_extend 104 d) /\ priv_wf p.
Proof.
  unfold readPrivateKeyFile, rbind. split.
  - destruct (readDataFileBytes file) as [[com d]|e|] eqn:E; try discriminate. cbn [df_data]. intro H.
    assert (L : (41 <= length d)%nat) by (apply read_private_iff; exists p; exact H).
    apply read_private_bytes in H. destruct H as [W B]. split; [|exact W]. exists d.
    split; [exact (read_holds _ _ _ E)|]. split; [exact L|exact B].
  - intros ((d & H & L & B) & W). apply holds_read in H. destruct H as (com & ->). cbn [df_data].
    destruct (read_private_accepts d L) as (q & Eq & Wq & Bq). rewrite Eq. f_equal.
    apply priv_encode_inj; [exact Wq|exact W|]. rewrite Bq, fit_zero_extend. symmetry. exact B.
Qed.

(* ---- verification ---- *)
Lemma acceptable_text C pf m sf :
  (exists pk sg, readPublicKeyFile pf = Ok pk /\ readSignatureFile sf = Ok sg /\ acceptable C pk m sg) <->
  signature_text (fun k m s => ed_verify C k m s = true) pf m sf.
Proof.
  split.
  - intros ([a n k] & [a' n' s] & Hp & Hs & A1 & A2 & A3 & A4). cbn [p_keyAlgo p_keyNum p_key pkAlgo s_keyNum sig] in *. subst a a' n'.
    apply public_file_iff in Hp. destruct Hp as (Hp & _ & Ln & Lk).
    apply signature_file_iff in Hs. destruct Hs as ((d & Hs & Ld & B) & _ & _ & Ls).
    exists n, k, s, d. repeat split; try assumption. symmetry. exact B.
  - intros (n & k & s & d & Ln & Lk & Ls & Hp & Hs & Ld & B & V).
    exists (Pub (str "Ed") n k), (Sig (str "Ed") n s). split; [apply public_file_iff; auto|].
    split; [apply signature_file_iff; split; [exists d; auto|auto]|]. repeat split; assumption.
Qed.

Theorem Verify_text C a b c w :
  (exists w', Verify C a b c w = (Ok tt, w')) <->
  undisturbed 3 w /\
  exists pf m sf, contents w a pf /\ contents w b m /\
    contents w (match c with [] => b ++ str ".sig" | _ => c end) sf /\
    signature_text (fun k m s => ed_verify C k m s = true) pf m sf.
Proof.
  rewrite Verify_ok_iff. change (match c with [] => b ++ str ".sig" | _ => c end) with (sigPathOf b c). split.
  - intros (U & pf & m & sf & pk & sg & C1 & C2 & C3 & R1 & R2 & A). split; [exact U|]. exists pf, m, sf.
    repeat (split; [assumption|]). apply acceptable_text. exists pk, sg. auto.
  - intros (U & pf & m & sf & C1 & C2 & C3 & T). split; [exact U|]. apply acceptable_text in T.
    destruct T as (pk & sg & R1 & R2 & A). exists pf, m, sf, pk, sg. repeat (split; [assumption|]). exact A.
Qed.

Lemma signature_text_ext (P Q : bytes -> bytes -> bytes -> Prop) pf m sf :
  (forall k s, length k = 32%nat -> length s = 64%nat -> P k m s <-> Q k m s) ->
  signature_text P pf m sf <-> signature_text Q pf m sf.
Proof.
  intro H. unfold signature_text. split; intros (n & k & s & d & Ln & Lk & Ls & R); exists n, k, s, d;
  repeat (split; [assumption|]); decompose [and] R; repeat (split; [assumption|]); apply H; assumption.
Qed.

Lemma too_short_text w pp mp sp : too_short w pp mp sp <->
  undisturbed 3 w /\ exists pf m sf num k a d, contents w pp pf /\ contents w mp m /\ contents w sp sf /\
    length a = 2%nat /\ length num = 8%nat /\ length k = 32%nat /\ holds pf (a ++ num ++ k) /\
    holds sf d /\ (length d < 10)%nat.
Proof.
  unfold too_short. split.
  - intros (U & pf & m & sf & [a n k] & com & d & C1 & C2 & C3 & R1 & R2 & L). split; [exact U|].
    apply public_file_iff in R1. destruct R1 as (R1 & La & Ln & Lk). exists pf, m, sf, n, k, a, d.
    repeat (split; [assumption|]). split; [exact (read_holds _ _ _ R2)|exact L].
  - intros (U & pf & m & sf & n & k & a & d & C1 & C2 & C3 & La & Ln & Lk & R1 & R2 & L). split; [exact U|].
    apply holds_read in R2. destruct R2 as (com & R2). exists pf, m, sf, (Pub a n k), com, d.
    repeat (split; [assumption|]). split; [apply public_file_iff; auto|auto].
Qed.

(* ---- the streaming decoder ---- *)
Lemma decode_loop_room len : forall fuel big src acc r e, decode_loop len fuel big src acc = RRet r e ->
  exists o, r = acc ++ o /\ forall room, 0 <= room ->
    decode_loop len fuel room src acc = if Z.of_nat (length o) <=? room then RRet r e else RPanic.
Proof.
  induction fuel as [|fuel IH]; intros big src acc r e H.
  - destruct src; [|discriminate]. injection H as <- <-. exists []. rewrite app_nil_r. split; [reflexivity|].
    intros room Hr. cbn [length decode_loop]. destruct (Z.leb_spec (Z.of_nat 0) room); [reflexivity|lia].
  - destruct src as [|c0 src0].
    + injection H as <- <-. exists []. rewrite app_nil_r. split; [reflexivity|].
      intros room Hr. cbn [length decode_loop]. destruct (Z.leb_spec (Z.of_nat 0) room); [reflexivity|lia].
    + cbn [decode_loop] in H |- *. destruct (decodeQuantum len [] (c0 :: src0)) as [rest out e'].
      destruct (big <? Z.of_nat (length out)); [discriminate|]. destruct e' as [x|].
      * injection H as <- <-. exists out. split; [reflexivity|]. intros room Hr.
        destruct (Z.ltb_spec room (Z.of_nat (length out))); destruct (Z.leb_spec (Z.of_nat (length out)) room); try lia; reflexivity.
      * destruct (IH _ _ _ _ _ H) as (o & -> & Ho). exists (out ++ o). split; [rewrite app_assoc; reflexivity|].
        intros room Hr. destruct (Z.ltb_spec room (Z.of_nat (length out))) as [G|G].
        -- destruct (Z.leb_spec (Z.of_nat (length (out ++ o))) room) as [G'|G']; [|reflexivity]. rewrite app_length in G'. lia.
        -- rewrite Ho by lia. rewrite app_length.
           destruct (Z.leb_spec (Z.of_nat (length o)) (room - Z.of_nat (length out)));
           destruct (Z.leb_spec (Z.of_nat (length out + length o)) room); try lia; reflexivity.
Qed.

Lemma StdDecode_room room src : 0 <= room ->
  StdDecode room src = let '(o, e) := ref_decode (nonl src) in
    if Z.of_nat (length o) <=? room then RRet o (if e then Some (CorruptInput (offset src)) else None) else RPanic.
Proof.
  intro Hr. pose proof (StdDecode_ref (3 * Z.of_nat (length (nonl src) / 4)) src ltac:(lia)) as H.
  unfold ref_result in H. destruct (ref_decode (nonl src)) as [o e]. cbn [app fst snd] in H. unfold StdDecode in *.
  destruct (decode_loop_room _ _ _ _ _ _ _ H) as (o' & Eo & Ho). cbn [app] in Eo. subst o'. apply Ho, Hr.
Qed.

Definition quads (n : nat) : nat := (4 * ((n + 2) / 3))%nat.
Lemma EncodedLen_quads n : EncodedLen (Z.of_nat n) = Z.of_nat (quads n).
Proof.
  unfold EncodedLen, quads. rewrite Nat2Z.inj_mul, Nat2Z.inj_div, Nat2Z.inj_add. change (Z.of_nat 2) with 2.
  change (Z.of_nat 3) with 3. change (Z.of_nat 4) with 4. lia.
Qed.
Lemma quads_mod3 n : (n mod 3 = 0)%nat -> (3 * (quads n / 4) = n)%nat.
Proof.
  intro H. unfold quads. rewrite Nat.mul_comm, (Nat.mul_comm 4), Nat.div_mul by lia.
  rewrite (Nat.div_mod n 3) at 2 by lia. rewrite H. rewrite (Nat.div_mod n 3) at 1 by lia. rewrite H.
  replace (3 * (n / 3) + 0 + 2)%nat with (2 + n / 3 * 3)%nat by lia. rewrite Nat.div_add by lia. change (2 / 3)%nat with 0%nat. lia.
Qed.

Theorem dec_read_exact n t : exists t',
  snd (dec_read_script n (map RByte t)) = map RByte t' /\ no_lf t' = skipn (4 * ((n + 2) / 3)) (no_lf t) /\
  let text := no_crlf (firstn (4 * ((n + 2) / 3)) (no_lf t)) in
  let r := fst (dec_read_script n (map RByte t)) in
  (forall b, r = RRet b None <-> base64_of text b /\ (length b <= n)%nat) /\
  (forall b, base64_of text b -> (n < length b)%nat -> r = RPanic) /\
  (forall i, faulty_at (firstn (4 * ((n + 2) / 3)) (no_lf t)) i -> r = RPanic \/ exists b, r = RRet b (Some (CorruptInput i))).
Proof.
  fold (quads n).
  destruct (dec_loop_plain t (script_fuel (plain t) (Z.of_nat (quads n))) (quads n) x00 0 []) as (t' & H1 & H2).
  { unfold script_fuel, plain. rewrite map_length. lia. } { lia. } { reflexivity. }
  exists t'. unfold dec_read_script, dec_read. rewrite EncodedLen_quads. fold (plain t). rewrite H1. cbn [length app] in *.
  rewrite Nat.sub_0_r in *. cbn [fst snd]. split; [reflexivity|]. split; [exact H2|].
  set (x := firstn (quads n) (no_lf t)). rewrite StdDecode_room by lia. change (no_crlf x) with (nonl x).
  cbv zeta. destruct (ref_decode (nonl x)) as [o []] eqn:E.
  - split; [|split].
    + intro b. split; [destruct (_ <=? _); discriminate|]. intros (H & _). apply text_ref_decode in H. congruence.
    + intros b H. apply text_ref_decode in H. congruence.
    + intros i Hi. apply faulty_bad in Hi. unfold offset. rewrite Hi. destruct (_ <=? _); [right; exists o; reflexivity|left; reflexivity].
  - assert (Eo : forall b, base64_of (nonl x) b <-> b = o).
    { intro b. rewrite <- ref_decode_iff, E. split; [congruence|intros ->; reflexivity]. }
    split; [|split].
    + intro b. rewrite Eo. destruct (Z.leb_spec (Z.of_nat (length o)) (Z.of_nat n)) as [G|G].
      * split; [intro H; injection H as <-; split; [reflexivity|lia]|intros [-> _]; reflexivity].
      * split; [discriminate|]. intros [-> L]. lia.
    + intros b Hb L. apply Eo in Hb. subst b. destruct (Z.leb_spec (Z.of_nat (length o)) (Z.of_nat n)); [lia|reflexivity].
    + intros i Hi. destruct (fault_not_text x i o Hi). apply Eo. reflexivity.
Qed.

(* ---- files with converted line ends ---- *)
Lemma to_crlf_app a b : to_crlf (a ++ b) = to_crlf a ++ to_crlf b.
Proof. apply flat_map_app. Qed.
Lemma to_crlf_lf_free a : lf_free a -> to_crlf a = a.
Proof.
  induction a as [|c a IH]; intro H; [reflexivity|]. apply lf_free_cons in H. destruct H as [H1 H2].
  unfold to_crlf in *. cbn [flat_map]. rewrite H1, (IH H2). reflexivity.
Qed.
Lemma to_crlf_line a r : lf_free a -> to_crlf (a ++ x0a :: r) = (a ++ [x0d]) ++ x0a :: to_crlf r.
Proof.
  intro H. rewrite to_crlf_app, to_crlf_lf_free by exact H. change (to_crlf (x0a :: r)) with ([x0d; x0a] ++ to_crlf r).
  rewrite <- app_assoc. reflexivity.
Qed.
Lemma lf_free_app a b : lf_free (a ++ b) <-> lf_free a /\ lf_free b.
Proof. unfold lf_free. rewrite in_app_iff. tauto. Qed.
Lemma cr_lf_free a : lf_free a -> lf_free (a ++ [x0d]).
Proof. intro H. apply lf_free_app. split; [exact H|]. intros [E|[]]. discriminate. Qed.
Lemma comment_cr a : a_comment (a ++ [x0d]) <-> a_comment a.
Proof.
  unfold a_comment. fold commentPrefix. rewrite <- !has_prefix_iff. rewrite <- (dropCR_has_prefix (a ++ [x0d])), dropCR_snoc.
  change (beqb x0d x0d) with true. reflexivity.
Qed.
Lemma no_crlf_cr a : no_crlf (a ++ [x0d]) = no_crlf a.
Proof. unfold no_crlf. rewrite filter_app. cbn. apply app_nil_r. Qed.

Lemma to_crlf_lines cs r : Forall lf_free cs ->
  to_crlf (concat (map line_of cs) ++ r) = concat (map line_of (map (fun c => c ++ [x0d]) cs)) ++ to_crlf r.
Proof.
  induction cs as [|c cs IH]; intro H; [reflexivity|]. inversion H as [|? ? H1 H2]; subst. cbn [map concat].
  unfold line_of at 1 3. rewrite <- !app_assoc. change ([x0a] ++ ?x) with (x0a :: x).
  rewrite to_crlf_line, IH by assumption. rewrite <- !app_assoc. reflexivity.
Qed.
Lemma concat_length_in {A} (x : list A) l : In x l -> (length x <= length (concat l))%nat.
Proof. induction l as [|y l IH]; intros []; cbn [concat]; rewrite app_length; [subst; lia|specialize (IH H); lia]. Qed.

Theorem crlf_data_file file d : Z.of_nat (length file) <= 65534 -> holds file d -> holds (to_crlf file) d.
Proof.
  intros HL [(cs & line & tl & E & Hc & Hf & Hn & Hl & He & Hb)|(-> & [->|(line & tl & E & Hf & Hl & He)])].
  - left. assert (Hcf : Forall lf_free cs) by (eapply Forall_impl; [|exact Hc]; intros a (H & _); exact H).
    assert (Hcl : forall c, In c cs -> Z.of_nat (length c) <= 65534).
    { intros c Hin. assert (length c <= length file)%nat; [|lia]. subst file. rewrite !app_length.
      pose proof (concat_length_in (line_of c) (map line_of cs) (in_map _ _ _ Hin)) as H. unfold line_of at 1 in H.
      rewrite app_length in H. lia. }
    assert (Hll : Z.of_nat (length line) <= 65534) by (subst file; rewrite !app_length in HL; lia).
    assert (Hc' : Forall (fun c => lf_free c /\ a_comment c /\ fits c) (map (fun c => c ++ [x0d]) cs)).
    { rewrite Forall_forall in Hc |- *. intros x Hx. apply in_map_iff in Hx. destruct Hx as (c & <- & Hin).
      destruct (Hc c Hin) as (H1 & H2 & _). split; [apply cr_lf_free, H1|]. split; [apply comment_cr, H2|].
      specialize (Hcl c Hin). unfold fits. rewrite app_length. cbn [length]. lia. }
    subst file. rewrite to_crlf_lines by exact Hcf. exists (map (fun c => c ++ [x0d]) cs).
    destruct He as [[-> Hne]|(r & ->)].
    + exists line, []. rewrite !app_nil_r, to_crlf_lf_free by exact Hf. repeat (split; [reflexivity || assumption|]).
      split; [left; split; [reflexivity|exact Hne]|exact Hb].
    + exists (line ++ [x0d]), (x0a :: to_crlf r). rewrite to_crlf_line by exact Hf. split; [reflexivity|].
      split; [exact Hc'|]. split; [apply cr_lf_free, Hf|]. split; [rewrite comment_cr; exact Hn|].
      split; [unfold fits; rewrite app_length; cbn [length]; lia|].
      split; [right; eexists; reflexivity|]. rewrite no_crlf_cr. exact Hb.
  - right. split; [reflexivity|]. left. reflexivity.
  - exfalso. apply Hl. unfold fits. subst file. rewrite app_length in HL. lia.
Qed.

Lemma no_lf_free a : lf_free a -> no_lf a = a.
Proof.
  induction a as [|c a IH]; intro H; [reflexivity|]. apply lf_free_cons in H. destruct H as [H1 H2].
  unfold no_lf in *. cbn [filter]. rewrite H1. cbn [negb]. rewrite (IH H2). reflexivity.
Qed.
Lemma no_lf_app a b : no_lf (a ++ b) = no_lf a ++ no_lf b.
Proof. apply filter_app. Qed.
Lemma no_crlf_app a b : no_crlf (a ++ b) = no_crlf a ++ no_crlf b.
Proof. apply filter_app. Qed.
Lemma no_crlf_StdEncode x : no_crlf (StdEncode x) = StdEncode x.
Proof. exact (nlfree_nonl _ (StdEncode_nlfree x)). Qed.
Lemma no_crlf_firstn n a : no_crlf a = a -> no_crlf (firstn n a) = firstn n a.
Proof.
  intro H. assert (G : nlfree (firstn n a)); [|exact (nlfree_nonl _ G)].
  assert (G : nlfree a) by (rewrite <- H; apply nonl_nlfree).
  rewrite <- (firstn_skipn n a) in G. apply nlfree_app in G. apply G.
Qed.

Lemma encode_digits x : (length x mod 3 = 0)%nat -> Forall (fun c => a_digit c \/ a_break c) (StdEncode x).
Proof.
  induction x as [|a|a b|a b c r IH] using list_ind3; intro H; try discriminate; [constructor|].
  rewrite StdEncode_cons3.
  assert (D : forall v, 0 <= v < 64 -> a_digit (spec_char v) \/ a_break (spec_char v)) by (intros v Hv; left; exists v; auto).
  repeat (constructor; [apply D; first [apply c1_range|apply c2_range|apply c3_range|apply c4_range]|]).
  apply IH. cbn [length] in H. replace (Datatypes.S (Datatypes.S (Datatypes.S (length r)))) with (length r + 1 * 3)%nat in H by lia.
  rewrite Nat.mod_add in H by lia. exact H.
Qed.
Lemma Forall_firstn {A} (P : A -> Prop) n l : Forall P l -> Forall P (firstn n l).
Proof. rewrite !Forall_forall. intros H y Hy. apply H. rewrite <- (firstn_skipn n l). apply in_or_app. left. exact Hy. Qed.

Lemma crlf_text_fault x : (72 <= length x)%nat ->
  faulty_at (firstn 96 (no_lf (to_crlf (spec_encoded x)))) 93.
Proof.
  intro H.
  assert (E : exists l2 r, spec_encoded x = StdEncode (firstn 54 x) ++ x0a :: StdEncode l2 ++ x0a :: r /\ (18 <= length l2)%nat).
  { unfold spec_encoded. destruct (length x) as [|n] eqn:Ln; [lia|]. cbn [blocks54].
    destruct (Nat.ltb_spec (length x) 54); [lia|]. cbn [flat_map]. rewrite <- app_assoc. rewrite <- StdEncode_spec.
    assert (Ls : length (skipn 54 x) = (S n - 54)%nat) by (rewrite skipn_length, Ln; reflexivity).
    destruct n as [|n]; [lia|]. cbn [blocks54]. destruct (Nat.ltb_spec (length (skipn 54 x)) 54).
    - exists (skipn 54 x), []. cbn [flat_map app]. rewrite <- StdEncode_spec, app_nil_r. split; [reflexivity|lia].
    - exists (firstn 54 (skipn 54 x)), (flat_map (fun b => spec_base64 b ++ [x0a]) (blocks54 n (skipn 54 (skipn 54 x)))).
      cbn [flat_map]. rewrite <- StdEncode_spec, <- app_assoc. split; [reflexivity|]. rewrite firstn_length. lia. }
  destruct E as (l2 & r & -> & L2).
  rewrite to_crlf_line by apply StdEncode_lf_free. rewrite to_crlf_line by apply StdEncode_lf_free.
  rewrite no_lf_app. change (x0a :: (StdEncode l2 ++ [x0d]) ++ x0a :: to_crlf r) with ([x0a] ++ (StdEncode l2 ++ [x0d]) ++ x0a :: to_crlf r).
  rewrite !no_lf_app. change (no_lf [x0a]) with (@nil byte). change (no_lf [x0d]) with [x0d].
  rewrite !no_lf_free by apply StdEncode_lf_free. cbn [app]. rewrite <- !app_assoc. cbn [app].
  assert (L1 : length (StdEncode (firstn 54 x)) = 72%nat) by (rewrite StdEncode_length, firstn_length_le by lia; reflexivity).
  assert (L3 : (24 <= length (StdEncode l2))%nat).
  { rewrite StdEncode_length. assert (6 <= (length l2 + 2) / 3)%nat by (apply Nat.div_le_lower_bound; lia). lia. }
  rewrite firstn_app, L1. rewrite firstn_all2 by lia. change (96 - 72)%nat with 24%nat. rewrite (firstn_cons 23).
  rewrite firstn_app. replace (23 - length (StdEncode l2))%nat with 0%nat by lia. rewrite firstn_O, app_nil_r.
  set (s := StdEncode (firstn 54 x) ++ x0d :: firstn 23 (StdEncode l2)).
  assert (Ls : length s = 96%nat) by (unfold s; rewrite app_length, L1; cbn [length]; rewrite firstn_length_le by lia; reflexivity).
  assert (Lc : length (no_crlf s) = 95%nat).
  { unfold s. rewrite no_crlf_app, no_crlf_StdEncode. change (x0d :: firstn 23 (StdEncode l2)) with ([x0d] ++ firstn 23 (StdEncode l2)).
    rewrite no_crlf_app. change (no_crlf [x0d]) with (@nil byte). cbn [app].
    rewrite no_crlf_firstn by apply no_crlf_StdEncode. rewrite app_length, L1, firstn_length_le by lia. reflexivity. }
  assert (D : digits_left s 3).
  { split; [|rewrite Lc; reflexivity]. apply Forall_app. split.
    - apply encode_digits. rewrite firstn_length_le by lia. reflexivity.
    - constructor; [right; right; reflexivity|]. change 23%nat with (Nat.min 23 (4 * 6)). rewrite <- firstn_firstn.
      rewrite (proj1 (B64StreamFacts.firstn_encode 6 l2)). apply Forall_firstn, encode_digits. rewrite firstn_length_le by lia. reflexivity. }
  pose proof (FEnd s 3 D ltac:(lia)) as F. unfold size in F. rewrite Ls in F. exact F.
Qed.

Theorem crlf_sealed C sk ep mp w kf priv c x p : ep <> mp -> mp <> [] -> no_faults w ->
  contents w sk kf -> readPrivateKeyFile kf = Ok priv -> unlocked C priv (w_tty w) p ->
  (72 <= length x)%nat -> lf_free c -> contents w ep (to_crlf (c ++ x0a :: spec_encoded x)) ->
  fst (Open C sk ep mp w) = Err (CorruptInput 93).
Proof.
  intros Hne Hmp Hn Ck Rk U Hx Hc Cd. rewrite to_crlf_line in Cd by exact Hc.
  apply (proj1 (Open_header_error C sk ep mp w kf priv (c ++ [x0d]) (to_crlf (spec_encoded x)) p Hne Hmp Hn Ck Rk Cd (cr_lf_free _ Hc) U)).
  apply fault_iff, crlf_text_fault, Hx.
Qed.
(* what Seal writes, converted *)
Theorem crlf_seal C pk mp ep w w1 m v sk kf priv p out f : LengthLaws C -> no_faults w -> contents w mp m -> m <> [] ->
  Z.of_nat (length m) < 2 ^ 63 -> enc_path mp ep <> mp -> Seal C pk mp ep w = (Ok tt, w1) -> contents w1 (enc_path mp ep) f ->
  no_faults v -> contents v sk kf -> readPrivateKeyFile kf = Ok priv -> unlocked C priv (w_tty v) p ->
  contents v (enc_path mp ep) (to_crlf f) -> enc_path mp ep <> out -> out <> [] ->
  fst (Open C sk (enc_path mp ep) out v) = Err (CorruptInput 93).
Proof.
  intros LL Hw Cm Hm Lm Hq HS Cf Hv Ck Rk U Cq Ho Hne.
  destruct (Seal_format C pk mp ep w w1 m LL Hw Cm Hm Lm Hq HS) as (pf & pub & edpub & ms & _ & _ & _ & _ & _ & _ & Cb & Lb).
  set (body := sealed_body _ _ _ _) in *. clearbody body.
  assert (f = sealed_file body) as -> by exact (contents_fun _ _ _ _ Cf Cb).
  unfold sealed_file, comment_text in Cq. rewrite <- app_assoc in Cq. cbn [app] in Cq.
  assert (0 <= (Z.of_nat (length m) + 16384) / 16385) by (apply Z.div_pos; lia).
  refine (crlf_sealed C sk _ out v kf priv (str "untrusted comment: psignify encrypted file") body p Ho Hne Hv Ck Rk U _ _ Cq); [lia|].
  vm_compute. intuition discriminate.
Qed.

(* ---- the command ---- *)
Lemma accepted_text C w pp mp sp : accepted C w pp mp sp <-> finds_signature (fun k m s => ed_verify C k m s = true) w pp mp sp.
Proof.
  unfold accepted, finds_signature. split; intros (U & pf & m & sf & R); (split; [exact U|]).
  - destruct R as (pk & sg & C1 & C2 & C3 & R). exists pf, m, sf. repeat (split; [assumption|]). apply acceptable_text. exists pk, sg. exact R.
  - destruct R as (C1 & C2 & C3 & T). apply acceptable_text in T. destruct T as (pk & sg & R). exists pf, m, sf, pk, sg. auto.
Qed.
Lemma finds_signature_ext P Q w pp mp sp :
  (forall k m s, length k = 32%nat -> length s = 64%nat -> P k m s <-> Q k m s) ->
  finds_signature P w pp mp sp <-> finds_signature Q w pp mp sp.
Proof.
  intro H. unfold finds_signature. split; intros (U & pf & m & sf & C1 & C2 & C3 & T); (split; [exact U|]); exists pf, m, sf;
    repeat (split; [assumption|]); apply (signature_text_ext P Q pf m sf); auto.
Qed.
Lemma short_stub w pp mp sp : too_short w pp mp sp <-> finds_stub w pp mp sp.
Proof.
  rewrite too_short_text. unfold finds_stub. split; intros (U & pf & m & sf & R); (split; [exact U|]); exists pf, m, sf.
  - destruct R as (num & k & a & d & C1 & C2 & C3 & La & Ln & Lk & Hp & Hs & Ld). exists (a ++ num ++ k), d.
    repeat (split; [assumption|]). split; [rewrite !app_length; lia|auto].
  - destruct R as (k & d & C1 & C2 & C3 & Hp & Lk & Hs & Ld).
    exists (firstn 8 (skipn 2 k)), (skipn 8 (skipn 2 k)), (firstn 2 k), d.
    repeat (split; [assumption|]). rewrite !firstn_length, !skipn_length. split; [lia|]. split; [lia|]. split; [lia|].
    rewrite !firstn_skipn. auto.
Qed.
Theorem main_verify_text C arg0 u ss args rest w n w' : command_line ss args rest -> stops rest -> verifies ss ->
  main C arg0 u args w = (n, w') ->
  let pp := or_default (string_value x70 ss) (defaultKeyBase u) (str ".pub") in
  let mp := string_value x6d ss in let sp := sigPathOf mp (string_value x78 ss) in
  let good := finds_signature (fun k m s => ed_verify C k m s = true) w pp mp sp in
  (n = 0 <-> good) /\ (n = 2 <-> finds_stub w pp mp sp) /\ (n = 1 <-> ~ good /\ ~ finds_stub w pp mp sp) /\
  w_log w' = w_log w ++ (if n =? 0 then [EvOut (mp ++ str ": OK" ++ [x0a])]
                         else if n =? 1 then [EvErr (mp ++ str ": invalid signature" ++ [x0a])] else []).
Proof.
  intros Hc Hs Hv Hm pp mp sp good.
  assert (X : ~ (accepted C w pp mp sp /\ too_short w pp mp sp)).
  { rewrite accepted_text, short_stub.
    intros [(_ & pf & m & sf & _ & _ & C3 & (nu & k & s & d & _ & _ & _ & _ & Hd & Ld & _)) (_ & pf' & m' & sf' & k' & d' & _ & _ & C3' & _ & _ & Hd' & Ld')].
    rewrite (contents_fun _ _ _ _ C3' C3) in Hd'. rewrite (holds_unique _ _ _ Hd' Hd) in Ld'. lia. }
  destruct (main_verify_exact C arg0 u ss args rest w n w' Hc Hs Hv Hm) as (_ & _ & _ & R).
  fold pp mp sp in R. unfold good. rewrite <- accepted_text, <- short_stub.
  destruct R as [(-> & A & L) | [(-> & A & B & L) | (-> & A & L)]]; cbn; rewrite L, ?app_nil_r;
    intuition (congruence || discriminate).
Qed.
Lemma rfc_pointwise C : conforms_signatures C -> forall k m s, length k = 32%nat -> length s = 64%nat ->
  ed_verify C k m s = true <-> Ed25519_accepts (sha512 C) k m s.
Proof. intros [_ H] k m s Hk _. exact (H k m s Hk). Qed.
Theorem main_verify_text_rfc C arg0 u ss args rest w n w' : conforms_signatures C -> command_line ss args rest -> stops rest -> verifies ss ->
  main C arg0 u args w = (n, w') ->
  let pp := or_default (string_value x70 ss) (defaultKeyBase u) (str ".pub") in
  let mp := string_value x6d ss in let sp := sigPathOf mp (string_value x78 ss) in
  let good := finds_signature (Ed25519_accepts (sha512 C)) w pp mp sp in
  (n = 0 <-> good) /\ (n = 2 <-> finds_stub w pp mp sp) /\ (n = 1 <-> ~ good /\ ~ finds_stub w pp mp sp) /\
  w_log w' = w_log w ++ (if n =? 0 then [EvOut (mp ++ str ": OK" ++ [x0a])]
                         else if n =? 1 then [EvErr (mp ++ str ": invalid signature" ++ [x0a])] else []).
Proof.
  intros CS Hc Hs Hv Hm pp mp sp good. pose proof (main_verify_text C arg0 u ss args rest w n w' Hc Hs Hv Hm) as M.
  cbv zeta in M. fold pp mp sp in M. unfold good.
  rewrite <- (finds_signature_ext _ _ w pp mp sp (rfc_pointwise C CS)). exact M.
Qed.
Lemma private_file_exact file a k r s c n key :
  readPrivateKeyFile file = Ok (Priv a k r s c n key) <->
  exists d, holds file d /\ (41 <= length d)%nat /\ a ++ k ++ be_encode 4 r ++ s ++ c ++ n ++ key = zero_extend 104 d /\
    length a = 2%nat /\ length k = 2%nat /\ 0 <= r < 4294967296 /\ length s = 16%nat /\ length c = 8%nat /\
    length n = 8%nat /\ length key = 64%nat.
Proof.
  rewrite private_file_iff. unfold priv_wf, priv_encode. cbn.
  split; [intros ((d & H1 & H2 & H3) & W); exists d; auto | intros (d & H1 & H2 & H3 & W); split; [exists d; auto | exact W]].
Qed.
