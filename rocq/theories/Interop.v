(* Proofs about exchanging files with OpenBSD's signify. *)
From Verif Require Export SpecInterop GenFacts EdSigFacts.
Local Open Scope Z_scope.

(* ---- base64 ---- *)
Lemma ob_value_spec v : 0 <= v < 64 -> ob_value (spec_char v) = Some v /\ ob_pad (spec_char v) = false /\ ob_space (spec_char v) = false.
Proof.
  intro H.
  assert (E : (match ob_value (spec_char v) with Some u => u =? v | None => false end && negb (ob_pad (spec_char v)) && negb (ob_space (spec_char v))) = true).
  { revert v H. apply (forallb_seq (fun v => (match ob_value (spec_char v) with Some u => u =? v | None => false end && negb (ob_pad (spec_char v)) && negb (ob_space (spec_char v)))) 64). vm_compute. reflexivity. }
  apply andb_prop in E. destruct E as [E E3]. apply andb_prop in E. destruct E as [E1 E2].
  destruct (ob_value (spec_char v)) as [u|]; [|discriminate]. apply Z.eqb_eq in E1. subst u.
  apply negb_true_iff in E2, E3. auto.
Qed.
Lemma ob_value_inv c v : ob_value c = Some v -> c = spec_char v /\ 0 <= v < 64.
Proof.
  assert (E : (match ob_value c with Some u => beqb c (spec_char u) && (0 <=? u) && (u <? 64) | None => true end) = true) by (destruct c; vm_compute; reflexivity).
  intro H. rewrite H in E. apply andb_prop in E. destruct E as [E E3]. apply andb_prop in E. destruct E as [E1 E2].
  apply beqb_eq in E1. split; [exact E1|lia].
Qed.
Lemma ob_pad_inv c : ob_pad c = true -> c = padChar.
Proof.
  assert (E : (negb (ob_pad c) || beqb c padChar) = true) by (destruct c; vm_compute; reflexivity).
  intro H. rewrite H in E. apply beqb_eq. exact E.
Qed.

Lemma join1 a b : z2b (c1 a * 4 + c2 a b / 16) = a.
Proof. unfold c1, c2. transitivity (z2b (b2z a)); [f_equal|apply z2b_b2z]. pose proof (b2z_range a). pose proof (b2z_range b). Z.div_mod_to_equations. lia. Qed.
Lemma join2 a b c : z2b (c2 a b mod 16 * 16 + c3 b c / 4) = b.
Proof. unfold c2, c3. transitivity (z2b (b2z b)); [f_equal|apply z2b_b2z]. pose proof (b2z_range a). pose proof (b2z_range b). pose proof (b2z_range c). Z.div_mod_to_equations. lia. Qed.
Lemma join3 b c : z2b (c3 b c mod 4 * 64 + c4 c) = c.
Proof. unfold c3, c4. transitivity (z2b (b2z c)); [f_equal|apply z2b_b2z]. pose proof (b2z_range b). pose proof (b2z_range c). Z.div_mod_to_equations. lia. Qed.

Lemma ob_quads_encode x : ob_quads (StdEncode x) = Some x.
Proof.
  induction x as [|a|a b|a b c r IH] using list_ind3.
  - reflexivity.
  - rewrite StdEncode_1. cbn [ob_quads]. rewrite (proj1 (ob_value_spec _ (c1_range a))), (proj1 (ob_value_spec _ (c2_range a x00))).
    change (ob_pad padChar) with true. cbn [andb].
    assert (E : (c2 a x00 mod 16 =? 0) = true) by (destruct a; vm_compute; reflexivity). rewrite E, join1. reflexivity.
  - rewrite StdEncode_2. cbn [ob_quads].
    rewrite (proj1 (ob_value_spec _ (c1_range a))), (proj1 (ob_value_spec _ (c2_range a b))), (proj1 (proj2 (ob_value_spec _ (c3_range b x00)))), (proj1 (ob_value_spec _ (c3_range b x00))).
    change (ob_pad padChar) with true.
    assert (E : (c3 b x00 mod 4 =? 0) = true) by (destruct b; vm_compute; reflexivity). rewrite E, join1, join2. reflexivity.
  - rewrite StdEncode_cons3. cbn [app ob_quads].
    rewrite (proj1 (ob_value_spec _ (c1_range a))), (proj1 (ob_value_spec _ (c2_range a b))), (proj1 (proj2 (ob_value_spec _ (c3_range b c)))), (proj1 (ob_value_spec _ (c3_range b c))).
    rewrite (proj1 (proj2 (ob_value_spec _ (c4_range c)))), (proj1 (ob_value_spec _ (c4_range c))), IH, join1, join2, join3. reflexivity.
Qed.

Lemma split1 a b : 0 <= a < 64 -> 0 <= b < 64 -> c1 (z2b (a * 4 + b / 16)) = a.
Proof. intros. unfold c1. rewrite b2z_z2b. rewrite Z.mod_small; Z.div_mod_to_equations; lia. Qed.
Lemma split2 a b c : 0 <= a < 64 -> 0 <= b < 64 -> 0 <= c < 64 -> c2 (z2b (a * 4 + b / 16)) (z2b (b mod 16 * 16 + c / 4)) = b.
Proof. intros. unfold c2. rewrite !b2z_z2b. rewrite (Z.mod_small (_ * 4 + _)), (Z.mod_small (_ * 16 + _)); Z.div_mod_to_equations; lia. Qed.
Lemma split2' a b : 0 <= a < 64 -> 0 <= b < 64 -> b mod 16 = 0 -> c2 (z2b (a * 4 + b / 16)) x00 = b.
Proof. intros. unfold c2. rewrite !b2z_z2b. change (b2z x00) with 0. rewrite (Z.mod_small (_ * 4 + _)); Z.div_mod_to_equations; lia. Qed.
Lemma split3' b c : 0 <= b < 64 -> 0 <= c < 64 -> c mod 4 = 0 -> c3 (z2b (b mod 16 * 16 + c / 4)) x00 = c.
Proof. intros. unfold c3. rewrite !b2z_z2b. change (b2z x00) with 0. rewrite (Z.mod_small (_ * 16 + _)); Z.div_mod_to_equations; lia. Qed.
Lemma split3c b c d : 0 <= b < 64 -> 0 <= c < 64 -> 0 <= d < 64 -> c3 (z2b (b mod 16 * 16 + c / 4)) (z2b (c mod 4 * 64 + d)) = c.
Proof. intros. unfold c3. rewrite !b2z_z2b. rewrite (Z.mod_small (_ * 16 + _)), (Z.mod_small (_ * 64 + _)); Z.div_mod_to_equations; lia. Qed.
Lemma split4 c d : 0 <= c < 64 -> 0 <= d < 64 -> c4 (z2b (c mod 4 * 64 + d)) = d.
Proof. intros. unfold c4. rewrite !b2z_z2b. rewrite (Z.mod_small (_ * 64 + _)); Z.div_mod_to_equations; lia. Qed.

Lemma ob_quads_inv t : forall x, ob_quads t = Some x -> t = StdEncode x.
Proof.
  induction t as [| | | |a b c d r IH] using list_ind4; intros x H; try discriminate H.
  - injection H as <-. reflexivity.
  - cbn [ob_quads] in H. destruct (ob_value a) as [va|] eqn:Ea; [|discriminate]. destruct (ob_value b) as [vb|] eqn:Eb; [|discriminate].
    apply ob_value_inv in Ea, Eb. destruct Ea as [-> Ra]. destruct Eb as [-> Rb].
    destruct (ob_pad c) eqn:Pc.
    { apply ob_pad_inv in Pc. subst c. destruct r; [|discriminate]. destruct (ob_pad d) eqn:Pd; [|discriminate]. apply ob_pad_inv in Pd. subst d.
      cbn [andb] in H. destruct (Z.eqb_spec (vb mod 16) 0) as [Z0|]; [|discriminate]. injection H as <-.
      rewrite StdEncode_1, split1, split2' by assumption. reflexivity. }
    destruct (ob_value c) as [vc|] eqn:Ec; [|discriminate]. apply ob_value_inv in Ec. destruct Ec as [-> Rc].
    destruct (ob_pad d) eqn:Pd.
    { apply ob_pad_inv in Pd. subst d. destruct r; [|discriminate]. destruct (Z.eqb_spec (vc mod 4) 0) as [Z0|]; [|discriminate]. injection H as <-.
      rewrite StdEncode_2, split1, split2, split3' by assumption. reflexivity. }
    destruct (ob_value d) as [vd|] eqn:Ed; [|discriminate]. apply ob_value_inv in Ed. destruct Ed as [-> Rd].
    destruct (ob_quads r) as [y|] eqn:Er; [|discriminate]. injection H as <-. rewrite (IH y eq_refl).
    rewrite StdEncode_cons3, split1, split2, split3c, split4 by assumption. reflexivity.
Qed.

Lemma StdEncode_no_space x : forall c, In c (StdEncode x) -> ob_space c = false /\ c <> x00.
Proof.
  assert (Hs : forall v, 0 <= v < 64 -> ob_space (spec_char v) = false /\ spec_char v <> x00).
  { intros v Hv. destruct (ob_value_spec v Hv) as (V & _ & S). split; [exact S|]. intro E. rewrite E in V. discriminate. }
  assert (Hp : ob_space padChar = false /\ padChar <> x00) by (split; [reflexivity|discriminate]).
  induction x as [|a|a b|a b c r IH] using list_ind3; intro z.
  - intros [].
  - rewrite StdEncode_1. intros [<-|[<-|[<-|[<-|[]]]]]; try exact Hp; apply Hs; [apply c1_range|apply c2_range].
  - rewrite StdEncode_2. intros [<-|[<-|[<-|[<-|[]]]]]; try exact Hp; apply Hs; [apply c1_range|apply c2_range|apply c3_range].
  - rewrite StdEncode_cons3. intros [<-|[<-|[<-|[<-|I]]]]; [| | | |exact (IH z I)]; apply Hs; [apply c1_range|apply c2_range|apply c3_range|apply c4_range].
Qed.
Lemma filter_all {A} (f : A -> bool) l : (forall x, In x l -> f x = true) -> filter f l = l.
Proof. induction l as [|a l IH]; intro H; [reflexivity|]. cbn [filter]. rewrite (H a (or_introl eq_refl)), IH; [reflexivity|]. intros x I. apply H. right. exact I. Qed.
Lemma ob_strip_encode x : ob_strip (StdEncode x) = StdEncode x.
Proof. apply filter_all. intros c I. rewrite (proj1 (StdEncode_no_space x c I)). reflexivity. Qed.

(* ---- lines ---- *)
Lemma split_line_inv t : forall l r, split_line t = Some (l, r) -> t = l ++ x0a :: r /\ ~ In x0a l.
Proof.
  induction t as [|c t IH]; intros l r H; [discriminate|]. cbn [split_line] in H.
  destruct (beqb c x0a) eqn:E.
  - apply beqb_eq in E. subst c. injection H as <- <-. split; [reflexivity|intros []].
  - destruct (split_line t) as [[l' r']|]; [|discriminate]. injection H as <- <-. destruct (IH l' r' eq_refl) as [-> N].
    split; [reflexivity|]. apply beqb_neq in E. intros [->|I]; [exact (E eq_refl)|exact (N I)].
Qed.
Lemma split_line_make l r : ~ In x0a l -> split_line (l ++ x0a :: r) = Some (l, r).
Proof.
  induction l as [|c l IH]; intro N; [reflexivity|]. cbn [app split_line].
  destruct (beqb c x0a) eqn:E; [apply beqb_eq in E; exfalso; apply N; left; exact E|].
  rewrite IH; [reflexivity|]. intro I. apply N. right. exact I.
Qed.
Lemma c_string_prefix t : exists r, t = c_string t ++ r.
Proof.
  induction t as [|c t [r IH]]; [exists []; reflexivity|]. cbn [c_string]. destruct (beqb c x00).
  - exists (c :: t). reflexivity.
  - exists r. cbn [app]. rewrite <- IH. reflexivity.
Qed.
Lemma c_string_id t : ~ In x00 t -> c_string t = t.
Proof.
  induction t as [|c t IH]; intro N; [reflexivity|]. cbn [c_string].
  destruct (beqb c x00) eqn:E; [apply beqb_eq in E; exfalso; apply N; left; exact E|].
  rewrite IH; [reflexivity|]. intro I. apply N. right. exact I.
Qed.

Definition ob_file (c buf : bytes) : bytes := ob_header ++ c ++ [x0a] ++ StdEncode buf ++ [x0a].
Lemma ob_header_plain : plain_text ob_header.
Proof. split; vm_compute; intuition discriminate. Qed.
Lemma ob_read_make n c buf : plain_text c -> c <> [] -> length buf = n -> firstn 2 buf = str "Ed" ->
  (length c + (n + 2) / 3 * 4 + 21 <= Z.to_nat 2047)%nat -> ob_read n (ob_file c buf) = Some (c, buf).
Proof.
  intros [P1 P2] Ne Ln Ed Len. destruct ob_header_plain as [H1 H2].
  assert (Lf : (length (ob_file c buf) <= Z.to_nat 2047)%nat).
  { unfold ob_file. rewrite !app_length, StdEncode_length, Ln. change (length ob_header) with 19%nat. change (length [x0a]) with 1%nat. lia. }
  unfold ob_read. rewrite firstn_all2 by exact Lf. rewrite c_string_id.
  2: { unfold ob_file. rewrite !in_app_iff. intros [I|[I|[I|[I|I]]]].
       - exact (H2 I).
       - exact (P2 I).
       - cbn in I. intuition discriminate.
       - exact (proj2 (StdEncode_no_space _ _ I) eq_refl).
       - cbn in I. intuition discriminate. }
  unfold ob_file. rewrite app_assoc. cbn [app]. rewrite split_line_make.
  2: { rewrite in_app_iff. intros [I|I]; [exact (H1 I)|exact (P1 I)]. }
  rewrite (firstn_app_exact 19) by reflexivity. rewrite bytes_eqb_refl. cbn [negb orb].
  rewrite app_length. change (length ob_header) with 19%nat.
  assert (Lc : (19 + length c <=? 19)%nat = false) by (apply Nat.leb_gt; destruct c; [contradiction|cbn [length]; lia]). rewrite Lc. cbn [orb].
  rewrite (split_line_make (StdEncode buf) []) by apply StdEncode_lf_free.
  rewrite ob_strip_encode, ob_quads_encode, Ln, Nat.eqb_refl, Ed, bytes_eqb_refl. cbn [andb].
  rewrite (skipn_app_exact 19) by reflexivity. reflexivity.
Qed.
(* what the files this reader accepts look like *)
Lemma ob_read_inv n f c buf : ob_read n f = Some (c, buf) ->
  exists text tl, f = (ob_header ++ c) ++ [x0a] ++ text ++ x0a :: tl /\ plain_text c /\ c <> [] /\ ~ In x0a text /\
    ob_strip text = StdEncode buf /\ length buf = n /\ firstn 2 buf = str "Ed" /\ Z.of_nat (length (ob_header ++ c ++ text)) < 2047 /\ plain_text text.
Proof.
  unfold ob_read. intro H. destruct (c_string_prefix (firstn (Z.to_nat 2047) f)) as (r0 & Er0).
  assert (N0 : ~ In x00 (c_string (firstn (Z.to_nat 2047) f))).
  { generalize (firstn (Z.to_nat 2047) f). clear. induction l as [|a l IH]; [intros []|]. cbn [c_string].
    destruct (beqb a x00) eqn:E; [intros []|]. apply beqb_neq in E. intros [->|I]; [exact (E eq_refl)|exact (IH I)]. }
  destruct (split_line (c_string (firstn (Z.to_nat 2047) f))) as [[line rest]|] eqn:E1; [|discriminate].
  destruct (length line <=? 19)%nat eqn:L1; [discriminate|]. cbn [orb] in H. apply Nat.leb_gt in L1.
  destruct (bytes_eqb (firstn 19 line) ob_header) eqn:E2; [|discriminate]. cbn [negb] in H. apply bytes_eqb_eq in E2.
  destruct (split_line rest) as [[text tl]|] eqn:E3; [|discriminate].
  destruct (ob_quads (ob_strip text)) as [b|] eqn:E4; [|discriminate].
  destruct (length b =? n)%nat eqn:E5; [|discriminate]. apply Nat.eqb_eq in E5.
  destruct (bytes_eqb (firstn 2 b) (str "Ed")) eqn:E6; [|discriminate]. apply bytes_eqb_eq in E6.
  cbn [andb] in H. remember (skipn 19 line) as com eqn:Ecom. injection H as <- <-. subst com.
  apply split_line_inv in E1, E3. destruct E1 as [E1 N1]. destruct E3 as [-> N3].
  assert (El : line = ob_header ++ skipn 19 line) by (rewrite <- E2; symmetry; apply firstn_skipn).
  exists text, (tl ++ r0 ++ skipn (Z.to_nat 2047) f).
  assert (Ef : f = line ++ x0a :: (text ++ x0a :: tl) ++ r0 ++ skipn (Z.to_nat 2047) f).
  { rewrite <- (firstn_skipn (Z.to_nat 2047) f) at 1. rewrite Er0 at 1. rewrite E1. rewrite <- !app_assoc. cbn [app]. rewrite <- !app_assoc. reflexivity. }
  rewrite E1 in N0.
  split; [rewrite <- El; rewrite Ef at 1; cbn [app]; rewrite <- !app_assoc; reflexivity|].
  split; [split|].
  - intro I. apply N1. rewrite El. apply in_or_app. right. exact I.
  - intro I. apply N0. apply in_or_app. left. rewrite El. apply in_or_app. right. exact I.
  - split; [intro E; apply (f_equal (@length byte)) in E; rewrite skipn_length in E; cbn in E; lia|].
    split; [exact N3|]. split; [apply ob_quads_inv; exact E4|]. split; [exact E5|]. split; [exact E6|]. split.
    + rewrite app_assoc, <- El. pose proof (f_equal (@length byte) Er0) as L. rewrite E1, !app_length in L. cbn [length] in L.
      rewrite !app_length in L. cbn [length] in L. rewrite firstn_length in L. rewrite app_length. lia.
    + split; [exact N3|]. intro I. apply N0. apply in_or_app. right. right. apply in_or_app. left. exact I.
Qed.

(* ---- this program reads what OpenBSD reads ---- *)
Lemma ob_read_here n f c buf : ob_read n f = Some (c, buf) -> no_blanks f ->
  exists com, readDataFileBytes f = Ok (DataFile com buf).
Proof.
  intros H NB. destruct (ob_read_inv _ _ _ _ H) as (text & tl & Ef & [P1 P2] & Ne & N & S & Ln & Ed & Len & PT).
  destruct ob_header_plain as [H1 H2].
  assert (Nl : ~ In x0a (ob_header ++ c)) by (rewrite in_app_iff; intros [I|I]; [exact (H1 I)|exact (P1 I)]).
  assert (Est : nonl text = ob_strip text).
  { assert (A : forall x, In x text -> ob_space x = true -> x = x0d).
    { intros x I. apply (NB (ob_header ++ c) (text ++ x0a :: tl) (text, tl)); [| |exact I].
      - rewrite Ef. cbn [app]. apply split_line_make. exact Nl.
      - apply split_line_make. exact N. }
    clear -A N. unfold nonl, ob_strip. induction text as [|x t IH]; [reflexivity|]. cbn [filter].
    rewrite IH; [|intro I; apply N; right; exact I|intros y I; apply A; right; exact I].
    destruct (ob_space x) eqn:E.
    - rewrite (A x (or_introl eq_refl) E). reflexivity.
    - assert (En : is_nl x = false) by (destruct x; try reflexivity; discriminate E). rewrite En. reflexivity. }
  assert (D : DecodeString text = Ok buf).
  { apply (DecodeString_newlines text (StdEncode buf)); [|apply DecodeString_StdEncode].
    rewrite Est, S. symmetry. apply nlfree_nonl, StdEncode_nlfree. }
  assert (Lz : Z.of_nat (length (ob_header ++ c)) <= 65535 /\ Z.of_nat (length text) <= 65535) by (rewrite !app_length in *; lia).
  destruct (payload_line [ob_header ++ c] text (x0a :: tl)) as (com & R).
  - constructor; [|constructor]. split; [exact Nl|]. split; [|apply Lz]. apply has_prefix_iff. exists c. reflexivity.
  - exact N.
  - destruct (has_prefix commentPrefix text) eqn:E; [|reflexivity]. apply has_prefix_iff in E. destruct E as (t & E).
    rewrite E, comment_decode in D. discriminate.
  - apply Lz.
  - right. exists tl. reflexivity.
  - exists com. rewrite <- dropCR_spec, (proj2 (dropCR_decode _ _) D) in R. rewrite Ef. cbn [map concat] in R. rewrite app_nil_r, <- app_assoc in R. exact R.
Qed.

Lemma ob_file_no_blanks c buf : plain_text c -> no_blanks (ob_file c buf).
Proof.
  intros [P1 _] line text [b rest] E1 E2 x I S. destruct ob_header_plain as [H1 _].
  assert (E : split_line (ob_file c buf) = Some (ob_header ++ c, StdEncode buf ++ [x0a])).
  { unfold ob_file. rewrite app_assoc. cbn [app]. apply split_line_make. rewrite in_app_iff. intros [J|J]; [exact (H1 J)|exact (P1 J)]. }
  rewrite E in E1. injection E1 as <- <-. rewrite (split_line_make (StdEncode buf) []) in E2 by apply StdEncode_lf_free.
  injection E2 as <- <-. cbn [fst] in I. rewrite (proj1 (StdEncode_no_space _ _ I)) in S. discriminate.
Qed.

(* ---- key pairs ---- *)
Lemma xor_zero n l : xor_bytes l (repeat x00 n) = l.
Proof.
  revert l. induction n as [|n IH]; intros [|a l]; try reflexivity. cbn [repeat xor_bytes]. rewrite IH.
  f_equal. destruct a; reflexivity.
Qed.

Lemma some_pair {A B} (a c : A) (b d : B) : Some (a, b) = Some (c, d) -> a = c /\ b = d.
Proof. intro H. split; congruence. Qed.

Lemma some_inj {A} (a b : A) : Some a = Some b -> a = b.
Proof. intro H. congruence. Qed.

Record made (C : Crypto) (pass seed : bytes) (priv : Private) (pub : Public) (s p : bytes) : Prop := {
  md_seed : length seed = 32%nat;
  md_sec : exists c, s = ob_file c (priv_encode priv) /\ plain_text c /\ c <> [] /\ Z.of_nat (length c) < 1024;
  md_pub : exists c, p = ob_file c (pub_encode pub) /\ plain_text c /\ c <> [] /\ Z.of_nat (length c) < 1024;
  md_wf : priv_wf priv /\ pub_wf pub;
  md_algo : keyAlgo priv = str "Ed" /\ kdfAlgo priv = str "BK" /\ p_keyAlgo pub = str "Ed";
  md_num : keyNum priv = p_keyNum pub;
  md_key : p_key pub = ed_public C seed;
  md_rounds : 0 <= kdfRounds priv < 2 ^ 31 /\ (pass = [] -> kdfRounds priv = 0);
  md_kdf : exists x, ob_kdf C pass (salt priv) (kdfRounds priv) = Some x /\ xor_bytes (key priv) x = ed_private C seed;
  md_sum : checksum priv = firstn 8 (sha512 C (ed_private C seed))
}.

Lemma key_files_made C pass s p : LengthLaws C -> key_files C pass s p ->
  exists seed priv pub, made C pass seed priv pub s p.
Proof.
  intros LL H. destruct H as [k opts w w' s p G C1 C2 R|seed num slt rounds comment s p L1 L2 L3 R0 [P1 P2] G].
  - destruct (GenerateKey_success _ _ _ _ _ _ LL G) as (priv & pub & w1 & GK & S1 & S2 & _).
    destruct (generate_rounds _ _ _ _ _ _ _ LL GK) as [Rd1 Rd2].
    destruct (generate_pair _ _ _ _ _ _ _ LL GK) as [[(A1 & A2 & A3) (N1 & N2) S3 K1 K2 K3 K4] _].
    destruct (generate_wf _ _ _ _ _ _ _ LL GK) as [Wp Wq]. destruct (generate_inv _ _ _ _ _ _ LL GK) as [Lr _].
    destruct C1 as (m1 & C1). destruct C2 as (m2 & C2). unfold sec_path in S1. unfold pub_path in S2. rewrite S1 in C1. rewrite S2 in C2.
    assert (Es : sec_file priv = s) by congruence. assert (Ep : pub_file pub = p) by congruence.
    exists (slice 0 32 (w_rng w)), priv, pub. constructor.
    + unfold slice. rewrite firstn_length, skipn_length. lia.
    + exists (str "signify private key"). split; [rewrite <- Es; reflexivity|]. split; [split; vm_compute; intuition discriminate|]. split; [discriminate|reflexivity].
    + exists (str "signify public key"). split; [rewrite <- Ep; reflexivity|]. split; [split; vm_compute; intuition discriminate|]. split; [discriminate|reflexivity].
    + auto.
    + auto.
    + auto.
    + exact K1.
    + destruct pass as [|c pass].
      * destruct (Rd2 eq_refl) as [-> _]. split; [lia|reflexivity].
      * destruct (Rd1 ltac:(discriminate)) as (B & E & _). split; [|discriminate]. rewrite E in *.
        specialize (R ltac:(discriminate)). unfold rounds_of in *. lia.
    + destruct pass as [|c pass].
      * destruct (Rd2 eq_refl) as [-> _]. exists (repeat x00 64). split; [reflexivity|]. rewrite xor_zero, (K3 eq_refl), K1. reflexivity.
      * destruct (Rd1 ltac:(discriminate)) as (B & E & _). specialize (R ltac:(discriminate)). fold (rounds_of opts) in R. rewrite <- E in R.
        exists (pbkdf C (c :: pass) (salt priv) (kdfRounds priv) 64). unfold ob_kdf.
        destruct (Z.eqb_spec (kdfRounds priv) 0) as [Z0|_]; [lia|]. destruct (Z.ltb_spec (kdfRounds priv) (2 ^ 31)) as [_|Z1]; [|lia].
        split; [reflexivity|]. rewrite (K4 ltac:(discriminate)), xor_bytes_invol, K1. reflexivity.
    + rewrite K2, K1. reflexivity.
  - unfold ob_generate in G. cbv zeta in G. destruct (ob_kdf C pass slt rounds) as [x|] eqn:Ek; [|discriminate].
    pose proof (len_ed_public C LL seed L1) as Lp. pose proof (len_sha512 C LL (seed ++ ed_public C seed)) as Lh.
    assert (Rr : rounds < 2 ^ 31 /\ (pass = [] -> rounds = 0)).
    { unfold ob_kdf in Ek. destruct (Z.eqb_spec rounds 0) as [->|Z0]; [split; [reflexivity|reflexivity]|].
      destruct pass; [discriminate|]. destruct (Z.ltb_spec rounds (2 ^ 31)); [|discriminate]. split; [assumption|discriminate]. }
    set (priv := Priv (str "Ed") (str "BK") rounds slt (firstn 8 (sha512 C (seed ++ ed_public C seed))) num (xor_bytes (seed ++ ed_public C seed) x)).
    set (pub := Pub (str "Ed") num (ed_public C seed)).
    unfold ob_write in G.
    destruct (Z.ltb_spec (Z.of_nat (length (ob_header ++ (comment ++ str " secret key") ++ [x0a]))) 1024) as [W1|]; [|discriminate].
    destruct (Z.ltb_spec (Z.of_nat (length (ob_header ++ (comment ++ str " public key") ++ [x0a]))) 1024) as [W2|]; [|discriminate].
    apply some_pair in G. destruct G as [Gs Gp].
    assert (Wp : priv_wf priv).
    { unfold priv_wf, priv. cbn [keyAlgo kdfAlgo kdfRounds salt checksum keyNum key].
      split; [reflexivity|]. split; [reflexivity|]. split; [lia|]. split; [exact L3|]. split; [rewrite firstn_length, Lh; reflexivity|].
      split; [exact L2|]. rewrite length_xor_bytes, app_length, L1, Lp. reflexivity. }
    assert (Pc : forall t, plain_text t -> plain_text (comment ++ t)).
    { intros t [T1 T2]. split; rewrite in_app_iff; intros [I|I]; auto. }
    assert (Nc : forall t, t <> [] -> comment ++ t <> []) by (intros t T E; apply app_eq_nil in E; destruct E; contradiction).
    exists seed, priv, pub. constructor.
    + exact L1.
    + exists (comment ++ str " secret key"). split; [rewrite <- Gs, <- StdEncode_spec; reflexivity|].
      split; [apply Pc; split; vm_compute; intuition discriminate|]. split; [apply Nc; discriminate|]. rewrite app_length in W1. rewrite app_length in W1. lia.
    + exists (comment ++ str " public key"). split; [rewrite <- Gp, <- StdEncode_spec; reflexivity|].
      split; [apply Pc; split; vm_compute; intuition discriminate|]. split; [apply Nc; discriminate|]. rewrite app_length in W2. rewrite app_length in W2. lia.
    + split; [exact Wp|]. split; [reflexivity|]. split; [exact L2|exact Lp].
    + repeat split.
    + reflexivity.
    + reflexivity.
    + unfold priv. cbn [kdfRounds]. split; [lia|apply Rr].
    + exists x. split; [exact Ek|]. unfold priv. cbn [key]. rewrite xor_bytes_invol. reflexivity.
    + reflexivity.
Qed.

Lemma small_to_nat z n : Z.of_nat n <= z -> (n <= Z.to_nat z)%nat.
Proof. lia. Qed.
Lemma ob_read_file n c buf : plain_text c -> c <> [] -> Z.of_nat (length c) < 1024 -> (n <= 104)%nat ->
  length buf = n -> firstn 2 buf = str "Ed" -> ob_read n (ob_file c buf) = Some (c, buf).
Proof.
  intros P N L Hn Lb E. apply ob_read_make; try assumption. apply small_to_nat.
  assert ((n + 2) / 3 <= 35)%nat by (apply Nat.lt_succ_r, Nat.div_lt_upper_bound; lia). lia.
Qed.
Lemma file_read_here n c buf : plain_text c -> c <> [] -> Z.of_nat (length c) < 1024 -> (n <= 104)%nat ->
  length buf = n -> firstn 2 buf = str "Ed" -> exists com, readDataFileBytes (ob_file c buf) = Ok (DataFile com buf).
Proof.
  intros P N L Hn Lb E. apply (ob_read_here n _ c); [apply ob_read_file; assumption|apply ob_file_no_blanks; exact P].
Qed.

Section Made.
  Variables (C : Crypto) (pass seed : bytes) (priv : Private) (pub : Public) (s p : bytes).
  Hypothesis LL : LengthLaws C.
  Hypothesis M : made C pass seed priv pub s p.

  Lemma made_read_sec : exists c, ob_read 104 s = Some (c, priv_encode priv) /\ Z.of_nat (length c) < 1024.
  Proof.
    destruct (md_sec _ _ _ _ _ _ _ M) as (c & -> & P & N & L). destruct (md_wf _ _ _ _ _ _ _ M) as [W _].
    exists c. split; [|exact L]. apply ob_read_file; try assumption; [lia|apply priv_encode_length; exact W|].
    destruct (priv_encode_layout priv W) as (_ & E & _). rewrite (proj1 (md_algo _ _ _ _ _ _ _ M)) in E. exact E.
  Qed.
  Lemma made_sec_here : readPrivateKeyFile s = Ok priv.
  Proof.
    destruct (md_sec _ _ _ _ _ _ _ M) as (c & -> & P & N & L). destruct (md_wf _ _ _ _ _ _ _ M) as [W _].
    destruct (file_read_here 104 c (priv_encode priv)) as (com & E); try assumption; [lia|apply priv_encode_length; exact W| |].
    { destruct (priv_encode_layout priv W) as (_ & E & _). rewrite (proj1 (md_algo _ _ _ _ _ _ _ M)) in E. exact E. }
    unfold readPrivateKeyFile. rewrite E. cbn [rbind df_data]. apply priv_round_trip. exact W.
  Qed.
  Lemma made_read_pub : exists c, ob_read 42 p = Some (c, pub_encode pub).
  Proof.
    destruct (md_pub _ _ _ _ _ _ _ M) as (c & -> & P & N & L). destruct (md_wf _ _ _ _ _ _ _ M) as [_ W].
    exists c. apply ob_read_file; try assumption; [lia|apply pub_encode_length; exact W|].
    destruct (pub_layout pub W) as (_ & E & _). rewrite (proj2 (proj2 (md_algo _ _ _ _ _ _ _ M))) in E. exact E.
  Qed.
  Lemma made_pub_here : readPublicKeyFile p = Ok pub.
  Proof.
    destruct (md_pub _ _ _ _ _ _ _ M) as (c & -> & P & N & L). destruct (md_wf _ _ _ _ _ _ _ M) as [_ W].
    destruct (file_read_here 42 c (pub_encode pub)) as (com & E); try assumption; [lia|apply pub_encode_length; exact W| |].
    { destruct (pub_layout pub W) as (_ & E & _). rewrite (proj2 (proj2 (md_algo _ _ _ _ _ _ _ M))) in E. exact E. }
    unfold readPublicKeyFile. rewrite E. cbn [rbind df_data]. apply pub_round_trip. exact W.
  Qed.
  Lemma made_unlock : ob_unlock C pass s = Some (keyNum priv, ed_private C seed).
  Proof.
    destruct made_read_sec as (c & E & L). unfold ob_unlock. rewrite E.
    destruct (md_wf _ _ _ _ _ _ _ M) as [W _]. destruct (priv_encode_layout priv W) as (_ & _ & E1 & E2 & E3 & E4 & E5 & E6).
    destruct (md_algo _ _ _ _ _ _ _ M) as (_ & A & _). rewrite E1, E2, E3, E4, E5, E6, A, bytes_eqb_refl.
    destruct (Z.ltb_spec (Z.of_nat (length c)) 1024) as [_|]; [|lia]. cbn [andb].
    destruct (md_kdf _ _ _ _ _ _ _ M) as (x & K & X). rewrite K, X, (md_sum _ _ _ _ _ _ _ M), bytes_eqb_refl. reflexivity.
  Qed.
  (* the key Sign works with *)
  Lemma made_decrypts w : (pass = [] \/ exists tl, w_tty w = Ok pass :: tl) -> forall q,
    ((IsEncrypted priv = false /\ q = priv) \/
     (IsEncrypted priv = true /\ exists pw tl, w_tty w = Ok pw :: tl /\ decrypt C priv pw = (Ok tt, q))) <->
    q = set_key priv (ed_private C seed).
  Proof.
    intros Ht q. destruct (md_wf _ _ _ _ _ _ _ M) as [W _]. destruct (md_rounds _ _ _ _ _ _ _ M) as [R R0].
    destruct (md_kdf _ _ _ _ _ _ _ M) as (x & K & X). destruct (md_algo _ _ _ _ _ _ _ M) as (_ & A & _).
    unfold ob_kdf in K. destruct (Z.eqb_spec (kdfRounds priv) 0) as [Z0|Z0].
    - assert (E : IsEncrypted priv = false) by (unfold IsEncrypted; rewrite Z0; reflexivity).
      apply some_inj in K. subst x. rewrite xor_zero in X. assert (Eq : set_key priv (ed_private C seed) = priv) by (rewrite <- X; destruct priv; reflexivity).
      rewrite Eq, E. split; [intros [[_ ->]|[D _]]; [reflexivity|discriminate]|intros ->; left; auto].
    - assert (E : IsEncrypted priv = true) by (apply Z.gtb_lt; lia). destruct pass as [|c pw]; [discriminate|].
      destruct (Z.ltb_spec (kdfRounds priv) (2 ^ 31)); [|lia]. apply some_inj in K. subst x.
      destruct Ht as [Ht|(tl & Ht)]; [discriminate|].
      assert (D : decrypt C priv (c :: pw) = (Ok tt, set_key priv (ed_private C seed))).
      { rewrite decrypt_enc, A, bytes_eqb_refl by assumption. cbv zeta. rewrite X. f_equal. apply Check_iff. cbn [set_key checksum key]. apply (md_sum _ _ _ _ _ _ _ M). }
      rewrite E. split.
      + intros [[F _]|(_ & pw' & tl' & T & D')]; [discriminate|]. rewrite Ht in T. injection T as <- <-. rewrite D in D'. congruence.
      + intros ->. right. split; [reflexivity|]. exists (c :: pw), tl. auto.
  Qed.

  Definition sig_body (m : bytes) : bytes := str "Ed" ++ keyNum priv ++ ed_sign C (ed_private C seed) m.
  Lemma private_length : length (ed_private C seed) = 64%nat.
  Proof. unfold ed_private. rewrite app_length, (md_seed _ _ _ _ _ _ _ M), (len_ed_public C LL) by apply (md_seed _ _ _ _ _ _ _ M). reflexivity. Qed.
  Lemma made_signed m f : signed C pass s m f ->
    exists c, f = ob_file c (sig_body m) /\ plain_text c /\ c <> [] /\ Z.of_nat (length c) < 1024.
  Proof.
    intros [k mp sp w w' n g Ck Cm Ht Hn [P1 P2] Hl S Cg|comment g P N S].
    - destruct (Sign_success C k mp sp w w' n LL Hn S) as (q & m' & Rdy & F). destruct Cg as (md & Cg). rewrite F in Cg.
      assert (Eg : signature_file n (keyAlgo q) (keyNum q) (ed_sign C (key q) m') = g) by congruence.
      destruct Rdy as (kf & p0 & Ck' & Rk & Cm' & D). rewrite (contents_fun _ _ _ _ Cm' Cm) in *. rewrite (contents_fun _ _ _ _ Ck' Ck), made_sec_here in Rk.
      injection Rk as <-. apply (made_decrypts w Ht) in D. subst q. exists (str "verify with " ++ n).
      split; [|split; [split|split]].
      + rewrite <- Eg. unfold signature_file, ob_file, sig_body. cbn [set_key keyAlgo keyNum key]. rewrite (proj1 (md_algo _ _ _ _ _ _ _ M)).
        change (str "untrusted comment: verify with ") with (ob_header ++ str "verify with "). rewrite <- !app_assoc. reflexivity.
      + rewrite in_app_iff. intros [I|I]; [|exact (P1 I)]. revert I. vm_compute. intuition discriminate.
      + rewrite in_app_iff. intros [I|I]; [|exact (P2 I)]. revert I. vm_compute. intuition discriminate.
      + discriminate.
      + rewrite app_length. change (length (str "verify with ")) with 12%nat. lia.
    - unfold ob_sign in S. rewrite made_unlock in S. unfold ob_write in S.
      destruct (Z.ltb_spec (Z.of_nat (length (ob_header ++ comment ++ [x0a]))) 1024) as [L|]; [|discriminate].
      exists comment. split; [|split; [exact P|split; [exact N|]]].
      + rewrite <- StdEncode_spec in S. unfold ob_file, sig_body. congruence.
      + rewrite !app_length in L. lia.
  Qed.
  Lemma sig_body_wf m : sig_wf (Sig (str "Ed") (keyNum priv) (ed_sign C (ed_private C seed) m)).
  Proof.
    split; [reflexivity|]. split; [apply (md_wf _ _ _ _ _ _ _ M)|]. cbn [sig]. apply (len_ed_sign C LL), private_length.
  Qed.
  Lemma made_sig_reads c num sg : plain_text c -> c <> [] -> Z.of_nat (length c) < 1024 -> length num = 8%nat -> length sg = 64%nat ->
    ob_read 74 (ob_file c (str "Ed" ++ num ++ sg)) = Some (c, str "Ed" ++ num ++ sg) /\
    readSignatureFile (ob_file c (str "Ed" ++ num ++ sg)) = Ok (Sig (str "Ed") num sg).
  Proof.
    intros P N L Ln Ls. assert (Lb : length (str "Ed" ++ num ++ sg) = 74%nat) by (rewrite !app_length, Ln, Ls; reflexivity).
    split; [apply ob_read_file; try assumption; [lia|reflexivity]|].
    destruct (file_read_here 74 c (str "Ed" ++ num ++ sg)) as (com & E); try assumption; [lia|reflexivity|].
    unfold readSignatureFile. rewrite E. cbn [rbind df_data]. apply (sig_round_trip (Sig (str "Ed") num sg)). repeat split; assumption.
  Qed.
  Lemma made_verifies accepts c m sg : plain_text c -> c <> [] -> Z.of_nat (length c) < 1024 -> length sg = 64%nat ->
    (ob_verifies accepts p (ob_file c (str "Ed" ++ keyNum priv ++ sg)) m <-> accepts (ed_public C seed) m sg).
  Proof.
    intros P N L Ls. destruct made_read_pub as (cp & Ep). pose proof (md_wf _ _ _ _ _ _ _ M) as [(_ & _ & _ & _ & _ & Ln & _) W].
    destruct (made_sig_reads c (keyNum priv) sg P N L Ln Ls) as [Es _].
    destruct (pub_layout pub W) as (Lp & _ & E2 & E3).
    assert (E3' : skipn 10 (pub_encode pub) = ed_public C seed).
    { rewrite <- (md_key _ _ _ _ _ _ _ M), <- E3. unfold slice. rewrite firstn_all2; [reflexivity|]. rewrite skipn_length. lia. }
    pose proof (sig_layout (Sig (str "Ed") (keyNum priv) sg)) as Y. destruct Y as (_ & _ & E4 & E5); [repeat split; assumption|]. cbn [s_keyNum sig] in E4, E5.
    change (sig_encode (Sig (str "Ed") (keyNum priv) sg)) with (str "Ed" ++ keyNum priv ++ sg) in *.
    assert (E5' : skipn 10 (str "Ed" ++ keyNum priv ++ sg) = sg).
    { rewrite <- E5 at 2. unfold slice. rewrite firstn_all2; [reflexivity|]. rewrite skipn_length, !app_length, Ln, Ls. cbn. lia. }
    unfold ob_verifies. split.
    - intros (c1' & b1 & c2' & b2 & R1 & R2 & _ & _ & A). rewrite Ep in R1. rewrite Es in R2. apply some_pair in R1, R2.
      destruct R1 as [_ <-]. destruct R2 as [_ <-]. rewrite E3', E5' in A. exact A.
    - intro A. exists cp, (pub_encode pub), c, (str "Ed" ++ keyNum priv ++ sg). split; [exact Ep|]. split; [exact Es|]. split; [exact L|].
      rewrite E2, E4, E3', E5'. split; [symmetry; apply (md_num _ _ _ _ _ _ _ M)|exact A].
  Qed.
  Lemma made_verify_here c m sg v a b d : plain_text c -> c <> [] -> Z.of_nat (length c) < 1024 -> length sg = 64%nat ->
    contents v a p -> contents v b m -> contents v (sigPathOf b d) (ob_file c (str "Ed" ++ keyNum priv ++ sg)) -> undisturbed 3 v ->
    ((exists v', Verify C a b d v = (Ok tt, v')) <-> ed_verify C (ed_public C seed) m sg = true).
  Proof.
    intros P N L Ls Ca Cb Cd U. pose proof (md_wf _ _ _ _ _ _ _ M) as [(_ & _ & _ & _ & _ & Ln & _) W].
    destruct (made_sig_reads c (keyNum priv) sg P N L Ln Ls) as [_ Es]. rewrite Verify_ok_iff. split.
    - intros (_ & pf & m' & sf & pk & sg' & C1 & C2 & C3 & R1 & R2 & (_ & _ & _ & V)).
      rewrite (contents_fun _ _ _ _ C1 Ca), made_pub_here in R1. injection R1 as <-.
      rewrite (contents_fun _ _ _ _ C3 Cd), Es in R2. injection R2 as <-. rewrite (contents_fun _ _ _ _ C2 Cb) in V.
      rewrite (md_key _ _ _ _ _ _ _ M) in V. exact V.
    - intro V. split; [exact U|]. exists p, m, (ob_file c (str "Ed" ++ keyNum priv ++ sg)), pub, (Sig (str "Ed") (keyNum priv) sg).
      split; [exact Ca|]. split; [exact Cb|]. split; [exact Cd|]. split; [apply made_pub_here|]. split; [exact Es|].
      unfold acceptable. cbn [pkAlgo s_keyNum sig]. rewrite (md_key _ _ _ _ _ _ _ M), (md_num _ _ _ _ _ _ _ M).
      split; [apply (md_algo _ _ _ _ _ _ _ M)|]. auto.
  Qed.
End Made.

(* ---- the theorems ---- *)
Lemma exchange C pass s p m f (accepts : bytes -> bytes -> bytes -> Prop) : LengthLaws C -> EdCorrect C -> (forall k x y, ed_verify C k x y = true -> accepts k x y) ->
  key_files C pass s p -> signed C pass s m f ->
  ob_verifies accepts p f m /\
  forall v a b d, contents v a p -> contents v b m -> contents v (sigPathOf b d) f -> undisturbed 3 v ->
    exists v', Verify C a b d v = (Ok tt, v').
Proof.
  intros LL ED HA K S. destruct (key_files_made _ _ _ _ LL K) as (seed & priv & pub & M).
  destruct (made_signed _ _ _ _ _ _ _ LL M m f S) as (c & -> & P & N & L).
  pose proof (ED seed m (md_seed _ _ _ _ _ _ _ M)) as V.
  assert (Ls : length (ed_sign C (ed_private C seed) m) = 64%nat) by (apply (len_ed_sign C LL), (private_length _ _ _ _ _ _ _ LL M)).
  split.
  - apply (made_verifies _ _ _ _ _ _ _ M accepts c m _ P N L Ls). apply HA. exact V.
  - intros v a b d Ca Cb Cd U. apply (made_verify_here _ _ _ _ _ _ _ M c m _ v a b d P N L Ls Ca Cb Cd U). exact V.
Qed.

Lemma usable C pass s p m : LengthLaws C -> key_files C pass s p ->
  (forall comment, Z.of_nat (length comment) < 1004 -> exists f, ob_sign C pass s comment m = Some f) /\
  (forall w k mp sp, contents w k s -> contents w mp m -> w_faults w = [] ->
     (pass = [] \/ exists tl, w_tty w = Ok pass :: tl) -> sigPathOf mp sp <> [] ->
     exists w', Sign C k mp sp w = (Ok tt, w')).
Proof.
  intros LL K. destruct (key_files_made _ _ _ _ LL K) as (seed & priv & pub & M). split.
  - intros comment L. unfold ob_sign. rewrite (made_unlock _ _ _ _ _ _ _ M). unfold ob_write. rewrite !app_length.
    change (length ob_header) with 19%nat. change (length [x0a]) with 1%nat.
    destruct (Z.ltb_spec (Z.of_nat (19 + (length comment + 1))) 1024); [eexists; reflexivity|lia].
  - intros w k mp sp Ck Cm F Ht Hs.
    destruct (Sign_runs C k mp sp w (set_key priv (ed_private C seed)) m) as (w' & E & _); try assumption.
    + exists s, priv. split; [exact Ck|]. split; [apply (made_sec_here _ _ _ _ _ _ _ M)|]. split; [exact Cm|].
      apply (made_decrypts _ _ _ _ _ _ _ M w Ht). reflexivity.
    + exists w'. exact E.
Qed.

Lemma accepts_iff h pub m sg : Ed25519_accepts h pub m sg <-> ob_accepts h pub m sg /\ le_val (skipn 32 sg) < ell.
Proof.
  pose proof (le_val_range (skipn 32 sg)) as R. unfold Ed25519_accepts, ob_accepts. split.
  - intros (L & S & A & Q & H). split; [split; [exact L|exists A, Q; rewrite Z.mod_small by lia; exact H]|exact S].
  - intros ((L & A & Q & H) & S). rewrite Z.mod_small in H by lia. split; [exact L|]. split; [exact S|]. exists A, Q. exact H.
Qed.

Lemma pub_parts b : length b = 42%nat -> exists pk, readPublicKeyData b = Ok pk /\ p_keyAlgo pk = firstn 2 b /\ p_keyNum pk = slice 2 8 b /\ p_key pk = skipn 10 b.
Proof.
  intro L. destruct (read_public_accepts b L) as (pk & E & W & B). exists pk. split; [exact E|].
  destruct (pub_layout pk W) as (_ & E1 & E2 & E3). rewrite B in E1, E2, E3. rewrite <- E1, <- E2, <- E3. split; [reflexivity|]. split; [reflexivity|].
  unfold slice. apply firstn_all2. rewrite skipn_length. lia.
Qed.
Lemma sig_parts b : length b = 74%nat -> exists sg, readSignatureData b = Ok sg /\ pkAlgo sg = firstn 2 b /\ s_keyNum sg = slice 2 8 b /\ sig sg = skipn 10 b.
Proof.
  intro L. destruct (read_sig_accepts b) as (sg & E & W & B); [lia|]. rewrite zero_extend_exact in B by exact L. exists sg. split; [exact E|].
  destruct (sig_layout sg W) as (_ & E1 & E2 & E3). rewrite B in E1, E2, E3. rewrite <- E1, <- E2, <- E3. split; [reflexivity|]. split; [reflexivity|].
  unfold slice. apply firstn_all2. rewrite skipn_length. lia.
Qed.

Lemma verify_agrees C pf sf m c p c' s v a b d : conforms_signatures C ->
  ob_read 42 pf = Some (c, p) -> ob_read 74 sf = Some (c', s) -> Z.of_nat (length c') < 1024 -> no_blanks pf -> no_blanks sf ->
  contents v a pf -> contents v b m -> contents v (sigPathOf b d) sf -> undisturbed 3 v ->
  ((exists v', Verify C a b d v = (Ok tt, v')) <->
   ob_verifies (ob_accepts (sha512 C)) pf sf m /\ le_val (skipn 42 s) < ell).
Proof.
  intros CS Rp Rs Lc Bp Bs Ca Cb Cd U.
  destruct (ob_read_here _ _ _ _ Rp Bp) as (com1 & D1). destruct (ob_read_here _ _ _ _ Rs Bs) as (com2 & D2).
  destruct (ob_read_inv _ _ _ _ Rp) as (_ & _ & _ & _ & _ & _ & _ & Lp & Ep & _).
  destruct (ob_read_inv _ _ _ _ Rs) as (_ & _ & _ & _ & _ & _ & _ & Ls & Es & _).
  destruct (pub_parts p Lp) as (pk & P1 & P2 & P3 & P4). destruct (sig_parts s Ls) as (sg & S1 & S2 & S3 & S4).
  assert (RP : readPublicKeyFile pf = Ok pk) by (unfold readPublicKeyFile; rewrite D1; exact P1).
  assert (RS : readSignatureFile sf = Ok sg) by (unfold readSignatureFile; rewrite D2; exact S1).
  assert (Ek : skipn 42 s = skipn 32 (sig sg)) by (rewrite S4, skipn_skipn; reflexivity).
  rewrite (Verify_rfc_iff C a b d v CS), Ek. split.
  - intros (_ & pf' & m' & sf' & pk' & sg' & C1 & C2 & C3 & R1 & R2 & A1 & A2 & A3 & A4).
    rewrite (contents_fun _ _ _ _ C1 Ca), RP in R1. injection R1 as <-. rewrite (contents_fun _ _ _ _ C3 Cd), RS in R2. injection R2 as <-.
    rewrite (contents_fun _ _ _ _ C2 Cb) in A4. apply accepts_iff in A4. destruct A4 as [A4 A5]. split; [|exact A5].
    exists c, p, c', s. split; [exact Rp|]. split; [exact Rs|]. split; [exact Lc|]. rewrite <- P3, <- S3, <- P4, <- S4. auto.
  - intros [(c1' & b1 & c2' & b2 & R1 & R2 & _ & N & A) S]. rewrite Rp in R1. rewrite Rs in R2. apply some_pair in R1, R2.
    destruct R1 as [_ <-]. destruct R2 as [_ <-]. split; [exact U|]. exists pf, m, sf, pk, sg.
    split; [exact Ca|]. split; [exact Cb|]. split; [exact Cd|]. split; [exact RP|]. split; [exact RS|].
    split; [congruence|]. split; [congruence|]. split; [congruence|]. apply accepts_iff. split; [|exact S]. rewrite P4, S4. exact A.
Qed.

Lemma conforming_verify C : conforms_signatures C -> forall k, length k = 32%nat -> forall m sg, ed_verify C k m sg = true -> ob_accepts (sha512 C) k m sg.
Proof. intros [_ CV] k L m sg V. apply (CV k m sg L) in V. apply accepts_iff in V. apply V. Qed.

Lemma exchange_real C pass s p m f : LengthLaws C -> conforms_ed25519 C -> conforms_signatures C ->
  key_files C pass s p -> signed C pass s m f -> ob_verifies (ob_accepts (sha512 C)) p f m.
Proof.
  intros LL CE CS K S. destruct (key_files_made _ _ _ _ LL K) as (seed & priv & pub & M).
  destruct (made_signed _ _ _ _ _ _ _ LL M m f S) as (c & -> & P & N & L). pose proof (md_seed _ _ _ _ _ _ _ M) as Lsd.
  assert (Ls : length (ed_sign C (ed_private C seed) m) = 64%nat) by (apply (len_ed_sign C LL), (private_length _ _ _ _ _ _ _ LL M)).
  apply (made_verifies _ _ _ _ _ _ _ M _ c m _ P N L Ls). apply (conforming_verify C CS); [apply (len_ed_public C LL); exact Lsd|].
  apply (conform_correct C (len_sha512 C LL) CE CS). exact Lsd.
Qed.

(* adding the order to S *)
Definition raised (sg : bytes) : bytes := firstn 32 sg ++ le_bytes 32 (le_val (skipn 32 sg) + ell).
Lemma raised_accepted h pub m sg : Ed25519_accepts h pub m sg ->
  length (raised sg) = 64%nat /\ ob_accepts h pub m (raised sg) /\ ~ Ed25519_accepts h pub m (raised sg).
Proof.
  intros (L & S & A & R & PA & OR & ER & EQ). pose proof (le_val_range (skipn 32 sg)) as B. pose proof ell_255 as Le. pose proof ell_pos as Lp.
  assert (L32 : length (firstn 32 sg) = 32%nat) by (rewrite firstn_length; lia).
  assert (Lr : length (raised sg) = 64%nat) by (unfold raised; rewrite app_length, length_le_bytes, L32; reflexivity).
  assert (F : firstn 32 (raised sg) = firstn 32 sg) by (apply firstn_app_exact; exact L32).
  assert (V : le_val (skipn 32 (raised sg)) = le_val (skipn 32 sg) + ell).
  { unfold raised. rewrite (skipn_app_exact 32) by exact L32. apply le_val_bytes. split; [lia|].
    apply Z.lt_trans with (2 ^ 253 + 2 ^ 253); [lia|reflexivity]. }
  split; [exact Lr|]. split.
  - split; [exact Lr|]. exists A, R. rewrite F, V. split; [exact PA|]. split; [exact OR|]. split; [exact ER|].
    replace ((le_val (skipn 32 sg) + ell) mod ell) with (le_val (skipn 32 sg)); [exact EQ|].
    rewrite <- (Z.mul_1_l ell) at 1. rewrite Z.mod_add by lia. symmetry. apply Z.mod_small. lia.
  - intros (_ & S' & _). rewrite V in S'. lia.
Qed.

Lemma extra_signatures C pass s p m f : LengthLaws C -> conforms_ed25519 C -> conforms_signatures C ->
  key_files C pass s p -> signed C pass s m f ->
  exists g, ob_verifies (ob_accepts (sha512 C)) p g m /\
    forall v a b d, contents v a p -> contents v b m -> contents v (sigPathOf b d) g ->
      forall v', Verify C a b d v <> (Ok tt, v').
Proof.
  intros LL CE CS K S. destruct (key_files_made _ _ _ _ LL K) as (seed & priv & pub & M).
  pose proof (md_seed _ _ _ _ _ _ _ M) as Lsd. pose proof (len_ed_public C LL seed Lsd) as Lpk.
  assert (V : Ed25519_accepts (sha512 C) (ed_public C seed) m (ed_sign C (ed_private C seed) m)).
  { apply (proj2 CS); [exact Lpk|]. apply (conform_correct C (len_sha512 C LL) CE CS). exact Lsd. }
  destruct (raised_accepted _ _ _ _ V) as (Lr & OA & NA). set (sg := raised (ed_sign C (ed_private C seed) m)) in *.
  exists (ob_file (str "x") (str "Ed" ++ keyNum priv ++ sg)).
  assert (P : plain_text (str "x")) by (split; vm_compute; intuition discriminate).
  assert (N : str "x" <> []) by discriminate. assert (L : Z.of_nat (length (str "x")) < 1024) by reflexivity. split.
  - apply (made_verifies _ _ _ _ _ _ _ M _ _ m sg P N L Lr). exact OA.
  - intros v a b d Ca Cb Cd v' E. assert (X : exists v', Verify C a b d v = (Ok tt, v')) by (exists v'; exact E).
    pose proof X as X'. apply Verify_ok_iff in X'. destruct X' as [U _].
    apply (made_verify_here _ _ _ _ _ _ _ M _ m sg v a b d P N L Lr Ca Cb Cd U) in X. apply NA. apply (proj2 CS); assumption.
Qed.

Lemma unlocks C pass s p : LengthLaws C -> key_files C pass s p ->
  exists seed num c, length seed = 32%nat /\ length num = 8%nat /\
    ob_unlock C pass s = Some (num, seed ++ ed_public C seed) /\
    ob_read 42 p = Some (c, str "Ed" ++ num ++ ed_public C seed) /\
    readPublicKeyFile p = Ok (Pub (str "Ed") num (ed_public C seed)).
Proof.
  intros LL K. destruct (key_files_made _ _ _ _ LL K) as (seed & priv & pub & M).
  destruct (made_read_pub _ _ _ _ _ _ _ M) as (c & E). pose proof (md_wf _ _ _ _ _ _ _ M) as [(_ & _ & _ & _ & _ & Ln & _) W].
  assert (Ep : pub = Pub (str "Ed") (keyNum priv) (ed_public C seed)).
  { rewrite <- (md_key _ _ _ _ _ _ _ M), (md_num _ _ _ _ _ _ _ M), <- (proj2 (proj2 (md_algo _ _ _ _ _ _ _ M))). destruct pub; reflexivity. }
  exists seed, (keyNum priv), c. split; [apply (md_seed _ _ _ _ _ _ _ M)|]. split; [exact Ln|]. split; [apply (made_unlock _ _ _ _ _ _ _ M)|].
  pose proof (made_pub_here _ _ _ _ _ _ _ M) as H. rewrite Ep in H, E. split; [exact E|exact H].
Qed.
