(* Files cut short: what reading the first part of a key or signature file gives. *)
From Verif Require Export SpecTorn GenFacts RoundTrip.

(* ---- base64 text cut short ---- *)
Lemma firstn_encode x j : (j <= (length x + 2) / 3)%nat -> firstn (4 * j) (StdEncode x) = StdEncode (firstn (3 * j) x).
Proof.
  intro H. destruct (Nat.le_gt_cases (3 * j) (length x)) as [L|L].
  - assert (E : StdEncode x = StdEncode (firstn (3 * j) x) ++ StdEncode (skipn (3 * j) x)).
    { rewrite <- StdEncode_app, firstn_skipn; [reflexivity|]. rewrite firstn_length_le by exact L. rewrite Nat.mul_comm. apply Nat.mod_mul. lia. }
    rewrite E at 1. apply firstn_app_exact. rewrite StdEncode_length, firstn_length_le by exact L.
    replace (3 * j + 2)%nat with (2 + j * 3)%nat by lia. rewrite Nat.div_add by lia. cbn. lia.
  - rewrite (firstn_all2 x) by lia. apply firstn_all2. rewrite StdEncode_length.
    assert ((length x + 2) / 3 <= j)%nat; [|lia]. apply Nat.lt_succ_r, Nat.div_lt_upper_bound; lia.
Qed.

Lemma ref_decode_short t : (0 < length t < 4)%nat -> ref_decode t = ([], true).
Proof. destruct t as [|a [|b [|c [|d t]]]]; cbn [length]; intro H; try lia; reflexivity. Qed.

Lemma decode_cut x i : (i <= length (StdEncode x))%nat ->
  if (i mod 4 =? 0)%nat then DecodeString (firstn i (StdEncode x)) = Ok (firstn (3 * (i / 4)) x)
  else exists n, DecodeString (firstn i (StdEncode x)) = Err (CorruptInput n).
Proof.
  intro H. rewrite StdEncode_length in H. pose proof (Nat.div_mod i 4 ltac:(lia)) as D. pose proof (Nat.mod_upper_bound i 4 ltac:(lia)) as M.
  set (j := (i / 4)%nat) in *. set (r := (i mod 4)%nat) in *.
  assert (J : (j <= (length x + 2) / 3)%nat) by lia.
  destruct (Nat.eqb_spec r 0) as [R|R].
  - replace i with (4 * j)%nat by lia. rewrite firstn_encode by exact J. apply DecodeString_StdEncode.
  - assert (J1 : (j + 1 <= (length x + 2) / 3)%nat) by lia.
    assert (L : (3 * j < length x)%nat).
    { pose proof (Nat.mul_div_le (length x + 2) 3 ltac:(lia)). lia. }
    assert (E : firstn i (StdEncode x) = StdEncode (firstn (3 * j) x) ++ firstn r (skipn (4 * j) (StdEncode x))).
    { rewrite <- firstn_encode by exact J. rewrite D at 1. rewrite <- (firstn_skipn (4 * j) (StdEncode x)) at 1.
      assert (Lf : length (firstn (4 * j) (StdEncode x)) = (4 * j)%nat) by (rewrite firstn_length_le; [reflexivity|rewrite StdEncode_length; lia]).
      rewrite firstn_app, Lf. rewrite firstn_firstn. rewrite Nat.min_r by lia. f_equal. f_equal. lia. }
    rewrite E, DecodeString_ref, nlfree_nonl.
    + rewrite ref_decode_app.
      * rewrite ref_decode_short; [eexists; reflexivity|]. rewrite firstn_length, skipn_length, StdEncode_length. lia.
      * rewrite firstn_length_le by lia. rewrite Nat.mul_comm. apply Nat.mod_mul. lia.
    + rewrite <- E. intros c Hc. apply (StdEncode_nlfree x). rewrite <- (firstn_skipn i (StdEncode x)). apply in_or_app. left. exact Hc.
Qed.

(* ---- data files cut short ---- *)
Lemma without_cr_free l : nlfree l -> without_cr l = l.
Proof.
  intro H. rewrite <- dropCR_spec. destruct l as [|x l _] using rev_ind; [reflexivity|]. rewrite dropCR_snoc.
  destruct (beqb x x0d) eqn:E; [|reflexivity]. apply beqb_eq in E. subst x.
  specialize (H x0d ltac:(apply in_or_app; right; left; reflexivity)). discriminate H.
Qed.
Lemma lf_free_firstn k (l : bytes) : lf_free l -> lf_free (firstn k l).
Proof. intros H X. apply H. rewrite <- (firstn_skipn k l). apply in_or_app. left. exact X. Qed.

Lemma read_one_line l : lf_free l -> l <> [] -> Z.of_nat (length l) <= 65535 ->
  exists com, readDataFileBytes l = match DecodeString (without_cr l) with Ok d => Ok (DataFile com d) | Err e => Err e | Panic => Panic end.
Proof.
  intros Hf Hn Hl. destruct (has_prefix commentPrefix l) eqn:P.
  - exists []. unfold readDataFileBytes. rewrite raw_lines_last by assumption.
    cbn [scan_loop rev app]. destruct (Z.gtb_spec (Z.of_nat (length l)) maxLine) as [H|H]; [unfold maxLine in H; lia|].
    rewrite dropCR_has_prefix, P. apply has_prefix_iff in P. destruct P as (t & ->).
    rewrite <- dropCR_spec. destruct (dropCR_prefix t) as (u & ->). rewrite comment_decode. reflexivity.
  - destruct (payload_line [] l [] (Forall_nil _) Hf P Hl) as (com & H); [left; auto|]. exists com. cbn [map concat app] in H. rewrite app_nil_r in H. exact H.
Qed.

Lemma comment_cut k c : (k < length c)%nat -> has_prefix commentPrefix c = true -> (k < 19)%nat -> firstn k c = firstn k commentPrefix.
Proof.
  intros _ P K. apply has_prefix_iff in P. destruct P as (t & ->). rewrite firstn_app. change (length commentPrefix) with 19%nat.
  replace (k - 19)%nat with 0%nat by lia. rewrite app_nil_r. reflexivity.
Qed.

Lemma prefix_cut k : (k < 19)%nat ->
  match DecodeString (without_cr (firstn k commentPrefix)) with
  | Ok d => small_cut k /\ length d = (3 * (k / 4))%nat
  | Err e => (exists n, e = CorruptInput n) /\ ~ small_cut k
  | Panic => False
  end.
Proof.
  intro K. unfold small_cut. do 19 (destruct k as [|k]; [vm_compute; first [split; [auto|reflexivity]|split; [eexists; reflexivity|lia]]|]). lia.
Qed.

Lemma torn_data c x k : comment_line c -> x <> [] -> Z.of_nat (length x) <= 49149 ->
  match readDataFileBytes (firstn k (c ++ [x0a] ++ StdEncode x ++ [x0a])) with
  | Ok d => (small_cut k /\ length (df_data d) = (3 * (k / 4))%nat) \/
            exists j, groups_left (length c) (length x) k j /\ df_data d = firstn (3 * j) x
  | Err e => (exists n, e = CorruptInput n) /\ ~ small_cut k /\ forall j, ~ groups_left (length c) (length x) k j
  | Panic => False
  end.
Proof.
  intros Hc Hx Lx. pose proof Hc as (Hf & Hp & Hl). pose proof (StdEncode_length x) as LE.
  assert (L19 : (19 <= length c)%nat). { pose proof Hp as P. apply has_prefix_iff in P. destruct P as (t & ->). rewrite app_length. cbn. lia. }
  assert (Q : (1 <= (length x + 2) / 3)%nat). { apply Nat.div_le_lower_bound; [lia|]. destruct x; [contradiction|cbn; lia]. }
  assert (QU : (3 * ((length x + 2) / 3) <= length x + 2)%nat) by (apply Nat.mul_div_le; lia).
  assert (QL : (length x <= 3 * ((length x + 2) / 3))%nat). { pose proof (Nat.div_mod (length x + 2) 3 ltac:(lia)). pose proof (Nat.mod_upper_bound (length x + 2) 3 ltac:(lia)). lia. }
  destruct (Nat.le_gt_cases k (length c)) as [K|K].
  - (* inside the comment *)
    rewrite firstn_app. replace (k - length c)%nat with 0%nat by lia. rewrite app_nil_r.
    assert (NG : forall j, ~ groups_left (length c) (length x) k j) by (intros j (J & G); lia).
    destruct (Nat.eq_dec k 0) as [->|K0].
    { cbn. left. split; [left; reflexivity|reflexivity]. }
    destruct (read_one_line (firstn k c)) as (com & ->).
    { apply lf_free_firstn. exact Hf. } { destruct c; [cbn in L19; lia|]. destruct k; [lia|discriminate]. } { rewrite firstn_length. lia. }
    destruct (Nat.lt_ge_cases k 19) as [K19|K19].
    + rewrite (comment_cut k c) by (try assumption; lia). pose proof (prefix_cut k K19) as PC.
      destruct (DecodeString (without_cr (firstn k commentPrefix))) as [d|e|]; [left; exact PC|destruct PC; auto|exact PC].
    + apply has_prefix_iff in Hp. destruct Hp as (t & ->). rewrite firstn_app. change (length commentPrefix) with 19%nat.
      rewrite (firstn_all2 commentPrefix) by (cbn; lia). rewrite <- dropCR_spec.
      match goal with |- context [dropCR (_ ++ ?u)] => destruct (dropCR_prefix u) as (v & ->) end.
      rewrite comment_decode. split; [eexists; reflexivity|]. split; [unfold small_cut; lia|exact NG].
  - set (i := (k - length c - 1)%nat). assert (Ek : k = (length c + 1 + i)%nat) by (unfold i; lia). clearbody i.
    assert (F : firstn k (c ++ [x0a] ++ StdEncode x ++ [x0a]) = concat (map (fun c => c ++ [x0a]) [c]) ++ firstn i (StdEncode x ++ [x0a])).
    { cbn [map concat]. rewrite app_nil_r, app_assoc, firstn_app, app_length. cbn [length]. rewrite firstn_all2 by (rewrite app_length; cbn; lia).
      f_equal. f_equal. lia. }
    rewrite F. assert (NS : ~ small_cut k) by (unfold small_cut; lia).
    destruct (Nat.eq_dec i 0) as [I0|I0].
    + rewrite I0. cbn [firstn]. rewrite app_nil_r, (only_comments [c] ltac:(constructor; [exact Hc|constructor]) ltac:(discriminate)).
      split; [eexists; reflexivity|]. split; [exact NS|]. intros j (J & G). lia.
    + assert (Sp : exists tl, firstn i (StdEncode x ++ [x0a]) = firstn i (StdEncode x) ++ tl /\ line_end (firstn i (StdEncode x)) tl).
      { rewrite firstn_app. eexists. split; [reflexivity|].
        destruct (i - length (StdEncode x))%nat as [|z] eqn:Z0.
        - left. split; [reflexivity|]. intro X. apply (f_equal (@length byte)) in X. rewrite firstn_length, LE in X. cbn [length] in X. lia.
        - right. exists (firstn z []). reflexivity. }
      destruct Sp as (tl & -> & He).
      destruct (payload_line [c] (firstn i (StdEncode x)) tl) as (com & R).
      { constructor; [exact Hc|constructor]. } { apply lf_free_firstn, StdEncode_lf_free. }
      { destruct (has_prefix commentPrefix (firstn i (StdEncode x))) eqn:P; [|reflexivity]. exfalso.
        apply has_prefix_iff in P. destruct P as (t & P).
        assert (X : has_prefix commentPrefix (StdEncode x) = true); [|rewrite StdEncode_not_comment in X; discriminate X].
        apply has_prefix_iff. exists (t ++ skipn i (StdEncode x)). rewrite app_assoc, <- P, firstn_skipn. reflexivity. }
      { rewrite firstn_length. rewrite LE. lia. } { exact He. }
      rewrite without_cr_free in R by (intros y Hy; apply (StdEncode_nlfree x); rewrite <- (firstn_skipn i (StdEncode x)); apply in_or_app; left; exact Hy).
      rewrite R. clear R.
      destruct (Nat.le_gt_cases i (length (StdEncode x))) as [I|I].
      * pose proof (decode_cut x i I) as DC. rewrite LE in I. pose proof (Nat.div_mod i 4 ltac:(lia)) as D. pose proof (Nat.mod_upper_bound i 4 ltac:(lia)) as M.
        destruct (Nat.eqb_spec (i mod 4) 0) as [E|E].
        -- rewrite DC. right. exists (i / 4)%nat. split; [|reflexivity]. split; [lia|]. left. lia.
        -- destruct DC as (n & ->). split; [eexists; reflexivity|]. split; [exact NS|]. intros j (J & [G|[G1 G2]]).
           ++ assert (H : (i = j * 4)%nat) by lia. rewrite H, Nat.mod_mul in E by lia. contradiction.
           ++ assert (H : (i = j * 4)%nat) by lia. rewrite H, Nat.mod_mul in E by lia. contradiction.
      * rewrite firstn_all2, DecodeString_StdEncode by lia. right. exists ((length x + 2) / 3)%nat. cbn [df_data].
        rewrite firstn_all2 by lia. split; [|reflexivity]. split; [lia|]. right. lia.
Qed.

(* ---- key and signature files cut short ---- *)
Lemma zero_extend_app n m a b : length a = n -> zero_extend (n + m) (a ++ b) = a ++ zero_extend m b.
Proof. intro H. rewrite <- !fit_zero_extend. apply fit_app. exact H. Qed.
Lemma firstn_more {A} n m (a b : list A) : length a = n -> firstn (n + m) (a ++ b) = a ++ firstn m b.
Proof. intros <-. apply firstn_app_2. Qed.

Definition sec_comment : bytes := str "untrusted comment: signify private key".
Definition pub_comment : bytes := str "untrusted comment: signify public key".
Lemma sec_comment_line : comment_line sec_comment.
Proof. split; [|split; [reflexivity|vm_compute; discriminate]]. intro H. vm_compute in H. intuition discriminate. Qed.
Lemma pub_comment_line : comment_line pub_comment.
Proof. split; [|split; [reflexivity|vm_compute; discriminate]]. intro H. vm_compute in H. intuition discriminate. Qed.

Lemma cut_private_encode p n : priv_wf p -> priv_wf (cut_private p n) /\
  priv_encode (cut_private p n) = zero_extend 104 (firstn (40 + n) (priv_encode p)).
Proof.
  intros (A & B & D & E & F & G & H). split.
  - unfold cut_private, priv_wf. cbn [keyAlgo kdfAlgo kdfRounds salt checksum keyNum key]. rewrite <- fit_zero_extend, length_fit. auto 10.
  - unfold priv_encode, cut_private. cbn [keyAlgo kdfAlgo kdfRounds salt checksum keyNum key].
    assert (L4 : length (be_encode 4 (kdfRounds p)) = 4%nat) by apply length_be_encode.
    change (40 + n)%nat with (2 + (2 + (4 + (16 + (8 + (8 + n))))))%nat.
    rewrite !firstn_more by assumption.
    change 104%nat with (2 + (2 + (4 + (16 + (8 + (8 + 64))))))%nat. rewrite !zero_extend_app by assumption. reflexivity.
Qed.

Lemma torn_secret p k q : priv_wf p ->
  readPrivateKeyFile (firstn k (sec_file p)) = Ok q <->
  exists j, (14 <= j)%nat /\ groups_left 38 104 k j /\ q = cut_private p (3 * j - 40).
Proof.
  intro W. pose proof (priv_encode_length p W) as LE.
  assert (NE : priv_encode p <> []) by (intro X; rewrite X in LE; discriminate LE).
  pose proof (torn_data sec_comment (priv_encode p) k sec_comment_line NE ltac:(rewrite LE; vm_compute; discriminate)) as T.
  change (sec_comment ++ _) with (sec_file p) in T. rewrite LE in T. change (length sec_comment) with 38%nat in T.
  unfold readPrivateKeyFile.
  assert (Key : forall j, (14 <= j)%nat -> readPrivateKeyData (firstn (3 * j) (priv_encode p)) = Ok (cut_private p (3 * j - 40))).
  { intros j J. destruct (cut_private_encode p (3 * j - 40) W) as [W' E']. replace (40 + (3 * j - 40))%nat with (3 * j)%nat in E' by lia.
    destruct (read_private_accepts (firstn (3 * j) (priv_encode p))) as (q' & R & Wq & Eq); [rewrite firstn_length, LE; lia|].
    rewrite R. f_equal. apply priv_encode_inj; try assumption. rewrite Eq, E', fit_zero_extend. reflexivity. }
  destruct (readDataFileBytes (firstn k (sec_file p))) as [d|e|]; cbn [rbind]; [| |contradiction].
  - assert (U : forall j j', groups_left 38 104 k j -> groups_left 38 104 k j' -> j = j').
    { intros j j' (J1 & J2) (J1' & J2'). change ((104 + 2) / 3)%nat with 35%nat in *. lia. }
    destruct T as [(S & L)|(j & G & ->)].
    + split.
      * intro R. assert (X : (41 <= length (df_data d))%nat) by (apply read_private_iff; eauto). rewrite L in X.
        assert (k / 4 <= 2)%nat by (destruct S as [-> | [-> | ->]]; cbn; lia). lia.
      * intros (j & J & (J1 & J2) & _). destruct S as [-> | [-> | ->]]; lia.
    + destruct (Nat.le_gt_cases 14 j) as [J|J].
      * rewrite (Key j J). split; [intro X; injection X as <-; eauto|]. intros (j' & _ & G' & ->). rewrite (U _ _ G G'). reflexivity.
      * split.
        -- intro R. assert (X : (41 <= length (firstn (3 * j) (priv_encode p)))%nat) by (apply read_private_iff; eauto). rewrite firstn_length in X. lia.
        -- intros (j' & J' & G' & _). rewrite (U _ _ G G') in J. lia.
  - destruct T as (_ & _ & NG). split; [discriminate|]. intros (j & _ & G & _). elim (NG _ G).
Qed.

Lemma torn_public p k q : pub_wf p ->
  readPublicKeyFile (firstn k (pub_file p)) = Ok q <-> (94 <= k)%nat /\ q = p.
Proof.
  intro W. pose proof (pub_encode_length p W) as LE.
  assert (NE : pub_encode p <> []) by (intro X; rewrite X in LE; discriminate LE).
  pose proof (torn_data pub_comment (pub_encode p) k pub_comment_line NE ltac:(rewrite LE; vm_compute; discriminate)) as T.
  change (pub_comment ++ _) with (pub_file p) in T. rewrite LE in T. change (length pub_comment) with 37%nat in T.
  unfold readPublicKeyFile.
  destruct (readDataFileBytes (firstn k (pub_file p))) as [d|e|]; cbn [rbind]; [| |contradiction].
  - destruct T as [(S & L)|(j & (J1 & J2) & ->)].
    + split.
      * intro R. assert (X : length (df_data d) = 42%nat) by (apply read_public_iff; eauto). rewrite L in X.
        assert (k / 4 <= 2)%nat by (destruct S as [-> | [-> | ->]]; cbn; lia). lia.
      * intros (K & _). destruct S as [-> | [-> | ->]]; lia.
    + change ((42 + 2) / 3)%nat with 14%nat in *. destruct (Nat.eq_dec j 14) as [->|J].
      * rewrite firstn_all2 by lia. rewrite pub_round_trip by exact W. split; [intro X; injection X as <-; split; [lia|reflexivity]|intros [_ ->]; reflexivity].
      * split.
        -- intro R. assert (X : length (firstn (3 * j) (pub_encode p)) = 42%nat) by (apply read_public_iff; eauto). rewrite firstn_length in X. lia.
        -- intros [K _]. lia.
  - destruct T as (_ & _ & NG). split; [discriminate|]. intros [K _]. elim (NG 14%nat). split; [vm_compute; lia|]. right. split; [reflexivity|lia].
Qed.

Lemma cut_signature_encode s n : sig_wf s -> sig_wf (cut_signature s n) /\
  sig_encode (cut_signature s n) = zero_extend 74 (firstn (10 + n) (sig_encode s)).
Proof.
  intros (A & B & D). split.
  - unfold cut_signature, sig_wf. cbn [pkAlgo s_keyNum sig]. rewrite <- fit_zero_extend, length_fit. auto.
  - unfold sig_encode, cut_signature. cbn [pkAlgo s_keyNum sig].
    change (10 + n)%nat with (2 + (8 + n))%nat. rewrite !firstn_more by assumption.
    change 74%nat with (2 + (8 + 64))%nat. rewrite !zero_extend_app by assumption. reflexivity.
Qed.

Lemma torn_signature c s k : comment_line c -> sig_wf s ->
  let f := c ++ [x0a] ++ StdEncode (sig_encode s) ++ [x0a] in
  (forall t, readSignatureFile (firstn k f) = Ok t <->
     exists j, (4 <= j)%nat /\ groups_left (length c) 74 k j /\ t = cut_signature s (3 * j - 10)) /\
  (readSignatureFile (firstn k f) = Panic <->
     small_cut k \/ exists j, (j <= 3)%nat /\ groups_left (length c) 74 k j).
Proof.
  intros Hc W f. pose proof (sig_encode_length s W) as LE.
  assert (NE : sig_encode s <> []) by (intro X; rewrite X in LE; discriminate LE).
  pose proof (torn_data c (sig_encode s) k Hc NE ltac:(rewrite LE; vm_compute; discriminate)) as T. fold f in T. rewrite LE in T.
  assert (L19 : (19 <= length c)%nat). { destruct Hc as (_ & P & _). apply has_prefix_iff in P. destruct P as (t & ->). rewrite app_length. cbn. lia. }
  unfold readSignatureFile.
  assert (Key : forall j, (4 <= j)%nat -> readSignatureData (firstn (3 * j) (sig_encode s)) = Ok (cut_signature s (3 * j - 10))).
  { intros j J. destruct (cut_signature_encode s (3 * j - 10) W) as [W' E']. replace (10 + (3 * j - 10))%nat with (3 * j)%nat in E' by lia.
    destruct (read_sig_accepts (firstn (3 * j) (sig_encode s))) as (q' & R & Wq & Eq); [rewrite firstn_length, LE; lia|].
    rewrite R. f_equal. apply sig_encode_inj; try assumption. rewrite Eq, E'. reflexivity. }
  assert (U : forall j j', groups_left (length c) 74 k j -> groups_left (length c) 74 k j' -> j = j').
  { intros j j' (J1 & J2) (J1' & J2'). change ((74 + 2) / 3)%nat with 25%nat in *. lia. }
  destruct (readDataFileBytes (firstn k f)) as [d|e|]; cbn [rbind]; [| |contradiction].
  - destruct T as [(S & L)|(j & G & ->)].
    + assert (NG : forall j, ~ groups_left (length c) 74 k j) by (intros j (J1 & J2); destruct S as [-> | [-> | ->]]; lia).
      assert (P : readSignatureData (df_data d) = Panic).
      { apply read_sig_panics. rewrite L. destruct S as [-> | [-> | ->]]; cbn; lia. }
      rewrite P. split; [intro t; split; [discriminate|intros (j & _ & G & _); elim (NG _ G)]|]. split; [intros _; left; exact S|reflexivity].
    + assert (NS : ~ small_cut k) by (destruct G as (J1 & J2); unfold small_cut; lia).
      destruct (Nat.le_gt_cases 4 j) as [J|J].
      * rewrite (Key j J). split.
        -- intro t. split; [intro X; injection X as <-; eauto|]. intros (j' & _ & G' & ->). rewrite (U _ _ G G'). reflexivity.
        -- split; [discriminate|]. intros [S|(j' & J' & G')]; [contradiction|]. rewrite (U _ _ G G') in J. lia.
      * assert (P : readSignatureData (firstn (3 * j) (sig_encode s)) = Panic) by (apply read_sig_panics; rewrite firstn_length; lia).
        rewrite P. split.
        -- intro t. split; [discriminate|]. intros (j' & J' & G' & _). rewrite (U _ _ G G') in J. lia.
        -- split; [|reflexivity]. intros _. right. exists j. split; [lia|exact G].
  - destruct T as (_ & NS & NG). split.
    + intro t. split; [discriminate|]. intros (j & _ & G & _). elim (NG _ G).
    + split; [discriminate|]. intros [S|(j & _ & G)]; [contradiction|elim (NG _ G)].
Qed.

(* ---- crashes ---- *)
Lemma prefix_firstn (a b : bytes) : is_prefix a b -> a = firstn (length a) b.
Proof. intros (c & ->). rewrite firstn_app, firstn_all, Nat.sub_diag. cbn [firstn]. rewrite app_nil_r. reflexivity. Qed.

Lemma crash_secret C k pass opts w r w' evs fs' f q : LengthLaws C -> GenerateKey C k pass opts w = (r, w') ->
  w_log w' = w_log w ++ evs -> crash_state (w_fs w) evs fs' ->
  fs' (sec_path k) = Some f -> readPrivateKeyFile (f_data f) = Ok q ->
  w_fs w (sec_path k) = Some f \/
  exists priv pub w1 j, GenerateKeypair C pass opts w = (Ok (priv, pub), w1) /\ (14 <= j <= 35)%nat /\ q = cut_private priv (3 * j - 40).
Proof.
  intros LL G L Cs F R. destruct (GenerateKey_crash _ _ _ _ _ _ _ _ _ G L Cs) as [S|(priv & pub & w1 & GK & _ & [S|(b & P & S)] & _)].
  - left. rewrite <- S. exact F.
  - left. rewrite <- S. exact F.
  - right. rewrite S in F. injection F as <-. cbn [f_data] in R. rewrite (prefix_firstn _ _ P) in R.
    destruct (generate_wf _ _ _ _ _ _ _ LL GK) as [W _].
    apply torn_secret in R; [|exact W]. destruct R as (j & J & (J1 & _) & ->). exists priv, pub, w1, j.
    split; [exact GK|]. split; [|reflexivity]. split; [exact J|]. exact (proj2 J1).
Qed.

Lemma crash_public C k pass opts w r w' evs fs' f q : LengthLaws C -> GenerateKey C k pass opts w = (r, w') ->
  w_log w' = w_log w ++ evs -> crash_state (w_fs w) evs fs' ->
  fs' (pub_path k) = Some f -> readPublicKeyFile (f_data f) = Ok q ->
  w_fs w (pub_path k) = Some f \/ exists priv w1, GenerateKeypair C pass opts w = (Ok (priv, q), w1).
Proof.
  intros LL G L Cs F R. destruct (GenerateKey_crash _ _ _ _ _ _ _ _ _ G L Cs) as [S|(priv & pub & w1 & GK & _ & _ & [S|(b & P & S)] & _)].
  - left. rewrite <- S. exact F.
  - left. rewrite <- S. exact F.
  - right. rewrite S in F. injection F as <-. cbn [f_data] in R. rewrite (prefix_firstn _ _ P) in R.
    destruct (generate_wf _ _ _ _ _ _ _ LL GK) as [_ W].
    apply torn_public in R; [|exact W]. destruct R as [_ ->]. eauto.
Qed.

Lemma Sign_log C k mp s w r w' : Sign C k mp s w = (r, w') ->
  exists outs evs, Forall is_out outs /\ w_log w' = w_log w ++ outs ++ evs /\ w_fs w' = replay (w_fs w) evs /\
    (evs = [] \/ exists p m ok, sign_ready C k mp w p m /\ write_events (sigPathOf mp s) (signed_file C k p m) 420 evs ok).
Proof.
  rewrite Sign_eq. cbv zeta. destruct (LoadPrivateKey k w) as [r1 w1] eqn:E1.
  apply LoadPrivateKey_inv in E1. destruct E1 as (-> & N1 & P1).
  assert (Q : forall outs (r0 : res unit) w0, Forall is_out outs -> w_log w0 = w_log w ++ outs -> w_fs w0 = w_fs w -> (r0, w0) = (r, w') ->
     exists outs evs, Forall is_out outs /\ w_log w' = w_log w ++ outs ++ evs /\ w_fs w' = replay (w_fs w) evs /\
      (evs = [] \/ exists p m ok, sign_ready C k mp w p m /\ write_events (sigPathOf mp s) (signed_file C k p m) 420 evs ok)).
  { intros outs r0 w0 O F F0 H. apply pair_equal_spec in H. destruct H as [<- <-]. exists outs, []. rewrite app_nil_r. auto. }
  assert (O1 : forall b, Forall is_out [EvOut b]) by (intro b; constructor; [exact I|constructor]).
  assert (O2 : forall b b', Forall is_out [EvOut b; EvOut b']) by (intros b b'; constructor; [exact I|apply O1]).
  destruct r1 as [p|e|]; [| |contradiction].
  2: { apply (Q []); [constructor|rewrite app_nil_r; reflexivity|reflexivity]. }
  destruct (P1 p eq_refl) as (kf & Ck & Rk).
  destruct (IsEncrypted p) eqn:Ee.
  - change (w_tty (next w)) with (w_tty w). change (w_bufs (next w)) with (w_bufs w).
    assert (LA : forall b tl, w_log (ask_world (next w) b tl) = w_log w ++ [EvOut (str "Password: "); EvOut [x0a]]).
    { intros b tl. unfold ask_world. cbn [emit w_log set_bufs set_tty next set_faults]. rewrite <- app_assoc. reflexivity. }
    destruct (w_tty w) as [|[b|e|] tl] eqn:Et; try (apply (Q [EvOut (str "Password: ")]); [apply O1|reflexivity|reflexivity]).
    destruct (decrypt C p b) as [[u|e|] p'] eqn:Ed;
      try (apply (Q [EvOut (str "Password: "); EvOut [x0a]]); [apply O2|rewrite zero_buf_log; apply LA|rewrite zero_buf_fs; reflexivity]).
    destruct (signFinish C k mp (sigPathOf mp s) p' (ask_world (next w) b tl)) as [r3 w3] eqn:Es.
    apply signFinish_spec in Es. destruct Es as (N & R & [(F & L & e & ->)|(m & evs & Cm & W & L & F)]).
    + apply (Q [EvOut (str "Password: "); EvOut [x0a]]); [apply O2|rewrite zero_buf_log, L; apply LA|rewrite zero_buf_fs, F; reflexivity].
    + intro H. apply pair_equal_spec in H. destruct H as [<- <-].
      exists [EvOut (str "Password: "); EvOut [x0a]], evs. split; [apply O2|]. rewrite zero_buf_log, L, LA, <- app_assoc. split; [reflexivity|]. split; [rewrite zero_buf_fs, F; reflexivity|].
      right. exists p', m. eexists. split; [|exact W]. exists kf, p. split; [exact Ck|]. split; [exact Rk|]. split; [exact Cm|].
      right. split; [exact Ee|]. exists b, tl. rewrite Ed, (unit_tt u). auto.
  - destruct (signFinish C k mp (sigPathOf mp s) p (next w)) as [r3 w3] eqn:Es.
    apply signFinish_spec in Es. destruct Es as (N & R & [(F & L & e & ->)|(m & evs & Cm & W & L & F)]).
    + apply (Q []); [constructor|rewrite app_nil_r; exact L|exact F].
    + intro H. apply pair_equal_spec in H. destruct H as [<- <-]. exists [], evs. split; [constructor|]. split; [exact L|]. split; [exact F|].
      right. exists p, m. eexists. split; [|exact W]. exists kf, p. auto 10.
Qed.

Lemma crash_outs fs outs fs' : Forall is_out outs -> crash_state fs outs fs' -> fs' = fs.
Proof.
  intros O (dn & rs & -> & S). apply Forall_app in O. destruct O as [O1 O2].
  destruct S as [->|(p & b1 & b2 & r' & -> & _)]; [apply replay_outs; exact O1|]. inversion O2; contradiction.
Qed.

Lemma Sign_crash C k mp s w r w' evs fs' : Sign C k mp s w = (r, w') -> w_log w' = w_log w ++ evs -> crash_state (w_fs w) evs fs' ->
  (forall q, q <> sigPathOf mp s -> fs' q = w_fs w q) /\
  (fs' (sigPathOf mp s) = w_fs w (sigPathOf mp s) \/
   exists p m b, sign_ready C k mp w p m /\ is_prefix b (signed_file C k p m) /\
     fs' (sigPathOf mp s) = Some (File b (file_mode (w_fs w) (sigPathOf mp s) 420))).
Proof.
  intros H L Cs. destruct (Sign_log _ _ _ _ _ _ _ H) as (outs & ev & O & L' & _ & D). rewrite L' in L. apply app_inv_head in L. subst evs.
  apply crash_app in Cs. destruct Cs as [Cs|Cs].
  { rewrite (crash_outs _ _ _ O Cs). auto. }
  rewrite replay_outs in Cs by exact O. destruct D as [->|(p & m & ok & R & W)].
  { destruct Cs as (dn & rs & E & S). symmetry in E. apply app_eq_nil in E. destruct E as [-> ->].
    destruct S as [->|(p' & b1 & b2 & r' & Er & _)]; [auto|discriminate]. }
  destruct (crash_write _ _ _ _ _ _ W Cs) as [[P|(b & B & P)] Oth]; (split; [exact Oth|]); [left; exact P|right; exists p, m, b; auto].
Qed.

Lemma crash_signature C k mp s w r w' evs fs' f n : LengthLaws C -> pub_name k n -> lf_free n -> Z.of_nat (length n) <= 65000 ->
  Sign C k mp s w = (r, w') -> w_log w' = w_log w ++ evs -> crash_state (w_fs w) evs fs' ->
  fs' (sigPathOf mp s) = Some f ->
  w_fs w (sigPathOf mp s) = Some f \/
  exists p m b, sign_ready C k mp w p m /\ f_data f = firstn b (signature_file n (keyAlgo p) (keyNum p) (ed_sign C (key p) m)) /\
    forall t, readSignatureFile (f_data f) = Ok t ->
      exists j, (4 <= j <= 25)%nat /\ t = cut_signature (Sig (keyAlgo p) (keyNum p) (ed_sign C (key p) m)) (3 * j - 10).
Proof.
  intros LL Hn Hf Hl H L Cs F. destruct (Sign_crash _ _ _ _ _ _ _ _ _ H L Cs) as [_ [S|(p & m & b & R & P & S)]].
  - left. rewrite <- S. exact F.
  - right. rewrite S in F. injection F as <-. cbn [f_data]. pose proof (sign_ready_wf _ _ _ _ _ _ R) as W.
    rewrite (signed_file_eq C k p m LL W n Hn) in P. exists p, m, (length b). split; [exact R|].
    pose proof (prefix_firstn _ _ P) as Eb. split; [exact Eb|]. intros t Rt. rewrite Eb in Rt.
    set (sg := Sig (keyAlgo p) (keyNum p) (ed_sign C (key p) m)).
    assert (Ws : sig_wf sg).
    { destruct W as (A1 & A2 & A3 & A4 & A5 & A6 & A7). split; [exact A1|]. split; [exact A6|]. apply len_ed_sign; assumption. }
    assert (Hc : comment_line (str "untrusted comment: verify with " ++ n)).
    { split; [|split].
      - intro X. apply in_app_or in X. destruct X as [X|X]; [vm_compute in X; intuition discriminate|exact (Hf X)].
      - reflexivity.
      - rewrite app_length. change (length (str "untrusted comment: verify with ")) with 31%nat. lia. }
    destruct (torn_signature _ sg (length b) Hc Ws) as [T _].
    replace (signature_file n (keyAlgo p) (keyNum p) (ed_sign C (key p) m)) with
      ((str "untrusted comment: verify with " ++ n) ++ [x0a] ++ StdEncode (sig_encode sg) ++ [x0a]) in Rt
      by (unfold signature_file; rewrite <- !app_assoc; reflexivity).
    apply T in Rt. destruct Rt as (j & J & (J1 & _) & ->). exists j. split; [|reflexivity]. split; [exact J|exact (proj2 J1)].
Qed.
