(* Facts about the key and signature formats (signify/key.go, signature.go). *)
From Verif Require Export Keys DataFileFacts.

(* ---- splitting a payload into fields ---- *)
Lemma firstn_app_exact {A} n (a b : list A) : length a = n -> firstn n (a ++ b) = a.
Proof. intros <-. rewrite firstn_app, firstn_all, Nat.sub_diag. cbn. apply app_nil_r. Qed.
Lemma skipn_app_exact {A} n (a b : list A) : length a = n -> skipn n (a ++ b) = b.
Proof. intros <-. rewrite skipn_app, skipn_all, Nat.sub_diag. reflexivity. Qed.

Lemma skipn_skipn {A} x y (l : list A) : skipn x (skipn y l) = skipn (x + y) l.
Proof.
  revert l. induction y as [|y IH]; intro l.
  - rewrite Nat.add_0_r. reflexivity.
  - destruct l as [|c l]; [rewrite !skipn_nil; reflexivity|].
    rewrite Nat.add_succ_r. cbn [skipn]. apply IH.
Qed.

Lemma fit_app n m a b : length a = n -> fit (n + m) (a ++ b) = a ++ fit m b.
Proof.
  intro H. rewrite !fit_zero_extend. unfold zero_extend. rewrite app_length, H.
  rewrite firstn_app, H. replace (n + m - n)%nat with m by lia.
  rewrite firstn_all2 by lia. rewrite <- app_assoc. f_equal. f_equal. f_equal. lia.
Qed.

Lemma fit_firstn n m l : (n <= m)%nat -> fit n (firstn m l) = fit n l.
Proof.
  intro H. rewrite !fit_zero_extend. unfold zero_extend. rewrite firstn_firstn, Nat.min_l by lia.
  f_equal. f_equal. rewrite firstn_length. lia.
Qed.

Lemma be_decode4 l : length l = 4%nat -> be_encode 4 (be_decode l) = l /\ 0 <= be_decode l < 4294967296.
Proof.
  intro H. pose proof (be_decode_range l) as R. rewrite H in R. change (256 ^ Z.of_nat 4) with 4294967296 in R.
  split; [|exact R]. apply be_decode_inj; [rewrite length_be_encode; congruence|].
  rewrite be_decode_encode. change (256 ^ Z.of_nat 4) with 4294967296. apply Z.mod_small. exact R.
Qed.

Lemma buffer_read_full n a b : a <> [] -> length a = n -> buffer_read n (a ++ b) = Ok (a, b).
Proof.
  intros Hne H. unfold buffer_read. destruct (a ++ b) eqn:E.
  - destruct a; [contradiction Hne; reflexivity|discriminate].
  - rewrite <- E, firstn_app_exact, skipn_app_exact, fit_exact by assumption. reflexivity.
Qed.

Lemma cut_front n (l : bytes) : (n <= length l)%nat -> exists a b, l = a ++ b /\ length a = n.
Proof. intro H. exists (firstn n l), (skipn n l). rewrite firstn_skipn, firstn_length. split; [reflexivity|lia]. Qed.

Lemma read_private_accepts data : (41 <= length data)%nat ->
  exists p, readPrivateKeyData data = Ok p /\ priv_wf p /\ priv_encode p = fit 104 data.
Proof.
  intro H.
  destruct (cut_front 2 data) as (a & d1 & -> & La); [lia|]. rewrite app_length, La in H.
  destruct (cut_front 2 d1) as (k & d2 & -> & Lk); [lia|]. rewrite app_length, Lk in H.
  destruct (cut_front 4 d2) as (r & d3 & -> & Lr); [lia|]. rewrite app_length, Lr in H.
  destruct (cut_front 16 d3) as (s & d4 & -> & Ls); [lia|]. rewrite app_length, Ls in H.
  destruct (cut_front 8 d4) as (c & d5 & -> & Lc); [lia|]. rewrite app_length, Lc in H.
  destruct (cut_front 8 d5) as (n & d6 & -> & Ln); [lia|]. rewrite app_length, Ln in H.
  assert (H6 : d6 <> []) by (intros ->; cbn in H; lia).
  assert (Hn : forall l : bytes, (0 < length l)%nat -> l <> []) by (intros [|x l] Hl; [cbn in Hl; lia|discriminate]).
  unfold readPrivateKeyData. unfold keyAlgoLength, kdfAlgoLength, saltLength, checksumLength, keyNumLength, secretKeyLength.
  rewrite (buffer_read_full 2 a) by (try apply Hn; lia). cbn [rbind].
  rewrite (buffer_read_full 2 k) by (try apply Hn; lia). cbn [rbind].
  unfold read_uint32. destruct (r ++ _) eqn:Er.
  { destruct r; [cbn in Lr; lia|discriminate]. }
  rewrite <- Er. clear Er.
  destruct (Nat.ltb_spec (length (r ++ s ++ c ++ n ++ d6)) 4) as [Hl|_]; [rewrite app_length in Hl; lia|].
  cbn [rbind].
  rewrite (firstn_app_exact 4 r), (skipn_app_exact 4 r) by exact Lr.
  rewrite (buffer_read_full 16 s) by (try apply Hn; lia). cbn [rbind].
  rewrite (buffer_read_full 8 c) by (try apply Hn; lia). cbn [rbind].
  rewrite (buffer_read_full 8 n) by (try apply Hn; lia). cbn [rbind].
  unfold buffer_read. destruct d6 as [|x d6]; [contradiction H6; reflexivity|]. cbn [rbind].
  destruct (be_decode4 r Lr) as [E1 E2].
  eexists. split; [reflexivity|]. split.
  - unfold priv_wf. cbn [keyAlgo kdfAlgo kdfRounds salt checksum keyNum key]. rewrite length_fit. repeat split; try assumption; lia.
  - unfold priv_encode. cbn [keyAlgo kdfAlgo kdfRounds salt checksum keyNum key]. rewrite E1.
    rewrite fit_firstn by lia.
    change 104%nat with (2 + (2 + (4 + (16 + (8 + (8 + 64))))))%nat.
    rewrite !fit_app by assumption. reflexivity.
Qed.

(* a successful read returns the suffix after n bytes *)
Lemma buffer_read_inv n data a b : buffer_read n data = Ok (a, b) ->
  (0 < length data)%nat /\ length b = (length data - n)%nat.
Proof.
  unfold buffer_read. destruct data; [discriminate|]. intro H.
  injection H as _ <-. cbn [length]. rewrite skipn_length. cbn [length]. lia.
Qed.
Lemma buffer_read_no_panic n data : buffer_read n data <> Panic.
Proof. unfold buffer_read. destruct data; discriminate. Qed.
Lemma read_uint32_inv data a b : read_uint32 data = Ok (a, b) ->
  (4 <= length data)%nat /\ length b = (length data - 4)%nat.
Proof.
  unfold read_uint32. destruct data; [discriminate|].
  destruct (Nat.ltb_spec (length (b0 :: data)) 4); [discriminate|]. intro Q. injection Q as _ <-.
  split; [lia|]. destruct data as [|? [|? [|? ?]]]; cbn [length] in *; lia.
Qed.

Lemma read_private_no_panic data : readPrivateKeyData data <> Panic.
Proof.
  unfold readPrivateKeyData.
  repeat match goal with
  | |- rbind (buffer_read ?n ?d) _ <> _ =>
      let E := fresh "E" in pose proof (buffer_read_no_panic n d);
      destruct (buffer_read n d) as [[? ?]| |] eqn:E; cbn [rbind]; [|discriminate|contradiction]
  | |- rbind (read_uint32 ?d) _ <> _ =>
      let E := fresh "E" in
      destruct (read_uint32 d) as [[? ?]| |] eqn:E; cbn [rbind];
      [|discriminate|unfold read_uint32 in E; destruct d; [discriminate|]; destruct (_ <? _)%nat; discriminate]
  end. discriminate.
Qed.

Lemma read_private_rejects data : (length data < 41)%nat -> exists e, readPrivateKeyData data = Err e.
Proof.
  intro H. destruct (readPrivateKeyData data) as [p|e|] eqn:E.
  - exfalso. unfold readPrivateKeyData in E.
    repeat match type of E with
    | rbind (buffer_read ?n ?d) _ = _ =>
        let Q := fresh "Q" in
        destruct (buffer_read n d) as [[? ?]| |] eqn:Q; cbn [rbind] in E; [|discriminate|discriminate];
        apply buffer_read_inv in Q
    | rbind (read_uint32 ?d) _ = _ =>
        let Q := fresh "Q" in
        destruct (read_uint32 d) as [[? ?]| |] eqn:Q; cbn [rbind] in E; [|discriminate|discriminate];
        apply read_uint32_inv in Q
    end.
    unfold keyAlgoLength, kdfAlgoLength, saltLength, checksumLength, keyNumLength, secretKeyLength in *. lia.
  - exists e. reflexivity.
  - exfalso. exact (read_private_no_panic data E).
Qed.

Lemma read_private_iff data : (exists p, readPrivateKeyData data = Ok p) <-> (41 <= length data)%nat.
Proof.
  split.
  - intros (p & H). destruct (Nat.le_gt_cases 41 (length data)) as [L|L]; [exact L|].
    destruct (read_private_rejects data L) as (e & E). congruence.
  - intro H. destruct (read_private_accepts data H) as (p & E & _). exists p. exact E.
Qed.

Lemma read_private_bytes data p : readPrivateKeyData data = Ok p ->
  priv_wf p /\ priv_encode p = zero_extend 104 data.
Proof.
  intro H. assert (L : (41 <= length data)%nat) by (apply read_private_iff; exists p; exact H).
  destruct (read_private_accepts data L) as (q & E & W & B). rewrite H in E. injection E as <-.
  rewrite <- fit_zero_extend. split; assumption.
Qed.

Lemma be_encode4_inj a b : 0 <= a < 4294967296 -> 0 <= b < 4294967296 -> be_encode 4 a = be_encode 4 b -> a = b.
Proof.
  intros Ha Hb H. apply (f_equal be_decode) in H. rewrite !be_decode_encode in H.
  change (256 ^ Z.of_nat 4) with 4294967296 in H. rewrite !Z.mod_small in H by assumption. exact H.
Qed.

Lemma app_inj_len {A} (a b c d : list A) : length a = length b -> a ++ c = b ++ d -> a = b /\ c = d.
Proof.
  revert b. induction a as [|x a IH]; intros [|y b] L H; cbn in L; try discriminate; [split; [reflexivity|exact H]|].
  cbn in H. injection H as -> H. destruct (IH b) as [-> ->]; [lia|exact H|]. split; reflexivity.
Qed.

Lemma priv_encode_inj p q : priv_wf p -> priv_wf q -> priv_encode p = priv_encode q -> p = q.
Proof.
  intros (A1 & A2 & A3 & A4 & A5 & A6 & A7) (B1 & B2 & B3 & B4 & B5 & B6 & B7) H. unfold priv_encode in H.
  apply app_inj_len in H; [|congruence]. destruct H as [E1 H].
  apply app_inj_len in H; [|congruence]. destruct H as [E2 H].
  apply app_inj_len in H; [|rewrite !length_be_encode; congruence]. destruct H as [E3 H].
  apply app_inj_len in H; [|congruence]. destruct H as [E4 H].
  apply app_inj_len in H; [|congruence]. destruct H as [E5 H].
  apply app_inj_len in H; [|congruence]. destruct H as [E6 E7].
  apply be_encode4_inj in E3; [|assumption|assumption].
  destruct p, q; cbn in *; congruence.
Qed.

Lemma priv_encode_length p : priv_wf p -> length (priv_encode p) = 104%nat.
Proof.
  intros (A1 & A2 & A3 & A4 & A5 & A6 & A7). unfold priv_encode.
  rewrite !app_length, length_be_encode, A1, A2, A4, A5, A6, A7. reflexivity.
Qed.

Lemma slice_app n m k a b : length a = n -> slice (n + m) k (a ++ b) = slice m k b.
Proof.
  intro H. unfold slice. rewrite skipn_app. rewrite skipn_all2 by lia. cbn [app].
  replace (n + m - length a)%nat with m by lia. reflexivity.
Qed.

Lemma slice_here k a b : length a = k -> slice 0 k (a ++ b) = a.
Proof. intro H. unfold slice. cbn [skipn]. apply firstn_app_exact. exact H. Qed.

Lemma priv_encode_layout p : priv_wf p ->
  let b := priv_encode p in
  length b = 104%nat /\ slice 0 2 b = keyAlgo p /\ slice 2 2 b = kdfAlgo p /\
  be_decode (slice 4 4 b) = kdfRounds p /\ slice 8 16 b = salt p /\ slice 24 8 b = checksum p /\
  slice 32 8 b = keyNum p /\ slice 40 64 b = key p.
Proof.
  intro W. cbv zeta. split; [apply priv_encode_length; exact W|].
  destruct W as (A1 & A2 & A3 & A4 & A5 & A6 & A7). unfold priv_encode.
  pose proof (length_be_encode 4 (kdfRounds p)) as Lr.
  pose proof slice_app as S1.
  repeat split.
  - apply slice_here. exact A1.
  - rewrite (S1 2 0 2)%nat by assumption. apply slice_here. exact A2.
  - rewrite (S1 2 2 4)%nat, (S1 2 0 4)%nat by assumption. rewrite slice_here by exact Lr.
    rewrite be_decode_encode. change (256 ^ Z.of_nat 4) with 4294967296. apply Z.mod_small. exact A3.
  - rewrite (S1 2 6 16)%nat, (S1 2 4 16)%nat, (S1 4 0 16)%nat by assumption. apply slice_here. exact A4.
  - rewrite (S1 2 22 8)%nat, (S1 2 20 8)%nat, (S1 4 16 8)%nat, (S1 16 0 8)%nat by assumption. apply slice_here. exact A5.
  - rewrite (S1 2 30 8)%nat, (S1 2 28 8)%nat, (S1 4 24 8)%nat, (S1 16 8 8)%nat, (S1 8 0 8)%nat by assumption. apply slice_here. exact A6.
  - rewrite (S1 2 38 64)%nat, (S1 2 36 64)%nat, (S1 4 32 64)%nat, (S1 16 16 64)%nat, (S1 8 8 64)%nat, (S1 8 0 64)%nat by assumption.
    unfold slice. cbn [skipn]. rewrite <- A7. apply firstn_all.
Qed.

Lemma priv_round_trip p : priv_wf p -> readPrivateKeyData (priv_encode p) = Ok p.
Proof.
  intro W. pose proof (priv_encode_length p W) as L.
  destruct (read_private_accepts (priv_encode p)) as (q & E & Wq & B); [lia|].
  rewrite fit_exact in B by exact L. rewrite E. f_equal. apply priv_encode_inj; assumption.
Qed.

(* ---- public keys ---- *)
Lemma pub_encode_length p : pub_wf p -> length (pub_encode p) = 42%nat.
Proof. intros (A & B & D). unfold pub_encode. rewrite !app_length, A, B, D. reflexivity. Qed.

Lemma read_public_accepts data : length data = 42%nat ->
  exists p, readPublicKeyData data = Ok p /\ pub_wf p /\ pub_encode p = data.
Proof.
  intro H. unfold readPublicKeyData. rewrite H. cbn [Nat.add keyAlgoLength keyNumLength publicKeyLength Nat.eqb negb].
  eexists. split; [reflexivity|]. split.
  - unfold pub_wf. cbn [p_keyAlgo p_keyNum p_key]. rewrite !length_fit. auto.
  - unfold pub_encode. cbn [p_keyAlgo p_keyNum p_key].
    rewrite !fit_exact by (rewrite firstn_length, ?skipn_length; lia).
    rewrite (firstn_all2 (n := 32)) by (rewrite skipn_length; lia).
    change (skipn 10 data) with (skipn (8 + 2) data). rewrite <- skipn_skipn, firstn_skipn. apply firstn_skipn.
Qed.

Lemma read_public_rejects data : length data <> 42%nat -> exists e, readPublicKeyData data = Err e.
Proof.
  intro H. unfold readPublicKeyData. change (keyAlgoLength + keyNumLength + publicKeyLength)%nat with 42%nat.
  destruct (Nat.eqb_spec (length data) 42); [contradiction|]. eexists. reflexivity.
Qed.

Lemma read_public_iff data : (exists p, readPublicKeyData data = Ok p) <-> length data = 42%nat.
Proof.
  split.
  - intros (p & E). destruct (Nat.eq_dec (length data) 42) as [L|L]; [exact L|].
    destruct (read_public_rejects data L). congruence.
  - intro H. destruct (read_public_accepts data H) as (p & E & _). exists p. exact E.
Qed.

Lemma read_public_bytes data p : readPublicKeyData data = Ok p -> pub_wf p /\ pub_encode p = data.
Proof.
  intro H. assert (L : length data = 42%nat) by (apply read_public_iff; exists p; exact H).
  destruct (read_public_accepts data L) as (q & E & W). rewrite H in E. injection E as <-. exact W.
Qed.

Lemma read_public_no_panic data : readPublicKeyData data <> Panic.
Proof. unfold readPublicKeyData. destruct (negb _); discriminate. Qed.

Lemma pub_encode_inj p q : pub_wf p -> pub_wf q -> pub_encode p = pub_encode q -> p = q.
Proof.
  intros (A & B & D) (A' & B' & D') H. unfold pub_encode in H.
  apply app_inj_len in H; [|congruence]. destruct H as [E1 H].
  apply app_inj_len in H; [|congruence]. destruct H as [E2 E3].
  destruct p, q; cbn in *; congruence.
Qed.

Lemma pub_round_trip p : pub_wf p -> readPublicKeyData (pub_encode p) = Ok p.
Proof.
  intro W. destruct (read_public_accepts (pub_encode p) (pub_encode_length p W)) as (q & E & Wq & B).
  rewrite E. f_equal. apply pub_encode_inj; assumption.
Qed.

(* ---- signatures ---- *)
Lemma sig_encode_length s : sig_wf s -> length (sig_encode s) = 74%nat.
Proof. intros (A & B & D). unfold sig_encode. rewrite !app_length, A, B, D. reflexivity. Qed.

Lemma read_sig_panics data : readSignatureData data = Panic <-> (length data < 10)%nat.
Proof.
  unfold readSignatureData. change (keyNumLength + 2)%nat with 10%nat.
  destruct (Nat.ltb_spec (length data) 10); split; try discriminate; try lia; reflexivity.
Qed.

Lemma read_sig_accepts data : (10 <= length data)%nat ->
  exists s, readSignatureData data = Ok s /\ sig_wf s /\ sig_encode s = zero_extend 74 data.
Proof.
  intro H. unfold readSignatureData. change (keyNumLength + 2)%nat with 10%nat.
  destruct (Nat.ltb_spec (length data) 10); [lia|]. eexists. split; [reflexivity|]. split.
  - unfold sig_wf. cbn [pkAlgo s_keyNum sig]. rewrite !length_fit. auto.
  - unfold sig_encode. cbn [pkAlgo s_keyNum sig]. rewrite <- fit_zero_extend.
    destruct (cut_front 2 data) as (a & d1 & -> & La); [lia|]. rewrite app_length, La in H.
    destruct (cut_front 8 d1) as (k & d2 & -> & Lk); [lia|].
    change 74%nat with (2 + (8 + 64))%nat. rewrite (fit_app 2), (fit_app 8) by assumption.
    rewrite (skipn_app_exact 2) by exact La. rewrite !firstn_app_exact by assumption.
    rewrite !fit_exact by assumption. do 2 f_equal.
    change 10%nat with (8 + 2)%nat. rewrite <- skipn_skipn, (skipn_app_exact 2), (skipn_app_exact 8) by assumption. reflexivity.
Qed.

Lemma sig_encode_inj p q : sig_wf p -> sig_wf q -> sig_encode p = sig_encode q -> p = q.
Proof.
  intros (A & B & D) (A' & B' & D') H. unfold sig_encode in H.
  apply app_inj_len in H; [|congruence]. destruct H as [E1 H].
  apply app_inj_len in H; [|congruence]. destruct H as [E2 E3].
  destruct p, q; cbn in *; congruence.
Qed.

Lemma zero_extend_exact n l : length l = n -> zero_extend n l = l.
Proof. intro H. rewrite <- fit_zero_extend. apply fit_exact. exact H. Qed.

Lemma sig_round_trip s : sig_wf s -> readSignatureData (sig_encode s) = Ok s.
Proof.
  intro W. pose proof (sig_encode_length s W) as L.
  destruct (read_sig_accepts (sig_encode s)) as (q & E & Wq & B); [lia|].
  rewrite zero_extend_exact in B by exact L. rewrite E. f_equal. apply sig_encode_inj; assumption.
Qed.

Lemma sig_layout s : sig_wf s -> let b := sig_encode s in
  length b = 74%nat /\ slice 0 2 b = pkAlgo s /\ slice 2 8 b = s_keyNum s /\ slice 10 64 b = sig s.
Proof.
  intro W. cbv zeta. split; [apply sig_encode_length; exact W|]. destruct W as (A & B & D). unfold sig_encode.
  pose proof slice_app as S1.
  split; [apply slice_here; exact A|]. split.
  - rewrite (S1 2 0 8)%nat by assumption. apply slice_here. exact B.
  - rewrite (S1 2 8 64)%nat, (S1 8 0 64)%nat by assumption. unfold slice. cbn [skipn]. rewrite <- D. apply firstn_all.
Qed.

Lemma pub_layout p : pub_wf p -> let b := pub_encode p in
  length b = 42%nat /\ slice 0 2 b = p_keyAlgo p /\ slice 2 8 b = p_keyNum p /\ slice 10 32 b = p_key p.
Proof.
  intro W. cbv zeta. split; [apply pub_encode_length; exact W|]. destruct W as (A & B & D). unfold pub_encode.
  pose proof slice_app as S1.
  split; [apply slice_here; exact A|]. split.
  - rewrite (S1 2 0 8)%nat by assumption. apply slice_here. exact B.
  - rewrite (S1 2 8 32)%nat, (S1 8 0 32)%nat by assumption. unfold slice. cbn [skipn]. rewrite <- D. apply firstn_all.
Qed.
