(* Proofs about seal: nonces, loops, the encoder over a file. *)
From Verif Require Import SealOpen.
From Verif Require Export SignFacts SpecSeal B64StreamFacts.
From Verif Require Import GoBase64Facts.

(* ---- nonces ---- *)
Lemma be_decode_snoc l b : be_decode (l ++ [b]) = be_decode l * 256 + b2z b.
Proof.
  induction l as [|x l IH]; [cbn; lia|].
  cbn [app]. rewrite !be_decode_cons, IH, app_length. cbn [length].
  rewrite Nat2Z.inj_add, Z.pow_add_r by lia. change (256 ^ Z.of_nat 1) with 256. ring.
Qed.

Lemma inc_rev_length l : length (fst (inc_rev l)) = length l.
Proof.
  induction l as [|b r IH]; [reflexivity|]. cbn [inc_rev]. destruct (negb _); [reflexivity|].
  destruct (inc_rev r). cbn in *. rewrite IH. reflexivity.
Qed.

Lemma inc_rev_spec l :
  be_decode (rev (fst (inc_rev l))) = (be_decode (rev l) + 1) mod 256 ^ Z.of_nat (length l) /\
  (snd (inc_rev l) = true <-> be_decode (rev l) = 256 ^ Z.of_nat (length l) - 1).
Proof.
  induction l as [|b r [IH1 IH2]].
  - cbn. split; [reflexivity|]. split; reflexivity.
  - cbn [inc_rev rev length]. rewrite be_decode_snoc, Nat2Z.inj_succ, Z.pow_succ_r by lia.
    set (P := 256 ^ Z.of_nat (length r)) in *.
    pose proof (be_decode_range (rev r)) as R. rewrite rev_length in R. fold P in R.
    pose proof (b2z_range b) as B.
    destruct (negb (beqb (z2b (b2z b + 1)) x00)) eqn:E.
    + apply negb_true_iff, beqb_neq in E. cbn [fst snd rev]. rewrite be_decode_snoc, b2z_z2b.
      assert (b2z b <> 255).
      { intro H. apply E. rewrite H. reflexivity. }
      rewrite (Z.mod_small (b2z b + 1)) by lia. rewrite Z.mod_small by nia.
      split; [lia|]. split; [discriminate|]. intro H0. exfalso. nia.
    + apply negb_false_iff, beqb_eq in E.
      assert (b2z b = 255).
      { apply (f_equal b2z) in E. rewrite b2z_z2b in E. change (b2z x00) with 0 in E.
        destruct (Z.eq_dec (b2z b) 255); [assumption|]. rewrite Z.mod_small in E by lia. lia. }
      destruct (inc_rev r) as [r' o]. cbn [fst snd rev] in *. rewrite be_decode_snoc, E, IH1.
      change (b2z x00) with 0. rewrite H.
      replace (be_decode (rev r) * 256 + 255 + 1) with (256 * (be_decode (rev r) + 1)) by ring.
      rewrite Z.mul_mod_distr_l by lia. split; [ring|]. rewrite IH2. lia.
Qed.

Lemma incrementNonce_spec n :
  let '(n', e) := incrementNonce n in
  length n' = length n /\
  be_decode n' = (be_decode n + 1) mod 256 ^ Z.of_nat (length n) /\
  (e <> None <-> be_decode n = 256 ^ Z.of_nat (length n) - 1).
Proof.
  unfold incrementNonce. destruct (inc_rev_spec (rev n)) as [H1 H2]. pose proof (inc_rev_length (rev n)) as H3.
  destruct (inc_rev (rev n)) as [r o]. cbn [fst snd] in *. rewrite rev_length, rev_involutive in *.
  split; [exact H3|]. split; [exact H1|]. rewrite <- H2. destruct o; split; intros; try discriminate; congruence.
Qed.

Lemma incrementNonce_24 n : length n = 24%nat ->
  length (fst (incrementNonce n)) = 24%nat /\
  be_decode (fst (incrementNonce n)) = (be_decode n + 1) mod 2 ^ 192 /\
  (snd (incrementNonce n) <> None <-> be_decode n = 2 ^ 192 - 1).
Proof.
  intro L. pose proof (incrementNonce_spec n) as H. destruct (incrementNonce n) as [n' e].
  rewrite L in H. exact H.
Qed.

Lemma nonce_length i : length (nonce i) = 24%nat.
Proof. apply length_be_encode. Qed.
Lemma nonce_value i : be_decode (nonce i) = i mod 2 ^ 192.
Proof. unfold nonce. rewrite be_decode_encode. reflexivity. Qed.

Lemma incrementNonce_nonce i : 0 <= i < 2 ^ 192 - 1 -> incrementNonce (nonce i) = (nonce (i + 1), None).
Proof.
  intro Hi. destruct (incrementNonce_24 (nonce i) (nonce_length i)) as (L & V & E).
  destruct (incrementNonce (nonce i)) as [n e]. cbn [fst snd] in *.
  rewrite nonce_value, (Z.mod_small i) in * by lia. f_equal.
  - apply be_decode_inj; [rewrite nonce_length; exact L|]. rewrite nonce_value. exact V.
  - destruct e as [e|]; [|reflexivity]. exfalso. assert (i = 2 ^ 192 - 1) by (apply E; discriminate). lia.
Qed.

Lemma zeroNonce_eq : zeroNonce = nonce 0.
Proof. reflexivity. Qed.

Lemma nonce_inj i j : 0 <= i < 2 ^ 192 -> 0 <= j < 2 ^ 192 -> nonce i = nonce j -> i = j.
Proof.
  intros Hi Hj H. apply (f_equal be_decode) in H. rewrite !nonce_value, !Z.mod_small in H by lia. exact H.
Qed.

(* ---- loops ---- *)
Fixpoint iter_loop {St R} (k : nat) (step : Z -> St -> St + R) (i : Z) (st : St) : St + R :=
  match k with
  | O => inl st
  | S k => match step i st with
           | inl st => iter_loop k step (i + 1) st
           | inr r => inr r
           end
  end.

Lemma iter_loop_add {St R} (step : Z -> St -> St + R) a b : forall i st,
  iter_loop (a + b) step i st =
  match iter_loop a step i st with inl st => iter_loop b step (i + Z.of_nat a) st | inr r => inr r end.
Proof.
  induction a as [|a IH]; intros i st; cbn [iter_loop Nat.add].
  - rewrite Z.add_0_r. reflexivity.
  - destruct (step i st) as [st'|r]; [|reflexivity]. rewrite IH.
    replace (i + 1 + Z.of_nat a) with (i + Z.of_nat (S a)) by lia. reflexivity.
Qed.

Lemma for_pos_iter {St R} (step : Z -> St -> St + R) p : forall i st,
  for_pos p step i st = iter_loop (Pos.to_nat p) step i st.
Proof.
  induction p as [p IH|p IH|]; intros i st.
  - rewrite Pos2Nat.inj_xI. cbn [for_pos iter_loop]. destruct (step i st) as [st'|r]; [|reflexivity].
    replace (2 * Pos.to_nat p)%nat with (Pos.to_nat p + Pos.to_nat p)%nat by lia.
    rewrite iter_loop_add, IH, positive_nat_Z. destruct (iter_loop _ _ (i + 1) st'); [apply IH|reflexivity].
  - rewrite Pos2Nat.inj_xO. cbn [for_pos].
    replace (2 * Pos.to_nat p)%nat with (Pos.to_nat p + Pos.to_nat p)%nat by lia.
    rewrite iter_loop_add, IH, positive_nat_Z. destruct (iter_loop _ _ i st); [apply IH|reflexivity].
  - change (Pos.to_nat 1) with 1%nat. cbn [for_pos iter_loop]. destruct (step i st); reflexivity.
Qed.

Lemma for_loop_iter {St R} (step : Z -> St -> St + R) n st :
  for_loop n step st = iter_loop (Z.to_nat n) step 0 st.
Proof. destruct n as [|p|p]; cbn [for_loop Z.to_nat]; [reflexivity|apply for_pos_iter|reflexivity]. Qed.

(* ---- pieces of a message ---- *)
Lemma chunksFor_ceil n : 0 <= n -> chunksFor n = (n + 16384) / 16385.
Proof.
  intro Hn. unfold chunksFor, chunkSize. pose proof (Z.div_mod n 16385 ltac:(lia)) as D.
  pose proof (Z.mod_pos_bound n 16385 ltac:(lia)) as B.
  destruct (Z.eqb_spec (n mod 16385) 0) as [E|E]; cbn [negb];
    [apply (Z.div_unique _ _ _ 16384)|apply (Z.div_unique _ _ _ (n mod 16385 - 1))]; lia.
Qed.

Lemma full_pieces_count ms : full_pieces ms ->
  Z.of_nat (length ms) = (Z.of_nat (length (concat ms)) + 16384) / 16385.
Proof.
  induction ms as [|m ms IH]; intro H; [reflexivity|].
  cbn [full_pieces] in H. destruct H as [H1 H2]. cbn [concat length]. rewrite app_length.
  rewrite Nat2Z.inj_succ, Nat2Z.inj_add, (IH H2).
  destruct ms as [|m2 ms].
  - cbn [concat length]. change ((Z.of_nat 0 + 16384) / 16385) with 0.
    apply (Z.div_unique _ _ _ (Z.of_nat (length m) - 1)); lia.
  - rewrite H1. set (L := Z.of_nat (length (concat (m2 :: ms)))).
    replace (16385 + L + 16384) with (L + 16384 + 1 * 16385) by ring. rewrite Z.div_add by lia. lia.
Qed.

(* ---- file writes ---- *)
Definition no_faults (w : world) : Prop := w_faults w = [].

Lemma file_write_frame p b w n e w' : file_write p b w = ((n, e), w') ->
  exists q r, b = q ++ r /\ (e = None -> r = []) /\ w_fs w' = fs_append (w_fs w) p q /\
    w_log w' = w_log w ++ [EvAppend p q] /\ same_rest w w' /\
    (no_faults w -> e = None /\ no_faults w').
Proof.
  unfold file_write. rewrite pop_fault_eq. intro H. unfold no_faults.
  destruct (hd FOk (w_faults w)) as [|k|k] eqn:E.
  1, 3: apply pair_equal_spec in H; destruct H as [H <-]; apply pair_equal_spec in H; destruct H as [_ <-];
    exists b, []; rewrite app_nil_r; do 4 (split; [reflexivity|]); (split; [repeat split|]);
    intro F; cbn; rewrite F; auto.
  apply pair_equal_spec in H. destruct H as [H <-]. apply pair_equal_spec in H. destruct H as [_ <-].
  exists (firstn k b), (skipn k b). rewrite firstn_skipn. split; [reflexivity|]. split; [discriminate|].
  split; [reflexivity|]. split; [reflexivity|]. split; [repeat split|].
  intro F. rewrite F in E. discriminate.
Qed.

Lemma fs_append_nil fs p x : fs_append fs p [] x = fs x.
Proof.
  unfold fs_append. destruct (bytes_eqb x p) eqn:E; [|reflexivity]. apply bytes_eqb_eq in E. subst.
  destruct (fs p) as [[d m]|]; cbn; [rewrite app_nil_r|]; reflexivity.
Qed.
Lemma fs_append_app fs p a b x : fs_append (fs_append fs p a) p b x = fs_append fs p (a ++ b) x.
Proof.
  unfold fs_append. rewrite bytes_eqb_refl. destruct (bytes_eqb x p) eqn:E; [|reflexivity].
  destruct (fs p) as [[d m]|]; cbn; [rewrite app_assoc|]; reflexivity.
Qed.
Lemma fs_append_ext fs fs' p b : (forall x, fs' x = fs x) -> forall x, fs_append fs' p b x = fs_append fs p b x.
Proof. intros H x. unfold fs_append. rewrite !H. reflexivity. Qed.

Lemma run_calls_file p cs : forall w e w', run_calls (file_write p) cs w = (e, w') ->
  exists q r, concat cs = q ++ r /\ (e = None -> r = []) /\
    (forall x, w_fs w' x = fs_append (w_fs w) p q x) /\ same_rest w w' /\
    (no_faults w -> e = None /\ no_faults w').
Proof.
  induction cs as [|c cs IH]; intros w e w' H; cbn [run_calls concat] in *.
  - injection H as <- <-. exists [], []. split; [reflexivity|]. split; [reflexivity|].
    split; [intro x; rewrite fs_append_nil; reflexivity|]. split; [apply same_rest_refl|auto].
  - destruct (file_write p c w) as [[n [x|]] w1] eqn:E;
      destruct (file_write_frame _ _ _ _ _ _ E) as (q & r & -> & Hr & Hf & _ & Hs & Hn).
    + injection H as <- <-. exists q, (r ++ concat cs). rewrite app_assoc. split; [reflexivity|].
      split; [discriminate|]. split; [intro y; rewrite Hf; reflexivity|]. split; [exact Hs|exact Hn].
    + rewrite (Hr eq_refl), app_nil_r in *. destruct (IH _ _ _ H) as (q2 & r2 & -> & Hr2 & Hf2 & Hs2 & Hn2).
      exists (q ++ q2), r2. rewrite app_assoc. split; [reflexivity|]. split; [exact Hr2|].
      split; [|split; [eapply same_rest_trans; eassumption|intro F; apply Hn2, Hn, F]].
      intro y. rewrite Hf2, Hf. apply fs_append_app.
Qed.

(* reads that fill their buffer *)
Definition no_short (w : world) : Prop :=
  Forall (fun f => match f with FShort _ => False | _ => True end) (w_faults w).
Definition faults_after (w w' : world) : Prop := exists k, w_faults w' = skipn k (w_faults w).
Lemma faults_after_refl w : faults_after w w. Proof. exists 0%nat. reflexivity. Qed.
Lemma faults_after_next w w' : w_faults w' = tl (w_faults w) -> faults_after w w'.
Proof. intro H. exists 1%nat. rewrite H. destruct (w_faults w); reflexivity. Qed.
Lemma faults_after_trans a b c : faults_after a b -> faults_after b c -> faults_after a c.
Proof. intros (i & Hi) (j & Hj). exists (j + i)%nat. rewrite Hj, Hi, skipn_skipn. reflexivity. Qed.
Lemma no_short_after w w' : faults_after w w' -> no_short w -> no_short w'.
Proof.
  intros (k & Hk) H. unfold no_short in *. rewrite Hk. rewrite <- (firstn_skipn k (w_faults w)) in H.
  apply Forall_app in H. apply H.
Qed.
Lemma no_faults_short w : no_faults w -> no_short w.
Proof. unfold no_faults, no_short. intros ->. constructor. Qed.

Lemma file_write_faults p b w : faults_after w (snd (file_write p b w)).
Proof.
  apply faults_after_next. unfold file_write. rewrite pop_fault_eq.
  destruct (hd FOk (w_faults w)); reflexivity.
Qed.
Lemma run_calls_faults p cs : forall w, faults_after w (snd (run_calls (file_write p) cs w)).
Proof.
  induction cs as [|c cs IH]; intro w; [apply faults_after_refl|]. cbn [run_calls].
  pose proof (file_write_faults p c w) as H. destruct (file_write p c w) as [[n [x|]] w1]; [exact H|].
  eapply faults_after_trans; [exact H|apply IH].
Qed.
Lemma enc_write_faults p b e w : faults_after w (snd (snd (enc_write (file_write p) b (e, w)))).
Proof.
  unfold enc_write. cbn [fst snd]. destruct (enc_write_loop_plan (file_write p) b 0 e w) as (n1 & e1 & Hp). rewrite Hp.
  pose proof (run_calls_faults p (fst (enc_plan e b)) w) as H.
  destruct (run_calls (file_write p) (fst (enc_plan e b)) w) as [[x|] w1]; exact H.
Qed.

(* the encoder over a file: body is everything written to it so far *)
Definition enc_inv (p : path) (pre body : bytes) (mode : Z) (e : enc) (w : world) : Prop :=
  enc_ok e /\ enc_pending e = rest3 body /\
  col e = (length (StdEncode (full3 body)) mod 72)%nat /\
  w_fs w p = Some (File (pre ++ wrap72 0 (StdEncode (full3 body))) mode).

Lemma full3_app body b : full3 (body ++ b) = full3 body ++ full3 (rest3 body ++ b) /\
  rest3 (body ++ b) = rest3 (rest3 body ++ b).
Proof.
  rewrite <- (full3_rest3 body) at 1 4. rewrite <- !app_assoc.
  destruct (rest3_app (full3 body) (rest3 body ++ b) (full3_mod body)) as [-> ->]. auto.
Qed.

Lemma StdEncode_full_app a b : StdEncode (full3 a ++ b) = StdEncode (full3 a) ++ StdEncode b.
Proof. apply StdEncode_app, full3_mod. Qed.

Lemma enc_write_file p pre body mode e w b n er e' w' :
  enc_inv p pre body mode e w -> enc_write (file_write p) b (e, w) = ((n, er), (e', w')) ->
  (er = None -> enc_inv p pre (body ++ b) mode e' w') /\
  (forall x, x <> p -> w_fs w' x = w_fs w x) /\ same_rest w w' /\
  (no_faults w -> er = None /\ no_faults w').
Proof.
  intros (I1 & I2 & I3 & I4) H. unfold enc_write in H. cbn [fst snd] in H.
  destruct (enc_write_loop_plan (file_write p) b 0 e w) as (n1 & e1 & Hp). rewrite H in Hp. clear H.
  destruct (enc_plan_spec b e I1) as (P1 & P2 & P3 & P4).
  destruct (run_calls (file_write p) (fst (enc_plan e b)) w) as [er1 w1] eqn:R.
  destruct (run_calls_file _ _ _ _ _ R) as (q & r & Eq & Hr & Hf & Hs & Hn).
  assert (er = er1 /\ w' = w1 /\ (er = None -> e' = snd (enc_plan e b))) as (-> & -> & He).
  { destruct er1; injection Hp as -> -> -> ->; auto. split; [reflexivity|]. split; [reflexivity|discriminate]. }
  split; [|split; [|split; [exact Hs|exact Hn]]].
  - intro E. rewrite (Hr E), app_nil_r in Eq. rewrite (He E).
    destruct (full3_app body b) as [F1 F2]. unfold enc_inv. rewrite I2 in P1, P2, P4.
    split; [exact P3|]. split; [rewrite F2; exact P2|].
    rewrite F1, StdEncode_full_app, app_length. split.
    + rewrite P4, I3. rewrite Nat.add_mod_idemp_l by lia. reflexivity.
    + rewrite Hf, fs_append_same, I4. cbn [f_data f_mode]. rewrite <- Eq, P1, <- app_assoc. do 3 f_equal.
      rewrite wrap72_app by lia. f_equal. rewrite I3. f_equal.
  - intros x Hx. rewrite Hf, fs_append_other by exact Hx. reflexivity.
Qed.

Lemma enc_close_file p pre body mode e w er e' w' :
  enc_inv p pre body mode e w -> enc_close (file_write p) (e, w) = (er, (e', w')) ->
  (exists q r, w_fs w' p = Some (File (pre ++ q) mode) /\ spec_encoded body = q ++ r /\ (er = None -> r = []) /\
     (length r <= 5)%nat) /\
  (forall x, x <> p -> w_fs w' x = w_fs w x) /\ same_rest w w' /\
  (no_faults w -> er = None /\ no_faults w').
Proof.
  intros (I1 & I2 & I3 & I4) H.
  destruct (enc_close_plan (file_write p) e w) as (e1 & Hp). rewrite H in Hp. clear H.
  destruct (run_calls (file_write p) (close_plan e) w) as [er1 w1] eqn:R.
  destruct (run_calls_file _ _ _ _ _ R) as (q & r & Eq & Hr & Hf & Hs & Hn).
  assert (er = er1 /\ w' = w1) as [-> ->] by (destruct er1; injection Hp as -> -> ->; auto).
  rewrite (close_plan_spec e I1), I2 in Eq.
  split; [|split; [|split; [exact Hs|exact Hn]]].
  - exists (wrap72 0 (StdEncode (full3 body)) ++ q), r.
    rewrite Hf, fs_append_same, I4. cbn [f_data f_mode]. rewrite <- app_assoc. split; [reflexivity|].
    split; [rewrite spec_encoded_wrapped; unfold wrapped; rewrite Eq, app_assoc; reflexivity|].
    split; [exact Hr|]. apply (f_equal (@length byte)) in Eq. rewrite !app_length, StdEncode_length in Eq.
    cbn [length] in Eq. pose proof (rest3_lt body).
    assert ((length (rest3 body) + 2) / 3 < 2)%nat by (apply Nat.div_lt_upper_bound; lia). lia.
  - intros x Hx. rewrite Hf, fs_append_other by exact Hx. reflexivity.
Qed.

(* ---- reading through a handle ---- *)
Definition handle (w : world) (fd : nat) (p : path) (off : nat) : Prop := nth_error (w_fds w) fd = Some (p, off).

Lemma nth_error_set_nth {A} n (x y : A) l : nth_error l n = Some y -> nth_error (set_nth n x l) n = Some x.
Proof. revert l; induction n as [|n IH]; intros [|z l] H; cbn in *; try discriminate; [reflexivity|]. apply IH, H. Qed.

(* files, random bytes, terminal, buffers and log are the same *)
Definition only_reads (w w' : world) : Prop :=
  w_fs w' = w_fs w /\ w_rng w' = w_rng w /\ w_tty w' = w_tty w /\ w_bufs w' = w_bufs w /\ w_log w' = w_log w.
Lemma only_reads_refl w : only_reads w w. Proof. repeat split. Qed.
Lemma only_reads_trans a b c : only_reads a b -> only_reads b c -> only_reads a c.
Proof. unfold only_reads. intuition congruence. Qed.

Lemma file_read_spec fd p off d mo n w : handle w fd p off -> w_fs w p = Some (File d mo) -> (0 < n)%nat ->
  exists r w', file_read fd n w = (r, w') /\ only_reads w w' /\
    (no_faults w -> no_faults w') /\
    ((exists got, r = RRet got None /\ got <> [] /\ (length got <= n)%nat /\
        handle w' fd p (off + length got) /\ exists rest, skipn off d = got ++ rest /\
        (no_faults w \/ n = 1%nat -> got = firstn n (skipn off d))) \/
     (r = RRet [] (Some EOF) /\ skipn off d = [] /\ handle w' fd p off) \/
     (r = RRet [] (Some EFault) /\ ~ no_faults w)).
Proof.
  intros Hh Hf Hn. unfold file_read. rewrite pop_fault_eq. change (w_fds (next w)) with (w_fds w).
  change (w_fs (next w)) with (w_fs w). unfold handle in Hh.
  assert (N : only_reads w (next w)) by (repeat split).
  assert (F : no_faults w -> no_faults (next w)) by (unfold no_faults, next; intro E; cbn; rewrite E; reflexivity).
  destruct (hd FOk (w_faults w)) as [|k|k] eqn:E.
  2:{ eexists. eexists. split; [reflexivity|]. split; [exact N|]. split; [exact F|]. right. right.
      split; [reflexivity|]. unfold no_faults. intro F0. rewrite F0 in E. discriminate. }
  - rewrite Hh, Hf. cbn [f_data]. destruct n as [|n]; [lia|].
    destruct (firstn (S n) (skipn off d)) as [|g got] eqn:G.
    + eexists. eexists. split; [reflexivity|]. split; [exact N|]. split; [exact F|]. right. left.
      split; [reflexivity|]. split; [destruct (skipn off d); [reflexivity|discriminate]|exact Hh].
    + eexists. eexists. split; [reflexivity|]. split; [repeat split|]. split; [exact F|]. left.
      exists (g :: got). split; [reflexivity|]. split; [discriminate|].
      split; [rewrite <- G, firstn_length; lia|]. split; [eapply nth_error_set_nth; exact Hh|].
      exists (skipn (S n) (skipn off d)). rewrite <- G, firstn_skipn. auto.
  - rewrite Hh, Hf. cbn [f_data]. destruct n as [|n]; [lia|].
    destruct (firstn (Nat.min (S n) (S k)) (skipn off d)) as [|g got] eqn:G.
    + eexists. eexists. split; [reflexivity|]. split; [exact N|]. split; [exact F|]. right. left.
      split; [reflexivity|]. split; [destruct (skipn off d); [reflexivity|discriminate]|exact Hh].
    + eexists. eexists. split; [reflexivity|]. split; [repeat split|]. split; [exact F|]. left.
      exists (g :: got). split; [reflexivity|]. split; [discriminate|].
      split; [rewrite <- G, firstn_length; lia|]. split; [eapply nth_error_set_nth; exact Hh|].
      exists (skipn (Nat.min (S n) (S k)) (skipn off d)). rewrite <- G, firstn_skipn. split; [reflexivity|].
      intros [F0|E1]; [unfold no_faults in F0; rewrite F0 in E; discriminate|].
      injection E1 as ->. reflexivity.
Qed.

Lemma file_read_faults fd n w : faults_after w (snd (file_read fd n w)).
Proof.
  apply faults_after_next. unfold file_read. rewrite pop_fault_eq. change (w_fds (next w)) with (w_fds w).
  destruct (hd FOk (w_faults w)); [|reflexivity|]; destruct (nth_error (w_fds w) fd) as [[p off]|]; try reflexivity;
    destruct n; try reflexivity; destruct (firstn _ _); reflexivity.
Qed.
Lemma file_read_full fd p off d mo n w got w' : handle w fd p off -> w_fs w p = Some (File d mo) -> no_short w ->
  file_read fd n w = (RRet got None, w') -> got = firstn n (skipn off d).
Proof.
  intros Hh Hf Hs H. unfold file_read in H. rewrite pop_fault_eq in H. change (w_fds (next w)) with (w_fds w) in H.
  change (w_fs (next w)) with (w_fs w) in H. unfold handle in Hh. rewrite Hh, Hf in H. cbn [f_data] in H.
  destruct (hd FOk (w_faults w)) as [|k|k] eqn:E; [|discriminate|].
  - destruct n as [|n]; [injection H as <- _; reflexivity|].
    destruct (firstn (S n) (skipn off d)); [discriminate|]. injection H as <- _. reflexivity.
  - exfalso. unfold no_short in Hs. destruct (w_faults w); [discriminate|]. cbn in E. subst f. inversion Hs. contradiction.
Qed.

(* ---- the loop of seal ---- *)
Definition seal_frame (p : path) (w w' : world) : Prop :=
  (forall x, x <> p -> w_fs w' x = w_fs w x) /\
  w_rng w' = w_rng w /\ w_tty w' = w_tty w /\ w_bufs w' = w_bufs w.
Lemma seal_frame_refl p w : seal_frame p w w. Proof. repeat split. Qed.
Lemma seal_frame_trans p a b c : seal_frame p a b -> seal_frame p b c -> seal_frame p a c.
Proof.
  intros (A1 & A2 & A3 & A4) (B1 & B2 & B3 & B4). split; [|repeat split; congruence].
  intros x Hx. rewrite B1, A1 by exact Hx. reflexivity.
Qed.
Lemma only_reads_frame p w w' : only_reads w w' -> seal_frame p w w'.
Proof. intros (A1 & A2 & A3 & A4 & A5). split; [intros; rewrite A1; reflexivity|auto]. Qed.
Lemma same_rest_frame p w w' : (forall x, x <> p -> w_fs w' x = w_fs w x) -> same_rest w w' -> seal_frame p w w'.
Proof. intros H (A1 & A2 & A3 & A4). split; [exact H|auto]. Qed.

Lemma enc_inv_reads p pre body mode e w w' : only_reads w w' -> enc_inv p pre body mode e w -> enc_inv p pre body mode e w'.
Proof. intros (A1 & _) (I1 & I2 & I3 & I4). unfold enc_inv. rewrite A1. auto. Qed.

Definition small_pieces (ms : list bytes) : Prop := Forall (fun x => 1 <= Z.of_nat (length x) <= 16385) ms.

Section SealLoop.
Variables (C : Crypto) (shared : bytes) (fd : nat) (mp ep : path) (m : bytes) (mm : Z) (pre : bytes) (mode : Z).
Hypothesis Hne : mp <> ep.

Notation step := (seal_step C (enc * world) shared (lift_reader (file_read fd)) (enc_write (file_write ep))).

Definition final_world {A R} (r : (A * (enc * world)) + (R * (enc * world))) : world :=
  match r with inl x => snd (snd x) | inr x => snd (snd x) end.

Lemma chunk_nat_pos : (0 < chunk_nat)%nat.
Proof. unfold chunk_nat, chunkSize. lia. Qed.

(* one turn of the loop *)
Lemma seal_step_spec i off body e w :
  0 <= i < 2 ^ 192 - 1 -> handle w fd mp off -> w_fs w mp = Some (File m mm) ->
  enc_inv ep pre body mode e w ->
  let r := step i (nonce i, (e, w)) in
  seal_frame ep w (final_world r) /\ (no_faults w -> no_faults (final_world r)) /\
  faults_after w (final_world r) /\
  match r with
  | inr (x, _) => x <> Ok tt /\ (no_faults w -> skipn off m = [])
  | inl (n, (e', w')) => n = nonce (i + 1) /\
      exists c rest, skipn off m = c ++ rest /\ 1 <= Z.of_nat (length c) <= 16385 /\
        (no_short w -> c = firstn chunk_nat (skipn off m)) /\
        handle w' fd mp (off + length c) /\ w_fs w' mp = Some (File m mm) /\
        enc_inv ep pre (body ++ box_seal C c (nonce i) shared) mode e' w'
  end.
Proof.
  intros Hi Hh Hf HI r. subst r. unfold seal_step, lift_reader. cbn [fst snd].
  pose proof (file_read_faults fd chunk_nat w) as FA1.
  pose proof (fun got w' => file_read_full fd mp off m mm chunk_nat w got w' Hh Hf) as FU.
  destruct (file_read_spec fd mp off m mm chunk_nat w Hh Hf chunk_nat_pos) as (rr & w1 & E & Hro & Hn1 & Hc).
  rewrite E in FA1, FU |- *. cbn [snd] in FA1. destruct Hc as [(got & -> & Hg & Hl & Hh1 & rest & Hs & Hex)|[(-> & Hs & Hh1)|(-> & Hfa)]].
  - pose proof (enc_inv_reads _ _ _ _ _ _ _ Hro HI) as HI1.
    pose proof (enc_write_faults ep (box_seal C got (nonce i) shared) e w1) as FA2.
    destruct (enc_write (file_write ep) (box_seal C got (nonce i) shared) (e, w1)) as [[n er] [e2 w2]] eqn:Ew.
    cbn [snd] in FA2. pose proof (faults_after_trans _ _ _ FA1 FA2) as FA.
    destruct (enc_write_file _ _ _ _ _ _ _ _ _ _ _ HI1 Ew) as (J1 & J2 & J3 & J4).
    pose proof (seal_frame_trans ep _ _ _ (only_reads_frame ep _ _ Hro) (same_rest_frame ep _ _ J2 J3)) as FR.
    destruct er as [er|].
    + cbn [final_world snd]. split; [exact FR|]. split; [intro F; apply J4, Hn1, F|]. split; [exact FA|].
      split; [discriminate|]. intro F. destruct (J4 (Hn1 F)) as [? _]. discriminate.
    + rewrite incrementNonce_nonce by exact Hi. cbn [final_world snd].
      split; [exact FR|]. split; [intro F; apply J4, Hn1, F|]. split; [exact FA|]. split; [reflexivity|].
      exists got, rest. split; [exact Hs|]. split.
      { unfold chunk_nat, chunkSize in Hl. destruct got; [contradiction Hg; reflexivity|]. cbn [length] in *. lia. }
      split; [intro F; exact (FU got w1 F eq_refl)|].
      destruct J3 as (_ & _ & _ & J3). split; [unfold handle; rewrite J3; exact Hh1|].
      split; [rewrite J2 by exact Hne; destruct Hro as (-> & _); exact Hf|]. apply J1. reflexivity.
  - cbn [final_world snd]. split; [apply only_reads_frame, Hro|]. split; [exact Hn1|]. split; [exact FA1|].
    split; [discriminate|]. intros _. exact Hs.
  - cbn [final_world snd]. split; [apply only_reads_frame, Hro|]. split; [exact Hn1|]. split; [exact FA1|].
    split; [discriminate|]. intro F. contradiction.
Qed.

Lemma boxes_cons_app i c ms body :
  body ++ boxes C shared i (c :: ms) = (body ++ box_seal C c (nonce i) shared) ++ boxes C shared (i + 1) ms.
Proof. cbn [boxes]. rewrite app_assoc. reflexivity. Qed.

Lemma skipn_full_read (c l : bytes) n : c = firstn n l -> skipn (length c) l = skipn n l.
Proof.
  intros ->. rewrite firstn_length. destruct (Nat.le_gt_cases n (length l)) as [H|H].
  - rewrite Nat.min_l by exact H. reflexivity.
  - rewrite Nat.min_r by lia. rewrite !skipn_all2 by lia. reflexivity.
Qed.

Lemma seal_loop_spec k : forall i off body e w,
  0 <= i -> i + Z.of_nat k < 2 ^ 192 -> handle w fd mp off -> w_fs w mp = Some (File m mm) ->
  enc_inv ep pre body mode e w ->
  let r := iter_loop k step i (nonce i, (e, w)) in
  seal_frame ep w (final_world r) /\ (no_faults w -> no_faults (final_world r)) /\
  match r with
  | inr (x, _) => x <> Ok tt
  | inl (n, (e', w')) => 
      exists (ms : list bytes) rest, length ms = k /\ skipn off m = concat ms ++ rest /\ small_pieces ms /\
        (no_short w -> ms = cut (repeat chunk_nat k) (skipn off m)) /\
        enc_inv ep pre (body ++ boxes C shared i ms) mode e' w'
  end.
Proof.
  induction k as [|k IH]; intros i off body e w Hi Hk Hh Hf HI r; subst r; cbn [iter_loop].
  - split; [apply seal_frame_refl|]. split; [auto|]. exists [], (skipn off m).
    split; [reflexivity|]. split; [reflexivity|]. split; [constructor|]. split; [reflexivity|]. cbn [boxes]. rewrite app_nil_r. exact HI.
  - destruct (seal_step_spec i off body e w ltac:(lia) Hh Hf HI) as (S1 & S2 & SF & S3).
    destruct (step i (nonce i, (e, w))) as [[n [e1 w1]]|[x s1]].
    + destruct S3 as (-> & c & rest & Hs & Hc & Hfull & Hh1 & Hf1 & HI1). cbn [final_world snd] in SF.
      destruct (IH (i + 1) (off + length c)%nat _ e1 w1 ltac:(lia) ltac:(lia) Hh1 Hf1 HI1) as (T1 & T2 & T3).
      split; [eapply seal_frame_trans; [exact S1|exact T1]|]. split; [auto|].
      destruct (iter_loop k step (i + 1) (nonce (i + 1), (e1, w1))) as [[n2 [e2 w2]]|[x s2]]; [|exact T3].
      destruct T3 as (ms & rest2 & L & Hs2 & Hsm & Hcut & HI2). exists (c :: ms), rest2.
      split; [cbn; rewrite L; reflexivity|]. split.
      { assert (rest = concat ms ++ rest2).
        { rewrite <- Hs2, Nat.add_comm, <- skipn_skipn, Hs. rewrite skipn_app, skipn_all, Nat.sub_diag. reflexivity. }
        rewrite Hs, H. cbn [concat]. rewrite app_assoc. reflexivity. }
      split; [constructor; assumption|]. split; [|rewrite boxes_cons_app; exact HI2].
      intro F. cbn [repeat cut]. rewrite <- (Hfull F), (Hcut (no_short_after _ _ SF F)) at 1. f_equal. f_equal.
      rewrite Nat.add_comm, <- skipn_skipn. apply skipn_full_read with (n := chunk_nat); [exact (Hfull F)].
    + split; [exact S1|]. split; [exact S2|]. apply S3.
Qed.

(* without disturbances *)
Lemma seal_loop_ok ms : forall i off body e w,
  0 <= i -> i + Z.of_nat (length ms) < 2 ^ 192 -> handle w fd mp off -> w_fs w mp = Some (File m mm) ->
  enc_inv ep pre body mode e w -> no_faults w -> full_pieces ms -> skipn off m = concat ms ->
  exists n e' w', iter_loop (length ms) step i (nonce i, (e, w)) = inl (n, (e', w')) /\
    enc_inv ep pre (body ++ boxes C shared i ms) mode e' w' /\ no_faults w' /\ seal_frame ep w w'.
Proof.
  induction ms as [|c ms IH]; intros i off body e w Hi Hk Hh Hf HI Hn Hfp Hs; cbn [length iter_loop].
  - exists (nonce i), e, w. split; [reflexivity|]. cbn [boxes]. rewrite app_nil_r.
    split; [exact HI|]. split; [exact Hn|apply seal_frame_refl].
  - cbn [full_pieces] in Hfp. destruct Hfp as [Hc Hfp].
    assert (Hnz : 1 <= Z.of_nat (length c) <= 16385) by (destruct ms; lia).
    cbn [length] in Hk.
    destruct (seal_step_spec i off body e w ltac:(lia) Hh Hf HI) as (S1 & S2 & _ & S3).
    destruct (step i (nonce i, (e, w))) as [[n [e1 w1]]|[x s1]].
    + destruct S3 as (-> & c' & rest & Hs1 & Hc' & Hex & Hh1 & Hf1 & HI1).
      assert (c' = c /\ rest = concat ms) as [-> ->].
      { specialize (Hex (no_faults_short _ Hn)). rewrite Hs in Hex. cbn [concat] in Hex, Hs.
        assert (c' = c).
        { rewrite Hex. destruct ms as [|c2 ms].
          - cbn [concat]. rewrite app_nil_r. apply firstn_all2. unfold chunk_nat, chunkSize. lia.
          - rewrite firstn_app. replace (chunk_nat - length c)%nat with 0%nat by (unfold chunk_nat, chunkSize; lia).
            cbn [firstn]. rewrite app_nil_r. apply firstn_all2. unfold chunk_nat, chunkSize. lia. }
        split; [assumption|]. clear Hex. subst c'. rewrite Hs in Hs1. apply app_inv_head in Hs1. symmetry. exact Hs1. }
      destruct (IH (i + 1) (off + length c)%nat _ e1 w1 ltac:(lia) ltac:(lia) Hh1 Hf1 HI1 (S2 Hn) Hfp) as (n2 & e2 & w2 & E2 & I2 & N2 & F2).
      { rewrite Nat.add_comm, <- skipn_skipn, Hs1. rewrite skipn_app, skipn_all, Nat.sub_diag. reflexivity. }
      exists n2, e2, w2. split; [exact E2|]. split; [rewrite boxes_cons_app; exact I2|]. split; [exact N2|].
      eapply seal_frame_trans; [exact S1|exact F2].
    + exfalso. destruct S3 as [_ S3]. specialize (S3 Hn). rewrite Hs in S3. cbn [concat] in S3.
      destruct c; [cbn in Hnz; lia|discriminate].
Qed.
End SealLoop.

Lemma pieces_exist m : exists ms, full_pieces ms /\ concat ms = m.
Proof.
  remember (length m) as n eqn:E. assert (H : (length m <= n)%nat) by lia. clear E. revert m H.
  induction n as [n IH] using lt_wf_ind. intros m H. destruct m as [|b m]; [exists []; split; [exact I|reflexivity]|].
  destruct (Nat.le_gt_cases (length (b :: m)) chunk_nat) as [L|L].
  - exists [b :: m]. split; [|cbn; rewrite app_nil_r; reflexivity]. cbn [full_pieces]. split; [|exact I].
    unfold chunk_nat, chunkSize in L. cbn [length] in *. lia.
  - assert (Lt : (length (skipn chunk_nat (b :: m)) < length (b :: m))%nat) by (rewrite skipn_length; pose proof chunk_nat_pos; cbn [length] in *; lia).
    destruct (IH (length (skipn chunk_nat (b :: m))) ltac:(lia) (skipn chunk_nat (b :: m)) ltac:(lia)) as (ms & H1 & H2).
    exists (firstn chunk_nat (b :: m) :: ms). split; [|cbn [concat]; rewrite H2; apply firstn_skipn].
    cbn [full_pieces]. split; [|exact H1]. rewrite firstn_length_le by lia. unfold chunk_nat, chunkSize in *.
    destruct ms; [exfalso; cbn in H2; apply (f_equal (@length byte)) in H2; rewrite skipn_length in H2; cbn [length] in *; lia|lia].
Qed.

Lemma cut_full_pieces ms : full_pieces ms -> cut (repeat chunk_nat (length ms)) (concat ms) = ms.
Proof.
  induction ms as [|m ms IH]; intro H; [reflexivity|]. cbn [full_pieces] in H. destruct H as [Hm H].
  cbn [length repeat cut concat]. destruct ms as [|m2 ms].
  - cbn [concat]. rewrite app_nil_r, firstn_all2 by (unfold chunk_nat, chunkSize; lia). reflexivity.
  - assert (L : length m = chunk_nat) by (unfold chunk_nat, chunkSize; lia).
    rewrite firstn_app, skipn_app, <- L, firstn_all, skipn_all, Nat.sub_diag. cbn [firstn skipn app]. rewrite app_nil_r, L.
    f_equal. apply IH, H.
Qed.

(* ---- the calls before the loop ---- *)
Lemma no_faults_next w : no_faults w -> no_faults (next w).
Proof. unfold no_faults, next. intro E. cbn. rewrite E. reflexivity. Qed.
Lemma only_reads_next w : only_reads w (next w). Proof. repeat split. Qed.

Lemma open_read_spec p w : exists r w', open_read p w = (r, w') /\ only_reads w w' /\
  (no_faults w -> no_faults w') /\
  ((exists d, r = Ok (length (w_fds w)) /\ contents w p d /\ handle w' (length (w_fds w)) p 0) \/
   (exists e, r = Err e /\ (no_faults w -> w_fs w p = None))).
Proof.
  unfold open_read. rewrite pop_fault_eq. change (w_fs (next w)) with (w_fs w). change (w_fds (next w)) with (w_fds w).
  destruct (hd FOk (w_faults w)) as [|k|k] eqn:E.
  2:{ do 2 eexists. split; [reflexivity|]. split; [apply only_reads_next|]. split; [apply no_faults_next|]. right.
      eexists. split; [reflexivity|]. unfold no_faults. intro F. rewrite F in E. discriminate. }
  all: destruct (w_fs w p) as [[d mo]|] eqn:Ef; do 2 eexists; (split; [reflexivity|]); (split; [repeat split|]);
    (split; [apply no_faults_next|]).
  1, 3: left; exists d; split; [reflexivity|]; split; [exists mo; exact Ef|]; unfold handle; cbn; apply nth_error_last.
  all: right; eexists; split; [reflexivity|]; intros _; reflexivity.
Qed.

Lemma file_size_spec fd p off d mo w : handle w fd p off -> w_fs w p = Some (File d mo) ->
  exists r w', file_size fd w = (r, w') /\ only_reads w w' /\ (no_faults w -> no_faults w') /\
  w_fds w' = w_fds w /\
  (r = Ok (Z.of_nat (length d)) \/ (exists e, r = Err e /\ ~ no_faults w)).
Proof.
  intros Hh Hf. unfold file_size. rewrite pop_fault_eq. change (w_fs (next w)) with (w_fs w). change (w_fds (next w)) with (w_fds w).
  unfold handle in Hh. rewrite Hh, Hf. destruct (hd FOk (w_faults w)) as [|k|k] eqn:E.
  2:{ do 2 eexists. split; [reflexivity|]. split; [apply only_reads_next|]. split; [apply no_faults_next|].
      split; [reflexivity|]. right. eexists. split; [reflexivity|]. unfold no_faults. intro F. rewrite F in E. discriminate. }
  all: do 2 eexists; (split; [reflexivity|]); (split; [apply only_reads_next|]); (split; [apply no_faults_next|]);
    split; [reflexivity|left; reflexivity].
Qed.

Lemma open_read_faults p w : faults_after w (snd (open_read p w)).
Proof.
  apply faults_after_next. unfold open_read. rewrite pop_fault_eq. change (w_fs (next w)) with (w_fs w).
  destruct (hd FOk (w_faults w)); [|reflexivity|]; destruct (w_fs w p); reflexivity.
Qed.
Lemma file_size_faults fd w : faults_after w (snd (file_size fd w)).
Proof.
  apply faults_after_next. unfold file_size. rewrite pop_fault_eq. change (w_fs (next w)) with (w_fs w). change (w_fds (next w)) with (w_fds w).
  destruct (hd FOk (w_faults w)); [|reflexivity|]; destruct (nth_error (w_fds w) fd) as [[p off]|]; try reflexivity; destruct (w_fs w p); reflexivity.
Qed.

Lemma create_file_spec p mode w : exists r w', create_file p mode w = (r, w') /\ (no_faults w -> no_faults w') /\
  ((r = Ok tt /\ w' = do_create p mode (next w) /\ p <> []) \/
   (exists e, r = Err e /\ w' = next w /\ (no_faults w -> p = []))).
Proof.
  unfold create_file. rewrite pop_fault_eq. destruct (hd FOk (w_faults w)) as [|k|k] eqn:E.
  2:{ do 2 eexists. split; [reflexivity|]. split; [apply no_faults_next|]. right. eexists. split; [reflexivity|].
      split; [reflexivity|]. unfold no_faults. intro F. rewrite F in E. discriminate. }
  all: destruct p; do 2 eexists; (split; [reflexivity|]); (split; [apply no_faults_next|]).
  1, 3: right; eexists; split; [reflexivity|]; auto.
  all: left; split; [reflexivity|]; split; [reflexivity|discriminate].
Qed.

(* ---- Seal ---- *)
Definition seal_tail (C : Crypto) (fd : nat) (pub : Public) (L : Z) (q : path) (w : world) : res unit * world :=
  match file_write q comment_text w with
  | ((_, Some e), w) => (Err e, w)
  | ((_, None), w) =>
      let '(r, es) := seal C (enc * world) lift_draw pub (lift_reader (file_read fd)) L
                           (enc_write (file_write q)) (NewEncoder, w) in
      let '(_, es) := enc_close (file_write q) es in
      (r, snd es)
  end.

Lemma enc_path_eq mp ep : match ep with [] => mp ++ str ".enc" | _ => ep end = enc_path mp ep.
Proof. destruct ep; reflexivity. Qed.

Lemma Seal_eq C pk mp ep w : Seal C pk mp ep w =
  match LoadPublicKey pk w with
  | (Ok pub, w) =>
    match open_read mp w with
    | (Ok fd, w) =>
      match file_size fd w with
      | (Ok L, w) =>
        match create_file (enc_path mp ep) 438 w with
        | (Ok _, w) => seal_tail C fd pub L (enc_path mp ep) w
        | (Err e, w) => (Err e, w)
        | (Panic, w) => (Panic, w)
        end
      | (Err e, w) => (Err e, w)
      | (Panic, w) => (Panic, w)
      end
    | (Err e, w) => (Err e, w)
    | (Panic, w) => (Panic, w)
    end
  | (Err e, w) => (Err e, w)
  | (Panic, w) => (Panic, w)
  end.
Proof. rewrite <- enc_path_eq. reflexivity. Qed.

(* what was sealed, if seal returns nil *)
Definition sealed_pieces (C : Crypto) (pub : Public) (rng m body : bytes) (filled : Prop) : Prop :=
  (m = [] /\ body = []) \/
  (m <> [] /\ exists edpub ms, pub_ToBox pub = Ok edpub /\ (32 <= length rng)%nat /\
     Z.of_nat (length ms) = (Z.of_nat (length m) + 16384) / 16385 /\
     small_pieces ms /\ is_prefix (concat ms) m /\ (filled -> full_pieces ms /\ concat ms = m) /\
     body = sealed_body C (box_precompute C edpub (firstn 32 rng)) (x25519_base C (firstn 32 rng)) ms).

Lemma sealed_pieces_weaken C pub rng m body (f1 f2 : Prop) : (f2 -> f1) ->
  sealed_pieces C pub rng m body f1 -> sealed_pieces C pub rng m body f2.
Proof.
  intros Hw [H|(Hm & edpub & ms & A1 & A2 & A3 & A4 & A5 & A6 & A7)]; [left; exact H|right].
  split; [exact Hm|]. exists edpub, ms. do 5 (split; [assumption|]). split; [auto|exact A7].
Qed.

Definition tail_frame (q : path) (w w' : world) : Prop :=
  (forall x, x <> q -> w_fs w' x = w_fs w x) /\ w_tty w' = w_tty w /\ w_bufs w' = w_bufs w.
Lemma tail_frame_trans q a b c : tail_frame q a b -> tail_frame q b c -> tail_frame q a c.
Proof.
  intros (A1 & A2 & A3) (B1 & B2 & B3). split; [|split; congruence]. intros x Hx. rewrite B1, A1 by exact Hx. reflexivity.
Qed.
Lemma seal_tail_frame q w w' : seal_frame q w w' -> tail_frame q w w'.
Proof. intros (A1 & A2 & A3 & A4). split; auto. Qed.

Lemma lift_draw_eq (e : enc) w : lift_draw 32 (e, w) =
  if (length (w_rng w) <? 32)%nat then (Err ERand, (e, w))
  else (Ok (firstn 32 (w_rng w)), (e, set_rng w (skipn 32 (w_rng w)))).
Proof. unfold lift_draw, rand_read. cbn [fst snd]. destruct (_ <? _)%nat; reflexivity. Qed.

Lemma enc_inv_rng p pre body mode e w g : enc_inv p pre body mode e w -> enc_inv p pre body mode e (set_rng w g).
Proof. exact (fun H => H). Qed.

Lemma sealHeader_eq C n epub shared : sealHeader C n epub shared = sealed_header C shared epub n.
Proof. reflexivity. Qed.

Lemma ceil_pos n : 0 < n -> 0 < (n + 16384) / 16385.
Proof. intro H. apply Z.div_str_pos. lia. Qed.
Lemma ceil_bound n : 0 <= n < 2 ^ 63 -> 0 <= (n + 16384) / 16385 < 2 ^ 63.
Proof.
  intro H. split; [apply Z.div_pos; lia|]. apply Z.div_lt_upper_bound; lia.
Qed.

Lemma seal_file_spec C fd pub mp q m mm mode e w pre r e' w' :
  mp <> q -> handle w fd mp 0 -> w_fs w mp = Some (File m mm) -> Z.of_nat (length m) < 2 ^ 63 ->
  enc_inv q pre [] mode e w ->
  seal C (enc * world) lift_draw pub (lift_reader (file_read fd)) (Z.of_nat (length m))
       (enc_write (file_write q)) (e, w) = (r, (e', w')) ->
  tail_frame q w w' /\ (no_faults w -> no_faults w') /\
  (r = Ok tt -> exists body, sealed_pieces C pub (w_rng w) m body (no_short w) /\ enc_inv q pre body mode e' w').
Proof.
  intros Hne Hh Hf Hlen HI H. unfold seal in H.
  destruct (Z.eqb_spec (Z.of_nat (length m)) 0) as [E0|E0].
  { injection H as <- <- <-. split; [split; auto|]. split; [auto|]. intros _. exists []. split; [|exact HI].
    left. destruct m; [auto|cbn in E0; lia]. }
  assert (Hm : m <> []) by (intros ->; apply E0; reflexivity).
  destruct (pub_ToBox pub) as [edpub|er|] eqn:ET.
  2, 3: injection H as <- <- <-; (split; [split; auto|]); (split; [auto|]); discriminate.
  rewrite lift_draw_eq in H. destruct (Nat.ltb_spec (length (w_rng w)) 32) as [Lr|Lr].
  { injection H as <- <- <-; (split; [split; auto|]); (split; [auto|]); discriminate. }
  set (epriv := firstn 32 (w_rng w)) in *. cbv zeta in H.
  set (epub := x25519_base C epriv) in *. set (shared := box_precompute C edpub epriv) in *.
  set (w1 := set_rng w (skipn 32 (w_rng w))) in *.
  rewrite (chunksFor_ceil (Z.of_nat (length m))) in H by lia.
  set (n := (Z.of_nat (length m) + 16384) / 16385) in *.
  assert (Hn : 0 < n < 2 ^ 63) by (split; [apply ceil_pos|apply ceil_bound]; lia).
  destruct (enc_write (file_write q) (sealHeader C n epub shared) (e, w1)) as [[k er] [e2 w2]] eqn:Ew.
  pose proof (enc_inv_rng _ _ _ _ _ _ (skipn 32 (w_rng w)) HI) as HI1. fold w1 in HI1.
  pose proof (enc_write_faults q (sealHeader C n epub shared) e w1) as FA. rewrite Ew in FA. cbn [snd] in FA.
  destruct (enc_write_file _ _ _ _ _ _ _ _ _ _ _ HI1 Ew) as (J1 & J2 & J3 & J4).
  assert (FR : tail_frame q w w2).
  { apply (seal_tail_frame q w1 w2), same_rest_frame; assumption. }
  destruct er as [er|].
  { injection H as <- <- <-. split; [exact FR|]. split; [intro F; apply J4, F|discriminate]. }
  specialize (J1 eq_refl). rewrite app_nil_l in J1. rewrite for_loop_iter, zeroNonce_eq in H.
  pose proof J3 as (_ & _ & _ & J3d).
  destruct (seal_loop_spec C shared fd mp q m mm pre mode Hne (Z.to_nat n) 0 0%nat _ e2 w2 ltac:(lia) ltac:(lia)
     ltac:(unfold handle; rewrite J3d; exact Hh) ltac:(rewrite J2 by exact Hne; exact Hf) J1) as (T1 & T2 & T3).
  destruct (iter_loop (Z.to_nat n) _ 0 (nonce 0, (e2, w2))) as [[n2 [e3 w3]]|[x [e3 w3]]]; cbn [final_world snd] in *.
  - injection H as <- <- <-. split; [eapply tail_frame_trans; [exact FR|apply seal_tail_frame, T1]|].
    split; [intro F; apply T2, J4, F|]. intros _. destruct T3 as (ms & rest & Lm & Hs & Hsm & Hcut & HI3).
    eexists. split; [|exact HI3]. right. split; [exact Hm|]. exists edpub, ms.
    split; [exact ET|]. split; [exact Lr|]. split; [rewrite Lm; lia|]. split; [exact Hsm|].
    split; [exists rest; exact Hs|]. split.
    { intro F. assert (F2 : no_short w2) by (eapply no_short_after; [exact FA|exact F]). specialize (Hcut F2).
      destruct (pieces_exist m) as (ms2 & P1 & P2). cbn [skipn] in Hcut.
      assert (length ms2 = Z.to_nat n) as L2. { pose proof (full_pieces_count ms2 P1) as X. rewrite P2 in X. fold n in X. lia. }
      assert (ms = ms2) as ->; [|split; assumption]. rewrite Hcut, <- P2, <- L2. apply cut_full_pieces, P1. }
    unfold sealed_body. rewrite sealHeader_eq. f_equal. f_equal. lia.
  - injection H as <- <- <-. split; [eapply tail_frame_trans; [exact FR|apply seal_tail_frame, T1]|].
    split; [intro F; apply T2, J4, F|]. intro E. contradiction.
Qed.

Lemma fresh_inv q mode w : w_fs w q = Some (File comment_text mode) -> enc_inv q comment_text [] mode NewEncoder w.
Proof.
  intro H. split; [exact NewEncoder_ok|]. split; [reflexivity|]. split; [reflexivity|]. rewrite H. reflexivity.
Qed.

Lemma seal_tail_spec C fd pub mp q m mm mode w r w' :
  mp <> q -> handle w fd mp 0 -> w_fs w mp = Some (File m mm) -> Z.of_nat (length m) < 2 ^ 63 ->
  w_fs w q = Some (File [] mode) ->
  seal_tail C fd pub (Z.of_nat (length m)) q w = (r, w') ->
  tail_frame q w w' /\ (no_faults w -> no_faults w') /\
  (r = Ok tt -> exists body a b, sealed_pieces C pub (w_rng w) m body (no_short w) /\
     w_fs w' q = Some (File (comment_text ++ a) mode) /\ spec_encoded body = a ++ b /\ (length b <= 5)%nat /\
     (no_faults w -> b = [])).
Proof.
  intros Hne Hh Hf Hlen Hq H. unfold seal_tail in H.
  destruct (file_write q comment_text w) as [[k er] w1] eqn:E.
  destruct (file_write_frame _ _ _ _ _ _ E) as (a & b & Eab & Hr & Hfs & _ & Hs & Hn).
  assert (FR : tail_frame q w w1).
  { apply seal_tail_frame, same_rest_frame; [|exact Hs]. intros x Hx. rewrite Hfs. apply fs_append_other, Hx. }
  destruct er as [er|].
  { injection H as <- <-. split; [exact FR|]. split; [intro F; apply Hn, F|discriminate]. }
  rewrite (Hr eq_refl), app_nil_r in Eab. subst a.
  assert (Hq1 : w_fs w1 q = Some (File comment_text mode)) by (rewrite Hfs, fs_append_same, Hq; reflexivity).
  destruct (seal C (enc * world) lift_draw pub _ _ _ (NewEncoder, w1)) as [r1 [e2 w2]] eqn:Es.
  pose proof Hs as (Hs1 & _ & _ & Hs4).
  destruct (seal_file_spec C fd pub mp q m mm mode NewEncoder w1 comment_text r1 e2 w2 Hne
     ltac:(unfold handle; rewrite Hs4; exact Hh) ltac:(rewrite Hfs, fs_append_other by exact Hne; exact Hf)
     Hlen (fresh_inv _ _ _ Hq1) Es) as (T1 & T2 & T3).
  destruct (enc_close (file_write q) (e2, w2)) as [er [e3 w3]] eqn:Ec. injection H as <- <-. cbn [snd].
  (* close, whatever the state *)
  assert (CF : (forall x, x <> q -> w_fs w3 x = w_fs w2 x) /\ same_rest w2 w3 /\ (no_faults w2 -> er = None /\ no_faults w3)).
  { destruct (enc_close_plan (file_write q) e2 w2) as (e4 & Hp). rewrite Ec in Hp.
    destruct (run_calls (file_write q) (close_plan e2) w2) as [er1 w4] eqn:R.
    destruct (run_calls_file _ _ _ _ _ R) as (a & b2 & _ & _ & Hf2 & Hs2 & Hn2).
    assert (er = er1 /\ w3 = w4) as [-> ->] by (destruct er1; injection Hp as -> -> ->; auto).
    split; [|auto]. intros x Hx. rewrite Hf2. apply fs_append_other, Hx. }
  destruct CF as (CF1 & CF2 & CF3).
  split; [eapply tail_frame_trans; [exact FR|]; eapply tail_frame_trans; [exact T1|]; apply seal_tail_frame, same_rest_frame; assumption|].
  split; [intro F; apply CF3, T2, Hn, F|]. intro Er. destruct (T3 Er) as (body & Sp & I2).
  destruct (enc_close_file _ _ _ _ _ _ _ _ _ I2 Ec) as ((a & b2 & A1 & A2 & A3 & A4) & _).
  exists body, a, b2. rewrite Hs1 in Sp. split.
  { pose proof (file_write_faults q comment_text w) as FA. rewrite E in FA. eapply sealed_pieces_weaken; [|exact Sp]. exact (no_short_after _ _ FA). } split; [exact A1|]. split; [exact A2|]. split; [exact A4|].
  intro F. apply A3. apply CF3, T2, Hn, F.
Qed.

Lemma seal_file_ok C fd pub mp q m mm mode e w pre edpub ms :
  mp <> q -> handle w fd mp 0 -> w_fs w mp = Some (File m mm) -> Z.of_nat (length m) < 2 ^ 63 -> m <> [] ->
  enc_inv q pre [] mode e w -> no_faults w -> pub_ToBox pub = Ok edpub -> (32 <= length (w_rng w))%nat ->
  full_pieces ms -> concat ms = m ->
  exists e' w', seal C (enc * world) lift_draw pub (lift_reader (file_read fd)) (Z.of_nat (length m))
       (enc_write (file_write q)) (e, w) = (Ok tt, (e', w')) /\
    tail_frame q w w' /\ no_faults w' /\ w_rng w' = skipn 32 (w_rng w) /\
    enc_inv q pre (sealed_body C (box_precompute C edpub (firstn 32 (w_rng w))) (x25519_base C (firstn 32 (w_rng w))) ms) mode e' w'.
Proof.
  intros Hne Hh Hf Hlen Hm HI Hnf ET Lr Hfp Hcat. unfold seal.
  destruct (Z.eqb_spec (Z.of_nat (length m)) 0) as [E0|E0]; [destruct m; [contradiction Hm; reflexivity|cbn in E0; lia]|].
  rewrite ET, lift_draw_eq. destruct (Nat.ltb_spec (length (w_rng w)) 32) as [Lr'|_]; [lia|].
  set (epriv := firstn 32 (w_rng w)) in *. cbv zeta.
  set (epub := x25519_base C epriv) in *. set (shared := box_precompute C edpub epriv) in *.
  set (w1 := set_rng w (skipn 32 (w_rng w))) in *.
  rewrite (chunksFor_ceil (Z.of_nat (length m))) by lia.
  assert (Hcount : (Z.of_nat (length m) + 16384) / 16385 = Z.of_nat (length ms)).
  { rewrite <- Hcat. symmetry. apply full_pieces_count, Hfp. }
  rewrite Hcount. pose proof (ceil_bound (Z.of_nat (length m)) ltac:(lia)) as Hb. rewrite Hcount in Hb.
  destruct (enc_write (file_write q) (sealHeader C (Z.of_nat (length ms)) epub shared) (e, w1)) as [[k er] [e2 w2]] eqn:Ew.
  pose proof (enc_inv_rng _ _ _ _ _ _ (skipn 32 (w_rng w)) HI) as HI1. fold w1 in HI1.
  destruct (enc_write_file _ _ _ _ _ _ _ _ _ _ _ HI1 Ew) as (J1 & J2 & J3 & J4).
  destruct (J4 Hnf) as [-> Hnf2]. specialize (J1 eq_refl). rewrite app_nil_l in J1.
  rewrite for_loop_iter, zeroNonce_eq, Nat2Z.id.
  pose proof J3 as (J3a & _ & _ & J3d).
  destruct (seal_loop_ok C shared fd mp q m mm pre mode Hne ms 0 0%nat _ e2 w2 ltac:(lia) ltac:(lia)
     ltac:(unfold handle; rewrite J3d; exact Hh) ltac:(rewrite J2 by exact Hne; exact Hf) J1 Hnf2 Hfp ltac:(symmetry; exact Hcat))
    as (n3 & e3 & w3 & E3 & I3 & N3 & F3).
  rewrite E3. exists e3, w3. split; [reflexivity|].
  split; [eapply tail_frame_trans; [|apply seal_tail_frame, F3]; apply (seal_tail_frame q w1 w2), same_rest_frame; assumption|].
  split; [exact N3|]. split; [destruct F3 as (_ & -> & _); exact J3a|exact I3].
Qed.

Lemma seal_tail_ok C fd pub mp q m mm mode w edpub ms :
  mp <> q -> handle w fd mp 0 -> w_fs w mp = Some (File m mm) -> Z.of_nat (length m) < 2 ^ 63 -> m <> [] ->
  w_fs w q = Some (File [] mode) -> no_faults w -> pub_ToBox pub = Ok edpub -> (32 <= length (w_rng w))%nat ->
  full_pieces ms -> concat ms = m ->
  exists w', seal_tail C fd pub (Z.of_nat (length m)) q w = (Ok tt, w') /\
    tail_frame q w w' /\ no_faults w' /\ w_rng w' = skipn 32 (w_rng w) /\
    w_fs w' q = Some (File (sealed_file (sealed_body C (box_precompute C edpub (firstn 32 (w_rng w))) (x25519_base C (firstn 32 (w_rng w))) ms)) mode).
Proof.
  intros Hne Hh Hf Hlen Hm Hq Hnf ET Lr Hfp Hcat. unfold seal_tail.
  destruct (file_write q comment_text w) as [[k er] w1] eqn:E.
  destruct (file_write_frame _ _ _ _ _ _ E) as (a & b & Eab & Hr & Hfs & _ & Hs & Hn).
  destruct (Hn Hnf) as [-> Hn1]. rewrite (Hr eq_refl), app_nil_r in Eab. subst a.
  assert (Hq1 : w_fs w1 q = Some (File comment_text mode)) by (rewrite Hfs, fs_append_same, Hq; reflexivity).
  pose proof Hs as (Hs1 & _ & _ & Hs4).
  destruct (seal_file_ok C fd pub mp q m mm mode NewEncoder w1 comment_text edpub ms Hne
     ltac:(unfold handle; rewrite Hs4; exact Hh) ltac:(rewrite Hfs, fs_append_other by exact Hne; exact Hf)
     Hlen Hm (fresh_inv _ _ _ Hq1) Hn1 ET ltac:(rewrite Hs1; exact Lr) Hfp Hcat) as (e2 & w2 & E2 & F2 & N2 & R2 & I2).
  rewrite E2. destruct (enc_close (file_write q) (e2, w2)) as [er [e3 w3]] eqn:Ec.
  destruct (enc_close_file _ _ _ _ _ _ _ _ _ I2 Ec) as ((a & b2 & A1 & A2 & A3 & A4) & C1 & C2 & C3).
  destruct (C3 N2) as [-> N3]. rewrite (A3 eq_refl), app_nil_r in A2. subst a. rewrite Hs1 in *.
  exists w3. split; [reflexivity|]. split.
  { eapply tail_frame_trans; [|eapply tail_frame_trans; [exact F2|]].
    - apply seal_tail_frame, same_rest_frame; [|exact Hs]. intros x Hx. rewrite Hfs. apply fs_append_other, Hx.
    - apply seal_tail_frame, same_rest_frame; assumption. }
  split; [exact N3|]. split; [destruct C2 as (-> & _); exact R2|exact A1].
Qed.

Lemma LoadPublicKey_inv k w r w' : LoadPublicKey k w = (r, w') ->
  w' = next w /\ r <> Panic /\
  forall p, r = Ok p -> exists kf, contents w k kf /\ readPublicKeyFile kf = Ok p.
Proof.
  rewrite LoadPublicKey_eq, ReadFile_eq. pose proof (ReadFile_no_panic k w) as NP. rewrite ReadFile_eq in NP. cbn [fst] in NP.
  destruct (match hd FOk (w_faults w) with FFail _ => _ | _ => _ end) as [d|e|] eqn:E; [| |contradiction].
  - intro H. apply pair_equal_spec in H. destruct H as [<- <-]. split; [reflexivity|].
    split; [apply readPublicKeyFile_no_panic|]. intros p Hp. exists d. split; [|exact Hp].
    destruct (hd FOk (w_faults w)); try discriminate; (destruct (w_fs w k) as [[d0 m0]|] eqn:F; [|discriminate]);
      injection E as <-; exists m0; exact F.
  - intro H. apply pair_equal_spec in H. destruct H as [<- <-]. split; [reflexivity|]. split; [discriminate|]. intros p Hp. discriminate.
Qed.

Lemma LoadPublicKey_runs k w kf p : no_faults w -> contents w k kf -> readPublicKeyFile kf = Ok p ->
  LoadPublicKey k w = (Ok p, w).
Proof.
  intros Hn Hc Hr. rewrite LoadPublicKey_eq, (ReadFile_contents k w kf) by (try apply undisturbed_nil; assumption).
  rewrite Hr, next_id by exact Hn. reflexivity.
Qed.

(* Seal leaves every other file alone, and what it does if it returns nil *)
Lemma Seal_spec C pk mp ep w r w' : Seal C pk mp ep w = (r, w') ->
  let q := enc_path mp ep in q <> mp ->
  (forall m, contents w mp m -> Z.of_nat (length m) < 2 ^ 63) ->
  (forall x, x <> q -> w_fs w' x = w_fs w x) /\ w_tty w' = w_tty w /\ w_bufs w' = w_bufs w /\
  (r = Ok tt -> exists pf pub m body a b,
     contents w pk pf /\ readPublicKeyFile pf = Ok pub /\ contents w mp m /\
     sealed_pieces C pub (w_rng w) m body (no_short w) /\
     w_fs w' q = Some (File (comment_text ++ a) (file_mode (w_fs w) q 438)) /\
     spec_encoded body = a ++ b /\ (length b <= 5)%nat /\ (no_faults w -> b = [])).
Proof.
  intros H q Hq Hsz. rewrite Seal_eq in H. fold q in H.
  destruct (LoadPublicKey pk w) as [r1 w1] eqn:E1. destruct (LoadPublicKey_inv _ _ _ _ E1) as (-> & NP1 & L1).
  destruct r1 as [pub|e|]; [|injection H as <- <-; repeat split; try discriminate|contradiction].
  destruct (L1 pub eq_refl) as (pf & Cp & Rp).
  destruct (open_read_spec mp (next w)) as (r2 & w2 & E2 & O2 & N2 & D2). rewrite E2 in H.
  assert (Fr2 : only_reads w w2) by (eapply only_reads_trans; [apply only_reads_next|exact O2]).
  pose proof (only_reads_frame q _ _ Fr2) as (G1 & G2 & G3 & G4).
  destruct D2 as [(m & -> & Cm & Hh)|(e & -> & _)]; [|injection H as <- <-; repeat split; try assumption; discriminate].
  pose proof Fr2 as (O2f & O2r & _). 
  assert (Cm' : contents w mp m) by exact Cm. destruct Cm' as (mm & Fm).
  assert (Fm2 : w_fs w2 mp = Some (File m mm)) by (rewrite O2f; exact Fm).
  destruct (file_size_spec (length (w_fds (next w))) mp 0 m mm w2 Hh Fm2) as (r3 & w3 & E3 & O3 & N3 & D3 & C3). rewrite E3 in H.
  assert (Fr3 : only_reads w w3) by (eapply only_reads_trans; [exact Fr2|exact O3]).
  pose proof (only_reads_frame q _ _ Fr3) as (K1 & K2 & K3 & K4).
  destruct C3 as [->|(e & -> & _)]; [|injection H as <- <-; repeat split; try assumption; discriminate].
  destruct (create_file_spec q 438 w3) as (r4 & w4 & E4 & N4 & C4). rewrite E4 in H.
  destruct C4 as [(-> & -> & Hq0)|(e & -> & -> & _)].
  2:{ injection H as <- <-. split; [exact K1|]. split; [exact K3|]. split; [exact K4|discriminate]. }
  set (w4 := do_create q 438 (next w3)) in *.
  assert (FA : faults_after w w4).
  { pose proof (open_read_faults mp (next w)) as FA2. rewrite E2 in FA2. pose proof (file_size_faults (length (w_fds (next w))) w2) as FA3. rewrite E3 in FA3.
    apply (faults_after_trans w (next w)); [apply faults_after_next; reflexivity|]. eapply faults_after_trans; [exact FA2|].
    eapply faults_after_trans; [exact FA3|]. apply faults_after_next. reflexivity. }
  pose proof Fr3 as (O3f & O3r & _).
  assert (Fm4 : w_fs w4 mp = Some (File m mm)).
  { unfold w4. cbn [w_fs do_create emit set_fs next set_faults]. rewrite fs_create_other by (intro X; apply Hq; symmetry; exact X).
    rewrite O3f. exact Fm. }
  assert (Fq4 : w_fs w4 q = Some (File [] (file_mode (w_fs w) q 438))).
  { unfold w4. cbn [w_fs do_create emit set_fs next set_faults]. rewrite fs_create_same, O3f. reflexivity. }
  assert (Hh4 : handle w4 (length (w_fds (next w))) mp 0).
  { unfold handle, w4. cbn [w_fds do_create emit set_fs next set_faults]. rewrite D3. exact Hh. }
  destruct (seal_tail_spec C (length (w_fds (next w))) pub mp q m mm _ w4 r w' ltac:(intro X; apply Hq; symmetry; exact X)
     Hh4 Fm4 (Hsz m Cm) Fq4 H) as ((T1 & T2 & T3) & T4 & T5).
  split; [|split; [rewrite T2; exact K3|split; [rewrite T3; exact K4|]]].
  - intros x Hx. rewrite T1 by exact Hx. unfold w4. cbn [w_fs do_create emit set_fs next set_faults].
    rewrite fs_create_other by exact Hx. rewrite O3f. reflexivity.
  - intro Er. destruct (T5 Er) as (body & a & b & Sp & Fq & Es & Lb & Nb).
    exists pf, pub, m, body, a, b. split; [exact Cp|]. split; [exact Rp|]. split; [exact Cm|].
    split; [replace (w_rng w) with (w_rng w4) by exact O3r; eapply sealed_pieces_weaken; [|exact Sp]; apply no_short_after; exact FA|]. split; [exact Fq|]. split; [exact Es|].
    split; [exact Lb|]. intro F. apply Nb. apply N4, N3, N2, no_faults_next, F.
Qed.

Lemma Seal_runs C pk mp ep w pf pub m edpub ms : let q := enc_path mp ep in
  no_faults w -> contents w pk pf -> readPublicKeyFile pf = Ok pub -> pub_ToBox pub = Ok edpub ->
  contents w mp m -> m <> [] -> Z.of_nat (length m) < 2 ^ 63 -> q <> mp -> (32 <= length (w_rng w))%nat ->
  full_pieces ms -> concat ms = m ->
  exists w', Seal C pk mp ep w = (Ok tt, w') /\ no_faults w' /\ w_rng w' = skipn 32 (w_rng w) /\
    (forall x, x <> q -> w_fs w' x = w_fs w x) /\ w_tty w' = w_tty w /\ w_bufs w' = w_bufs w /\
    w_fs w' q = Some (File (sealed_file (sealed_body C (box_precompute C edpub (firstn 32 (w_rng w))) (x25519_base C (firstn 32 (w_rng w))) ms))
                       (file_mode (w_fs w) q 438)).
Proof.
  intros q Hn Cp Rp ET Cm Hm Hsz Hq Lr Hfp Hcat. rewrite Seal_eq. fold q.
  rewrite (LoadPublicKey_runs pk w pf pub Hn Cp Rp).
  destruct (open_read_spec mp w) as (r2 & w2 & E2 & O2 & N2 & D2). rewrite E2.
  pose proof Cm as (mm & Fm). destruct D2 as [(m' & -> & Cm' & Hh)|(e & -> & D2)]; [|rewrite (D2 Hn) in Fm; discriminate].
  pose proof O2 as (O2f & O2r & O2t & O2b & _). specialize (N2 Hn).
  assert (Fm2 : w_fs w2 mp = Some (File m mm)) by (rewrite O2f; exact Fm).
  destruct (file_size_spec (length (w_fds w)) mp 0 m mm w2 Hh Fm2) as (r3 & w3 & E3 & O3 & N3 & D3 & C3). rewrite E3.
  pose proof O3 as (O3f & O3r & O3t & O3b & _). 
  destruct C3 as [->|(e & -> & C3)]; [|contradiction]. specialize (N3 N2).
  destruct (create_file_spec q 438 w3) as (r4 & w4 & E4 & N4 & C4). rewrite E4.
  assert (Hq0 : q <> []). { unfold q, enc_path. destruct ep; cbn [bytes_eqb]; [destruct mp|]; discriminate. }
  destruct C4 as [(-> & -> & _)|(e & -> & -> & C4)]; [|exfalso; apply Hq0, C4, N3].
  specialize (N4 N3). set (w4 := do_create q 438 (next w3)) in *.
  assert (Fm4 : w_fs w4 mp = Some (File m mm)).
  { unfold w4. cbn [w_fs do_create emit set_fs next set_faults]. rewrite fs_create_other by (intro X; apply Hq; symmetry; exact X).
    rewrite O3f, O2f. exact Fm. }
  assert (Fq4 : w_fs w4 q = Some (File [] (file_mode (w_fs w) q 438))).
  { unfold w4. cbn [w_fs do_create emit set_fs next set_faults]. rewrite fs_create_same, O3f, O2f. reflexivity. }
  assert (Hh4 : handle w4 (length (w_fds w)) mp 0).
  { unfold handle, w4. cbn [w_fds do_create emit set_fs next set_faults]. rewrite D3. exact Hh. }
  assert (R4 : w_rng w4 = w_rng w) by (transitivity (w_rng w3); [reflexivity|congruence]).
  destruct (seal_tail_ok C (length (w_fds w)) pub mp q m mm _ w4 edpub ms ltac:(intro X; apply Hq; symmetry; exact X)
     Hh4 Fm4 Hsz Hm Fq4 N4 ET ltac:(rewrite R4; exact Lr) Hfp Hcat) as (w' & E & (T1 & T2 & T3) & T4 & T5 & T6).
  rewrite R4 in *. exists w'. split; [exact E|]. split; [exact T4|]. split; [exact T5|].
  split; [|split; [|split; [|exact T6]]].
  - intros x Hx. rewrite T1 by exact Hx. unfold w4. cbn [w_fs do_create emit set_fs next set_faults].
    rewrite fs_create_other by exact Hx. rewrite O3f, O2f. reflexivity.
  - rewrite T2. transitivity (w_tty w3); [reflexivity|congruence].
  - rewrite T3. transitivity (w_bufs w3); [reflexivity|congruence].
Qed.
