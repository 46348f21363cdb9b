(* Proofs about open: the decoder over a file, the loop, authenticity. *)
From Verif Require Import SealOpen GoBase64Facts.
From Verif Require Export SealFacts.

(* ---- the decoder over a file ---- *)
Lemma StdDecode_String k src : (length src <= 4 * k)%nat ->
  StdDecode (Z.of_nat (3 * k)) src =
  match DecodeString src with
  | Ok b => RRet b None
  | Err e => RRet (fst (ref_decode (nonl src))) (Some e)
  | Panic => RPanic
  end.
Proof.
  intro H. rewrite DecodeString_ref, StdDecode_ref.
  - unfold ref_result. destruct (ref_decode (nonl src)) as [b []]; reflexivity.
  - pose proof (nonl_length src). assert (length (nonl src) / 4 <= k)%nat by (apply Nat.lt_succ_r, Nat.div_lt_upper_bound; lia). lia.
Qed.

Lemma no_lf_cons x t : no_lf (x :: t) = if beqb x x0a then no_lf t else x :: no_lf t.
Proof. unfold no_lf. cbn [filter]. destruct (beqb x x0a); reflexivity. Qed.

Lemma skipn_cons_tl {A} off (d : list A) x t : skipn off d = x :: t -> skipn (off + 1) d = t.
Proof. intro H. rewrite Nat.add_comm, <- skipn_skipn, H. reflexivity. Qed.

Lemma dec_loop_file fd p d mo M t : forall fuel off c n buf w,
  handle w fd p off -> w_fs w p = Some (File d mo) -> skipn off d = t ->
  (length t < fuel)%nat -> n <= Z.of_nat M -> Z.of_nat (length buf) = n ->
  exists r w', dec_loop fuel (file_read fd) (Z.of_nat M) c n buf w = (r, w') /\
    only_reads w w' /\ (no_faults w -> no_faults w') /\
    ((exists off', r = Some (Ok (buf ++ firstn (M - length buf) (no_lf t))) /\ handle w' fd p off' /\
        no_lf (skipn off' d) = skipn (M - length buf) (no_lf t)) \/
     (r = Some (Err EFault) /\ ~ no_faults w)).
Proof.
  induction t as [|x t IH]; intros fuel off c n buf w Hh Hf Ht Hfu Hn Hb; (destruct fuel as [|fuel]; [cbn in Hfu; lia|]);
    cbn [dec_loop].
  - destruct (Z.eqb_spec n (Z.of_nat M)) as [E|E].
    + do 2 eexists. split; [reflexivity|]. split; [apply only_reads_refl|]. split; [auto|]. left. exists off.
      rewrite Ht. cbn [no_lf filter]. rewrite firstn_nil, skipn_nil, app_nil_r. auto.
    + destruct (file_read_spec fd p off d mo 1 w Hh Hf ltac:(lia)) as (r & w1 & E1 & O1 & N1 & C1). rewrite E1.
      destruct C1 as [(got & -> & Hg & Hl & Hh1 & rest & Hs & Hex)|[(-> & Hs & Hh1)|(-> & Hfa)]].
      * rewrite Ht in Hs. destruct got; [contradiction Hg; reflexivity|discriminate].
      * do 2 eexists. split; [reflexivity|]. split; [exact O1|]. split; [exact N1|]. left. exists off.
        rewrite Ht. cbn [no_lf filter]. rewrite firstn_nil, skipn_nil, app_nil_r. auto.
      * do 2 eexists. split; [reflexivity|]. split; [exact O1|]. split; [exact N1|]. right. auto.
  - destruct (Z.eqb_spec n (Z.of_nat M)) as [E|E].
    + do 2 eexists. split; [reflexivity|]. split; [apply only_reads_refl|]. split; [auto|]. left. exists off.
      rewrite Ht. replace (M - length buf)%nat with 0%nat by lia. cbn [firstn skipn]. rewrite app_nil_r. auto.
    + destruct (file_read_spec fd p off d mo 1 w Hh Hf ltac:(lia)) as (r & w1 & E1 & O1 & N1 & C1). rewrite E1.
      destruct C1 as [(got & -> & Hg & Hl & Hh1 & rest & Hs & Hex)|[(-> & Hs & Hh1)|(-> & Hfa)]].
      * rewrite (Hex (or_intror eq_refl)), Ht in *. cbn [firstn length] in *.
        pose proof O1 as (O1f & _). cbn [length] in Hfu.
        assert (Hf1 : w_fs w1 p = Some (File d mo)) by (rewrite O1f; exact Hf).
        pose proof (skipn_cons_tl _ _ _ _ Ht) as Ht1.
        rewrite no_lf_cons. destruct (beqb x x0a) eqn:Ex.
        -- destruct (IH fuel (off + 1)%nat x n buf w1 Hh1 Hf1 Ht1 ltac:(lia) Hn Hb) as (r2 & w2 & E2 & O2 & N2 & C2).
           exists r2, w2. split; [exact E2|]. split; [eapply only_reads_trans; eassumption|]. split; [auto|].
           destruct C2 as [C2|[C2 C3]]; [left; exact C2|right; split; [exact C2|auto]].
        -- destruct (IH fuel (off + 1)%nat x (n + 1) (buf ++ [x]) w1 Hh1 Hf1 Ht1 ltac:(lia) ltac:(lia)
             ltac:(rewrite app_length; cbn; lia)) as (r2 & w2 & E2 & O2 & N2 & C2).
           exists r2, w2. split; [exact E2|]. split; [eapply only_reads_trans; eassumption|]. split; [auto|].
           rewrite app_length in C2. cbn [length] in C2.
           destruct C2 as [(off' & -> & H1 & H2)|[C2 C3]]; [left|right; split; [exact C2|auto]].
           exists off'. replace (M - length buf)%nat with (S (M - (length buf + 1)))%nat by lia.
           cbn [firstn skipn]. rewrite <- app_assoc. auto.
      * rewrite Ht in Hs. discriminate.
      * do 2 eexists. split; [reflexivity|]. split; [exact O1|]. split; [exact N1|]. right. auto.
Qed.

(* one Read of 3k bytes from the decoder over the file *)
Lemma file_decoder_spec fd p d mo off k w :
  handle w fd p off -> w_fs w p = Some (File d mo) ->
  exists r w', file_decoder fd (3 * k)%nat w = (r, w') /\ only_reads w w' /\ (no_faults w -> no_faults w') /\
    ((exists off', handle w' fd p off' /\ no_lf (skipn off' d) = skipn (4 * k)%nat (no_lf (skipn off d)) /\
        ((exists b, r = RRet b None /\ DecodeString (firstn (4 * k)%nat (no_lf (skipn off d))) = Ok b) \/
         (exists b n, r = RRet b (Some (CorruptInput n)) /\ DecodeString (firstn (4 * k)%nat (no_lf (skipn off d))) = Err (CorruptInput n)))) \/
     (exists b, r = RRet b (Some EFault) /\ ~ no_faults w)).
Proof.
  intros Hh Hf. unfold file_decoder, dec_read. rewrite enclen_mult3.
  assert (Hfu : (length (skipn off d) < file_fuel fd w)%nat).
  { unfold file_fuel, remaining. unfold handle in Hh. rewrite Hh, Hf. cbn [f_data]. rewrite skipn_length. lia. }
  destruct (dec_loop_file fd p d mo (4 * k)%nat (skipn off d) (file_fuel fd w) off x00 0 [] w Hh Hf eq_refl Hfu ltac:(lia) eq_refl)
    as (r & w' & E & O & N & Cs). rewrite E. cbn [length app] in Cs. rewrite Nat.sub_0_r in Cs.
  destruct Cs as [(off' & -> & H1 & H2)|[-> Hn]].
  - rewrite StdDecode_String by (rewrite firstn_length; lia).
    do 2 eexists. split; [reflexivity|]. split; [exact O|]. split; [exact N|]. left. exists off'. split; [exact H1|].
    split; [exact H2|]. rewrite DecodeString_ref. destruct (ref_decode _) as [b []]; [right|left]; eauto.
  - do 2 eexists. split; [reflexivity|]. split; [exact O|]. split; [exact N|]. right. eauto.
Qed.

Lemma header_nat_3 : header_nat = (3 * 24)%nat. Proof. reflexivity. Qed.
Lemma header_chars_4 : header_chars = (4 * 24)%nat. Proof. reflexivity. Qed.
Lemma sealed_nat_3 : sealed_nat = (3 * Z.to_nat 5467)%nat.
Proof. unfold sealed_nat, sealedChunkSize, chunkSize, boxOverhead. lia. Qed.
Lemma piece_chars_4 : piece_chars = (4 * Z.to_nat 5467)%nat.
Proof. unfold piece_chars. lia. Qed.

(* ---- the loop of open ---- *)
(* what the loop has written: the pieces ms, and, if a write was cut short, the
   start of one more authentic piece *)
Inductive written (C : Crypto) (shared : bytes) (mp : path) (i : Z) (t : bytes) : list bytes -> list event -> Prop :=
| wr_full ms : authentic C shared i t ms -> written C shared mp i t ms (map (EvAppend mp) ms)
| wr_part ms a b : authentic C shared i t (ms ++ [a ++ b]) ->
    written C shared mp i t ms (map (EvAppend mp) ms ++ [EvAppend mp a]).

Definition kept (w w' : world) : Prop :=
  w_rng w' = w_rng w /\ w_tty w' = w_tty w /\ w_bufs w' = w_bufs w.

Lemma authentic_app C shared ms2 : forall ms1 i t,
  authentic C shared i t (ms1 ++ ms2) <->
  authentic C shared i t ms1 /\ authentic C shared (i + Z.of_nat (length ms1)) (skipn (length ms1 * piece_chars) t) ms2.
Proof.
  induction ms1 as [|m ms1 IH]; intros i t.
  - cbn [app length Nat.mul skipn]. rewrite Z.add_0_r. split; [intro H; split; [constructor|exact H]|intros [_ H]; exact H].
  - cbn [app length]. replace (i + Z.of_nat (S (length ms1))) with (i + 1 + Z.of_nat (length ms1)) by lia.
    replace (S (length ms1) * piece_chars)%nat with (length ms1 * piece_chars + piece_chars)%nat by lia.
    rewrite <- skipn_skipn. split.
    + intro H. inversion H as [|? ? ? ? H1 H2]; subst. apply IH in H2. destruct H2 as [H2 H3].
      split; [constructor; assumption|exact H3].
    + intros [H H3]. inversion H as [|? ? ? ? H1 H2]; subst. constructor; [exact H1|]. apply IH. auto.
Qed.

Section OpenLoop.
Variables (C : Crypto) (shared : bytes) (fd : nat) (mp ep : path) (d : bytes) (mo : Z).
Hypothesis Hne : ep <> mp.
Hypothesis Htidy : BoxTidy C.

Notation step := (open_step C world shared (file_decoder fd) (file_write mp)).

Definition last_world {A R} (r : (A * world) + (R * world)) : world :=
  match r with inl x => snd x | inr x => snd x end.

Lemma open_step_spec i off w : 0 <= i < 2 ^ 192 - 1 ->
  handle w fd ep off -> w_fs w ep = Some (File d mo) ->
  let t := no_lf (skipn off d) in
  let r := step i (nonce i, w) in
  let w' := last_world r in
  kept w w' /\ (no_faults w -> no_faults w') /\
  match r with
  | inl (n, _) => n = nonce (i + 1) /\ exists m off',
      DecodeString (firstn piece_chars t) = Ok (box_seal C m (nonce i) shared) /\
      handle w' fd ep off' /\ no_lf (skipn off' d) = skipn piece_chars t /\
      w_fs w' = fs_append (w_fs w) mp m /\ w_log w' = w_log w ++ [EvAppend mp m]
  | inr (x, _) => (exists e, x = Err e /\ (forall j, e = EChunk j -> j = i)) /\
      ((w_fs w' = w_fs w /\ w_log w' = w_log w /\
        (no_faults w -> forall m, DecodeString (firstn piece_chars t) = Ok (box_seal C m (nonce i) shared) -> box_open C (box_seal C m (nonce i) shared) (nonce i) shared = None)) \/
       (exists a b, DecodeString (firstn piece_chars t) = Ok (box_seal C (a ++ b) (nonce i) shared) /\
          w_fs w' = fs_append (w_fs w) mp a /\ w_log w' = w_log w ++ [EvAppend mp a] /\ ~ no_faults w))
  end.
Proof.
  intros Hi Hh Hf t r w'. subst r w'. unfold open_step. rewrite sealed_nat_3.
  destruct (file_decoder_spec fd ep d mo off (Z.to_nat 5467) w Hh Hf) as (r & w1 & E & O & N & Cs). rewrite E.
  rewrite <- piece_chars_4 in Cs. fold t in Cs. pose proof O as (Of & Or & Ot & Ob & Ol).
  destruct Cs as [(off' & Hh1 & Ht1 & [(b & -> & ED)|(b & at_ & -> & ED)])|(b & -> & Hnf)].
  2:{ cbn [last_world snd]. split; [repeat split; assumption|]. split; [exact N|]. split.
      { eexists. split; [reflexivity|discriminate]. }
      left. split; [exact Of|]. split; [exact Ol|]. intros _ m Hm. exfalso. rewrite ED in Hm. discriminate Hm. }
  2:{ cbn [last_world snd]. split; [repeat split; assumption|]. split; [exact N|]. split.
      { eexists. split; [reflexivity|discriminate]. }
      left. split; [exact Of|]. split; [exact Ol|]. intro F. contradiction. }
  destruct (box_open C b (nonce i) shared) as [m|] eqn:Eo.
  2:{ cbn [last_world snd]. split; [repeat split; assumption|]. split; [exact N|]. split.
      { eexists. split; [reflexivity|]. intros j E2. injection E2 as ->. reflexivity. }
      left. split; [exact Of|]. split; [exact Ol|]. intros _ m Hm. rewrite ED in Hm. apply Ok_inj in Hm. subst b. exact Eo. }
  apply Htidy in Eo. subst b.
  destruct (file_write mp m w1) as [[n er] w2] eqn:Ew.
  destruct (file_write_frame _ _ _ _ _ _ Ew) as (a & b & -> & Hr & Hfs & Hl & (S1 & S2 & S3 & S4) & Hn).
  destruct er as [er|].
  - cbn [last_world snd]. split; [repeat split; congruence|]. split; [intro F; apply Hn, N, F|]. split.
    { assert (er = EFault) as ->; [|eexists; split; [reflexivity|discriminate]].
      unfold file_write in Ew. destruct (pop_fault w1) as [[|k|k] w3]; injection Ew as _ E2 _; try discriminate. symmetry. exact E2. }
    right. exists a, b. split; [exact ED|]. rewrite Hfs, Hl, Of, Ol. split; [reflexivity|]. split; [reflexivity|].
    intro F. destruct (Hn (N F)) as [? _]. discriminate.
  - rewrite (Hr eq_refl), app_nil_r in *. rewrite incrementNonce_nonce by exact Hi. cbn [last_world snd].
    split; [repeat split; congruence|]. split; [intro F; apply Hn, N, F|]. split; [reflexivity|].
    exists a, off'. split; [exact ED|]. split; [unfold handle; rewrite S4; exact Hh1|]. split; [exact Ht1|].
    rewrite Hfs, Hl, Of, Ol. auto.
Qed.

Lemma open_loop_spec k : forall i off w, 0 <= i -> i + Z.of_nat k < 2 ^ 192 ->
  handle w fd ep off -> w_fs w ep = Some (File d mo) ->
  let t := no_lf (skipn off d) in
  let r := iter_loop k step i (nonce i, w) in
  let w' := last_world r in
  kept w w' /\ (no_faults w -> no_faults w') /\
  exists ms evs, written C shared mp i t ms evs /\ w_fs w' = replay (w_fs w) evs /\ w_log w' = w_log w ++ evs /\
  match r with
  | inl _ => length ms = k /\ evs = map (EvAppend mp) ms
  | inr (x, _) => exists e, x = Err e /\ (forall j, e = EChunk j -> j = i + Z.of_nat (length ms)) /\ (length ms < k)%nat
  end.
Proof.
  induction k as [|k IH]; intros i off w Hi Hk Hh Hf t r w'; subst r w'; cbn [iter_loop].
  - cbn [last_world snd]. split; [repeat split|]. split; [auto|]. exists [], []. split; [apply (wr_full C shared mp i t []); constructor|].
    split; [reflexivity|]. split; [rewrite app_nil_r; reflexivity|]. split; reflexivity.
  - destruct (open_step_spec i off w ltac:(lia) Hh Hf) as (K1 & N1 & C1). fold t in C1.
    destruct (step i (nonce i, w)) as [[n w1]|[x w1]]; cbn [last_world snd] in *.
    + destruct C1 as (-> & m & off' & ED & Hh1 & Ht1 & Hfs & Hl).
      assert (Hf1 : w_fs w1 ep = Some (File d mo)) by (rewrite Hfs, fs_append_other by exact Hne; exact Hf).
      destruct (IH (i + 1) off' w1 ltac:(lia) ltac:(lia) Hh1 Hf1) as (K2 & N2 & ms & evs & W2 & F2 & L2 & C2).
      split; [unfold kept in *; intuition congruence|]. split; [auto|].
      rewrite Ht1 in W2. exists (m :: ms), (EvAppend mp m :: evs). split.
      { inversion W2 as [ms' A|ms' a b A]; subst.
        - apply (wr_full C shared mp i t (m :: ms)). constructor; assumption.
        - apply (wr_part C shared mp i t (m :: ms) a b). cbn [app]. constructor; assumption. }
      split; [rewrite F2, Hfs; reflexivity|]. split; [rewrite L2, Hl, <- app_assoc; reflexivity|].
      destruct (iter_loop k step (i + 1) (nonce (i + 1), w1)) as [st|[x w2]].
      * destruct C2 as [L ->]. split; [cbn; rewrite L; reflexivity|reflexivity].
      * destruct C2 as (e & -> & He & Hlt). exists e. split; [reflexivity|]. cbn [length]. split; [|lia].
        intros j Ej. rewrite (He j Ej). lia.
    + split; [exact K1|]. split; [exact N1|]. destruct C1 as [(e & -> & He) [(Hfs & Hl & _)|(a & b & ED & Hfs & Hl & _)]].
      * exists [], []. split; [apply (wr_full C shared mp i t []); constructor|].
        split; [exact Hfs|]. split; [rewrite Hl, app_nil_r; reflexivity|]. exists e. split; [reflexivity|].
        cbn [length]. split; [intros j Ej; rewrite (He j Ej); lia|lia].
      * exists [], [EvAppend mp a]. split; [apply (wr_part C shared mp i t [] a b); cbn [app]; constructor; [exact ED|constructor]|].
        split; [exact Hfs|]. split; [exact Hl|]. exists e. split; [reflexivity|].
        cbn [length]. split; [intros j Ej; rewrite (He j Ej); lia|lia].
Qed.

Lemma authentic_unique : BoxCorrect C -> forall ms1 ms2 i t,
  authentic C shared i t ms1 -> authentic C shared i t ms2 -> (length ms1 <= length ms2)%nat ->
  exists r, ms2 = ms1 ++ r.
Proof.
  intro BC. induction ms1 as [|m ms1 IH]; intros ms2 i t H1 H2 L; [exists ms2; reflexivity|].
  destruct ms2 as [|m2 ms2]; [cbn in L; lia|].
  inversion H1 as [|? ? ? ? D1 A1]; subst. inversion H2 as [|? ? ? ? D2 A2]; subst.
  rewrite D1 in D2. apply Ok_inj in D2. apply (f_equal (fun c => box_open C c (nonce i) shared)) in D2.
  rewrite !BC in D2. injection D2 as <-. cbn [length] in L.
  destruct (IH ms2 (i + 1) _ A1 A2 ltac:(lia)) as (r & ->). exists r. reflexivity.
Qed.

(* without disturbances an authentic text is accepted *)
Lemma open_loop_ok : BoxCorrect C -> forall ms i off w, 0 <= i -> i + Z.of_nat (length ms) < 2 ^ 192 ->
  handle w fd ep off -> w_fs w ep = Some (File d mo) -> no_faults w ->
  authentic C shared i (no_lf (skipn off d)) ms ->
  exists n w', iter_loop (length ms) step i (nonce i, w) = inl (n, w') /\ no_faults w' /\ kept w w' /\
    w_fs w' = replay (w_fs w) (map (EvAppend mp) ms).
Proof.
  intro BC. induction ms as [|m ms IH]; intros i off w Hi Hk Hh Hf Hn A; cbn [length iter_loop].
  - exists (nonce i), w. repeat split. exact Hn.
  - inversion A as [|? ? ? ? D1 A1]; subst. cbn [length] in Hk.
    destruct (open_step_spec i off w ltac:(lia) Hh Hf) as (K1 & N1 & C1).
    destruct (step i (nonce i, w)) as [[n w1]|[x w1]]; cbn [last_world snd] in *.
    + destruct C1 as (-> & m2 & off' & ED & Hh1 & Ht1 & Hfs & Hl).
      assert (m2 = m) as ->.
      { rewrite D1 in ED. apply Ok_inj in ED. apply (f_equal (fun c => box_open C c (nonce i) shared)) in ED.
        rewrite !BC in ED. injection ED as <-. reflexivity. }
      assert (Hf1 : w_fs w1 ep = Some (File d mo)) by (rewrite Hfs, fs_append_other by exact Hne; exact Hf).
      rewrite <- Ht1 in A1.
      destruct (IH (i + 1) off' w1 ltac:(lia) ltac:(lia) Hh1 Hf1 (N1 Hn) A1) as (n2 & w2 & E2 & Nf2 & K2 & F2).
      exists n2, w2. split; [exact E2|]. split; [exact Nf2|]. split; [unfold kept in *; intuition congruence|].
      rewrite F2, Hfs. reflexivity.
    + exfalso. destruct C1 as (_ & [(_ & _ & C1)|(a & b & _ & _ & _ & C1)]); [|contradiction].
      specialize (C1 Hn _ D1). rewrite BC in C1. discriminate.
Qed.
End OpenLoop.

(* ---- skipComment ---- *)
Lemma skip_loop_file fd p d mo t : forall fuel off c0 w,
  handle w fd p off -> w_fs w p = Some (File d mo) -> skipn off d = t -> (length t < fuel)%nat ->
  exists r w', skip_loop fuel (file_read fd) c0 w = (Some r, w') /\ only_reads w w' /\ (no_faults w -> no_faults w') /\
    ((exists c t' off', t = c ++ x0a :: t' /\ lf_free c /\ r = Ok tt /\ handle w' fd p off' /\ skipn off' d = t') \/
     (exists e, r = Err e /\ (no_faults w -> lf_free t))).
Proof.
  induction t as [|x t IH]; intros fuel off c0 w Hh Hf Ht Hfu; (destruct fuel as [|fuel]; [cbn in Hfu; lia|]); cbn [skip_loop];
    destruct (file_read_spec fd p off d mo 1 w Hh Hf ltac:(lia)) as (r & w1 & E1 & O1 & N1 & C1); rewrite E1;
    destruct C1 as [(got & -> & Hg & Hl & Hh1 & rest & Hs & Hex)|[(-> & Hs & Hh1)|(-> & Hfa)]].
  - rewrite Ht in Hs. destruct got; [contradiction Hg; reflexivity|discriminate].
  - do 2 eexists. split; [reflexivity|]. split; [exact O1|]. split; [exact N1|]. right. eexists. split; [reflexivity|].
    intros _ [].
  - do 2 eexists. split; [reflexivity|]. split; [exact O1|]. split; [exact N1|]. right. eexists. split; [reflexivity|].
    intro F. contradiction.
  - rewrite (Hex (or_intror eq_refl)), Ht in *. cbn [firstn length] in *. pose proof (skipn_cons_tl _ _ _ _ Ht) as Ht1.
    destruct (beqb x x0a) eqn:Ex.
    + apply beqb_eq in Ex. subst x. do 2 eexists. split; [reflexivity|]. split; [exact O1|]. split; [exact N1|]. left.
      exists [], t, (off + 1)%nat. split; [reflexivity|]. split; [intros []|]. auto.
    + apply beqb_neq in Ex. pose proof O1 as (O1f & _).
      destruct (IH fuel (off + 1)%nat x w1 Hh1 ltac:(rewrite O1f; exact Hf) Ht1 ltac:(lia)) as (r2 & w2 & E2 & O2 & N2 & C2).
      exists r2, w2. split; [exact E2|]. split; [eapply only_reads_trans; eassumption|]. split; [auto|].
      destruct C2 as [(c & t' & off' & -> & Hc & C2)|(e & -> & C2)].
      * left. exists (x :: c), t', off'. split; [reflexivity|]. split; [|exact C2]. intros [H|H]; [congruence|exact (Hc H)].
      * right. exists e. split; [reflexivity|]. intros F [H|H]; [congruence|exact (C2 (N1 F) H)].
  - rewrite Ht in Hs. discriminate.
  - do 2 eexists. split; [reflexivity|]. split; [exact O1|]. split; [exact N1|]. right. eexists. split; [reflexivity|].
    intro F. contradiction.
Qed.

Lemma skipComment_file fd p d mo w : handle w fd p 0 -> w_fs w p = Some (File d mo) ->
  exists r w', skipComment (file_fuel fd) (file_read fd) w = (r, w') /\ only_reads w w' /\ (no_faults w -> no_faults w') /\
    ((exists c t' off', d = c ++ x0a :: t' /\ lf_free c /\ r = Ok tt /\ handle w' fd p off' /\ skipn off' d = t') \/
     (exists e, r = Err e /\ (no_faults w -> lf_free d))).
Proof.
  intros Hh Hf. unfold skipComment.
  destruct (skip_loop_file fd p d mo d (file_fuel fd w) 0 x00 w Hh Hf eq_refl) as (r & w' & E & C).
  { unfold file_fuel, remaining. unfold handle in Hh. rewrite Hh, Hf. cbn [f_data]. lia. }
  rewrite E. eauto.
Qed.

Lemma first_line_unique c1 : forall c2 t1 t2, c1 ++ x0a :: t1 = c2 ++ x0a :: t2 -> lf_free c1 -> lf_free c2 -> c1 = c2 /\ t1 = t2.
Proof.
  induction c1 as [|x c1 IH]; intros [|y c2] t1 t2 H F1 F2; cbn in H.
  - injection H as ->. auto.
  - injection H as <- _. exfalso. apply F2. left. reflexivity.
  - injection H as -> _. exfalso. apply F1. left. reflexivity.
  - injection H as -> H. destruct (IH c2 t1 t2 H) as [-> ->]; [intro X; apply F1; right; exact X|intro X; apply F2; right; exact X|auto].
Qed.

(* ---- open_body ---- *)
Lemma count_range h : 0 <= count_of h < 2 ^ 64.
Proof.
  unfold count_of. pose proof (be_decode_range (slice 0 8 h)) as R. split; [apply R|].
  eapply Z.lt_le_trans; [apply R|]. change (2 ^ 64) with (256 ^ 8). apply Z.pow_le_mono_r; [lia|].
  unfold slice. rewrite firstn_length. lia.
Qed.

Lemma slice_all off n (l : bytes) : length l = (off + n)%nat -> skipn off l = slice off n l.
Proof. intro H. unfold slice. rewrite firstn_all2; [reflexivity|]. rewrite skipn_length. lia. Qed.

Section OpenBody.
Variables (C : Crypto) (fd : nat) (mp ep : path) (d : bytes) (mo : Z) (edpriv : bytes).
Hypothesis Hne : ep <> mp.
Hypothesis Htidy : BoxTidy C.

Lemma open_body_spec off w r w' : handle w fd ep off -> w_fs w ep = Some (File d mo) ->
  open_body C world edpriv (file_decoder fd) (file_write mp) w = (r, w') ->
  let t := skipn off d in
  kept w w' /\ (no_faults w -> no_faults w') /\
  ((w_fs w' = w_fs w /\ w_log w' = w_log w /\ (exists e, r = Err e /\ forall j, e <> EChunk j) /\
    (no_faults w -> forall h, ~ authentic_header C edpriv t h)) \/
   (exists h ms evs, authentic_header C edpriv t h /\
      written C (shared_of C edpriv h) mp 0 (body_text t) ms evs /\
      w_fs w' = replay (w_fs w) evs /\ w_log w' = w_log w ++ evs /\
      ((r = Ok tt /\ Z.of_nat (length ms) = count_of h /\ evs = map (EvAppend mp) ms) \/
       (exists e, r = Err e /\ (forall j, e = EChunk j -> j = Z.of_nat (length ms)) /\ Z.of_nat (length ms) < count_of h)))).
Proof.
  intros Hh Hf H t. unfold open_body in H. rewrite header_nat_3 in H.
  destruct (file_decoder_spec fd ep d mo off 24 w Hh Hf) as (rr & w1 & E & O & N & Cs). rewrite E in H.
  rewrite <- header_chars_4 in Cs. fold t in Cs. pose proof O as (Of & Or & Ot & Ob & Ol).
  assert (K1 : kept w w1) by (repeat split; assumption).
  destruct Cs as [(off' & Hh1 & Ht1 & [(b & -> & ED)|(b & at_ & -> & ED)])|(b & -> & Hnf)].
  2:{ injection H as <- <-. split; [exact K1|]. split; [exact N|]. left. split; [exact Of|]. split; [exact Ol|].
      split; [eexists; split; [reflexivity|discriminate]|]. intros _ h (Hd & _). rewrite ED in Hd. discriminate Hd. }
  2:{ injection H as <- <-. split; [exact K1|]. split; [exact N|]. left. split; [exact Of|]. split; [exact Ol|].
      split; [eexists; split; [reflexivity|discriminate]|]. intro F. contradiction. }
  rewrite <- header_nat_3 in H. change header_nat with 72%nat in H.
  destruct (Nat.eqb_spec (length b) 72) as [Lb|Lb]; cbn [negb] in H.
  2:{ injection H as <- <-. split; [exact K1|]. split; [exact N|]. left. split; [exact Of|]. split; [exact Ol|].
      split; [eexists; split; [reflexivity|discriminate]|]. intros _ h (Hd & Lh & _). rewrite ED in Hd. apply Ok_inj in Hd. subst h. contradiction. }
  change (firstn 8 b) with (slice 0 8 b) in H. change (firstn 32 (skipn 8 b)) with (slice 8 32 b) in H.
  change (firstn 40 b) with (slice 0 40 b) in H. rewrite (slice_all 40 32 b Lb) in H.
  fold (count_of b) in H. change (box_precompute C (slice 8 32 b) edpriv) with (shared_of C edpriv b) in H.
  unfold auth_Verify in H. destruct (bytes_eqb (slice 40 32 b) _) eqn:Ea; cbn [negb] in H.
  2:{ apply bytes_eqb_neq in Ea. injection H as <- <-. split; [exact K1|]. split; [exact N|]. left. split; [exact Of|]. split; [exact Ol|].
      split; [eexists; split; [reflexivity|discriminate]|]. intros _ h (Hd & Lh & Ha). rewrite ED in Hd. apply Ok_inj in Hd. subst h. contradiction. }
  apply bytes_eqb_eq in Ea. rewrite for_loop_iter, zeroNonce_eq in H.
  pose proof (count_range b) as R.
  destruct (open_loop_spec C (shared_of C edpriv b) fd mp ep d mo Hne Htidy (Z.to_nat (count_of b)) 0 off' w1
    ltac:(lia) ltac:(lia) Hh1 ltac:(rewrite Of; exact Hf)) as (K2 & N2 & ms & evs & W2 & F2 & L2 & C2).
  rewrite Ht1 in W2. fold (body_text t) in W2.
  assert (w' = last_world (iter_loop (Z.to_nat (count_of b)) (open_step C world (shared_of C edpriv b) (file_decoder fd) (file_write mp)) 0 (nonce 0, w1))) as ->.
  { destruct (iter_loop _ _ _ _) as [[n w2]|[x w2]]; injection H as _ <-; reflexivity. }
  split; [unfold kept in *; intuition congruence|]. split; [auto|]. right. exists b, ms, evs.
  split; [split; [exact ED|]; split; [exact Lb|exact Ea]|]. split; [exact W2|]. split; [rewrite F2, Of; reflexivity|].
  split; [rewrite L2, Ol; reflexivity|].
  destruct (iter_loop _ _ _ _) as [[n w2]|[x w2]]; injection H as <-.
  - left. destruct C2 as [L2' ->]. split; [reflexivity|]. split; [|reflexivity]. lia.
  - right. destruct C2 as (e & -> & C2 & Hlt). exists e. split; [reflexivity|]. split; [exact C2|]. lia.
Qed.

Lemma open_body_ok off w h ms : BoxCorrect C -> handle w fd ep off -> w_fs w ep = Some (File d mo) -> no_faults w ->
  let t := skipn off d in
  authentic_header C edpriv t h -> authentic C (shared_of C edpriv h) 0 (body_text t) ms ->
  Z.of_nat (length ms) = count_of h ->
  exists w', open_body C world edpriv (file_decoder fd) (file_write mp) w = (Ok tt, w') /\ no_faults w' /\ kept w w' /\
    w_fs w' = replay (w_fs w) (map (EvAppend mp) ms).
Proof.
  intros BC Hh Hf Hn t (Hd & Lh & Ha) A Hc. unfold open_body. rewrite header_nat_3.
  destruct (file_decoder_spec fd ep d mo off 24 w Hh Hf) as (rr & w1 & E & O & N & Cs). rewrite E.
  rewrite <- header_chars_4 in Cs. fold t in Cs. pose proof O as (Of & Or & Ot & Ob & Ol).
  assert (K1 : kept w w1) by (repeat split; assumption).
  destruct Cs as [(off' & Hh1 & Ht1 & [(b & -> & ED)|(b & at_ & -> & ED)])|(b & -> & Hnf)];
    [|exfalso; rewrite ED in Hd; discriminate Hd|contradiction].
  rewrite ED in Hd. apply Ok_inj in Hd. subst b.
  rewrite <- header_nat_3. change header_nat with 72%nat. rewrite Lh, Nat.eqb_refl. cbn [negb].
  change (firstn 8 h) with (slice 0 8 h). change (firstn 32 (skipn 8 h)) with (slice 8 32 h).
  change (firstn 40 h) with (slice 0 40 h). rewrite (slice_all 40 32 h Lh).
  unfold auth_Verify. rewrite Ha, bytes_eqb_refl. cbn [negb].
  rewrite for_loop_iter, zeroNonce_eq. fold (count_of h). rewrite <- Hc, Nat2Z.id.
  pose proof (count_range h) as R. unfold body_text in A. rewrite <- Ht1 in A.
  destruct (open_loop_ok C (shared_of C edpriv h) fd mp ep d mo Hne Htidy BC ms 0 off' w1 ltac:(lia) ltac:(lia) Hh1
    ltac:(rewrite Of; exact Hf) (N Hn) A) as (n & w2 & E2 & N2 & K2 & F2).
  change (box_precompute C (slice 8 32 h) edpriv) with (shared_of C edpriv h). rewrite E2.
  exists w2. split; [reflexivity|]. split; [exact N2|]. split; [unfold kept in *; intuition congruence|].
  rewrite F2, Of. reflexivity.
Qed.
End OpenBody.

(* ---- Open ---- *)
Lemma Open_eq C sk ep mp w : Open C sk ep mp w =
  match LoadPrivateKey sk w with
  | (Ok priv, w) =>
    match open_read ep w with
    | (Ok fd, w) =>
      match skipComment (file_fuel fd) (file_read fd) w with
      | (Ok _, w) =>
        match create_file mp 438 w with
        | (Ok _, w) => open_file C priv fd mp w
        | (Err e, w) => (Err e, w)
        | (Panic, w) => (Panic, w)
        end
      | (Err e, w) => (Err e, w)
      | (Panic, w) => (Panic, w)
      end
    | (Err e, w) => (Err e, w)
    | (Panic, w) => (Panic, w)
    end
  | (Err e, w) => (Err e, w)
  | (Panic, w) => (Panic, w)
  end.
Proof. reflexivity. Qed.

(* the unlocked private key ToBox works with *)
Definition unlocked (C : Crypto) (priv : Private) (tty : list (res bytes)) (p : Private) : Prop :=
  (checksum priv = firstn 8 (sha512 C (key priv)) /\ p = priv) \/
  (checksum priv <> firstn 8 (sha512 C (key priv)) /\
   exists pass tl, tty = Ok pass :: tl /\ decrypt C priv pass = (Ok tt, p)).
Definition is_out (e : event) : Prop := match e with EvOut _ => True | _ => False end.

Lemma ToBox_spec C priv w r p w' : priv_wf priv -> priv_ToBox C priv w = ((r, p), w') ->
  exists outs, Forall is_out outs /\ w_log w' = w_log w ++ outs /\ w_fs w' = w_fs w /\ w_fds w' = w_fds w /\
    w_faults w' = w_faults w /\ w_rng w' = w_rng w /\
    match r with
    | Ok b => unlocked C priv (w_tty w) p /\ b = box_secret C (key p)
    | Err e => forall j, e = EChunk j -> In (Err (EChunk j)) (w_tty w)
    | Panic => In Panic (w_tty w)
    end.
Proof.
  intros W H. rewrite ToBox_eq in H by exact W.
  assert (O1 : forall b, Forall is_out [EvOut b]) by (intro; repeat constructor).
  assert (Asked : forall w0 b tl, exists outs, Forall is_out outs /\ w_log (ask_world w0 b tl) = w_log w0 ++ outs /\ w_fs (ask_world w0 b tl) = w_fs w0 /\
     w_fds (ask_world w0 b tl) = w_fds w0 /\ w_faults (ask_world w0 b tl) = w_faults w0 /\ w_rng (ask_world w0 b tl) = w_rng w0).
  { intros w0 b tl. exists [EvOut (str "Password: "); EvOut [x0a]]. split; [repeat constructor|].
    split; [cbn; rewrite <- app_assoc; reflexivity|repeat split]. }
  destruct (Check_cases C priv) as [Ec|Ec]; rewrite Ec in H.
  - injection H as <- <- <-. exists []. split; [constructor|]. split; [rewrite app_nil_r; reflexivity|].
    do 4 (split; [reflexivity|]). split; [left; split; [apply Check_iff, Ec|reflexivity]|reflexivity].
  - destruct (w_tty w) as [|[b|e|] tl] eqn:Et.
    + injection H as <- <- <-. exists [EvOut (str "Password: ")]. split; [apply O1|]. do 5 (split; [reflexivity|]). discriminate.
    + destruct (Asked w b tl) as (outs & A1 & A2 & A3 & A4 & A5 & A6).
      destruct (decrypt C priv b) as [[u|e|] p'] eqn:Ed; injection H as <- <- <-; exists outs;
        (split; [exact A1|]); (split; [exact A2|]); (split; [exact A3|]); (split; [exact A4|]); (split; [exact A5|]); (split; [exact A6|]).
      * split; [|reflexivity]. right. split; [intro X; apply Check_iff in X; rewrite X in Ec; discriminate|]. exists b, tl. split; [reflexivity|]. destruct u. exact Ed.
      * intros j ->. exfalso. unfold decrypt in Ed. destruct (negb (IsEncrypted priv)); [discriminate|].
        destruct (negb _); [discriminate|]. destruct W as (_ & _ & _ & Ws & _).
        unfold secretKeyLength in Ed. rewrite bcrypt_Key_ok in Ed by exact Ws.
        destruct (_ <? 1); [discriminate|]. destruct b as [|b0 b]; [discriminate|].
        destruct (Check_cases C (set_key priv (xor_bytes (key priv) (pbkdf C (b0 :: b) (salt priv) (kdfRounds priv) 64)))) as [X|X];
          rewrite X in Ed; discriminate.
      * exfalso. pose proof (decrypt_no_panic C priv b W) as NP. rewrite Ed in NP. apply NP. reflexivity.
    + injection H as <- <- <-. exists [EvOut (str "Password: ")]. split; [apply O1|]. do 5 (split; [reflexivity|]).
      intros j ->. left. reflexivity.
    + injection H as <- <- <-. exists [EvOut (str "Password: ")]. split; [apply O1|]. do 5 (split; [reflexivity|]).
      left. reflexivity.
Qed.

Lemma replay_outs fs outs : Forall is_out outs -> replay fs outs = fs.
Proof.
  revert fs. induction outs as [|e outs IH]; intros fs H; [reflexivity|]. inversion H; subst.
  destruct e; try contradiction. apply IH. assumption.
Qed.

Lemma ToBox_runs C priv w p : priv_wf priv -> unlocked C priv (w_tty w) p ->
  exists w', priv_ToBox C priv w = ((Ok (box_secret C (key p)), p), w').
Proof.
  intros W U. rewrite ToBox_eq by exact W. destruct U as [[Ec ->]|[Ec (pass & tl & Et & Ed)]].
  - apply Check_iff in Ec. rewrite Ec. eexists. reflexivity.
  - destruct (Check_cases C priv) as [X|X]; [apply Check_iff in X; contradiction|]. rewrite X, Et, Ed. eexists. reflexivity.
Qed.

Lemma Open_spec C sk ep mp w r w' : Open C sk ep mp w = (r, w') -> ep <> mp -> BoxTidy C ->
  (~ In Panic (w_tty w) -> r <> Panic) /\
  exists evs, w_log w' = w_log w ++ evs /\ w_fs w' = replay (w_fs w) evs /\
  ((evs = [] /\ exists e, r = Err e) \/
   exists kf priv d c t outs evs2, contents w sk kf /\ readPrivateKeyFile kf = Ok priv /\ contents w ep d /\
     d = c ++ x0a :: t /\ lf_free c /\ mp <> [] /\
     evs = EvCreate mp 438 :: outs ++ evs2 /\ Forall is_out outs /\
     ((evs2 = [] /\ r <> Ok tt) \/
      exists p h ms, unlocked C priv (w_tty w) p /\ authentic_header C (box_secret C (key p)) t h /\
        written C (shared_of C (box_secret C (key p)) h) mp 0 (body_text t) ms evs2 /\
        ((r = Ok tt /\ Z.of_nat (length ms) = count_of h /\ evs2 = map (EvAppend mp) ms) \/
         (exists e, r = Err e /\ (forall j, e = EChunk j -> j = Z.of_nat (length ms)) /\ Z.of_nat (length ms) < count_of h)))).
Proof.
  intros H Hne Ht. rewrite Open_eq in H.
  match goal with |- ?G => assert (Early : forall e w1, only_reads w w1 -> (Err e, w1) = (r, w') -> G) end.
  { intros e w1 (O1 & O2 & O3 & O4 & O5) E. injection E as <- <-. split; [discriminate|].
    exists []. split; [rewrite app_nil_r; exact O5|]. split; [exact O1|]. left. split; [reflexivity|]. exists e. reflexivity. }
  destruct (LoadPrivateKey sk w) as [r1 w1] eqn:E1. destruct (LoadPrivateKey_inv _ _ _ _ E1) as (-> & NP1 & L1).
  destruct r1 as [priv|e|]; [| |contradiction].
  2:{ exact (Early e (next w) (only_reads_next w) H). }
  destruct (L1 priv eq_refl) as (kf & Ck & Rk).
  destruct (open_read_spec ep (next w)) as (r2 & w2 & E2 & O2 & N2 & D2). rewrite E2 in H.
  assert (Fr2 : only_reads w w2) by (eapply only_reads_trans; [apply only_reads_next|exact O2]).
  destruct D2 as [(d & -> & Cd & Hh)|(e & -> & _)].
  2:{ exact (Early e w2 Fr2 H). }
  pose proof Cd as (mo & Fd). pose proof Fr2 as (F2f & F2r & F2t & F2b & F2l).
  assert (Fd2 : w_fs w2 ep = Some (File d mo)) by (rewrite F2f; exact Fd).
  destruct (skipComment_file (length (w_fds (next w))) ep d mo w2 Hh Fd2) as (r3 & w3 & E3 & O3 & N3 & C3). rewrite E3 in H.
  assert (Fr3 : only_reads w w3) by (eapply only_reads_trans; [exact Fr2|exact O3]).
  destruct C3 as [(c & t & off & -> & Hc & -> & Hh3 & Hs3)|(e & -> & _)].
  2:{ exact (Early e w3 Fr3 H). }
  pose proof Fr3 as (F3f & F3r & F3t & F3b & F3l).
  destruct (create_file_spec mp 438 w3) as (r4 & w4 & E4 & N4 & C4). rewrite E4 in H.
  destruct C4 as [(-> & -> & Hmp)|(e & -> & -> & _)].
  2:{ exact (Early e (next w3) Fr3 H). }
  clear Early. set (w4 := do_create mp 438 (next w3)) in *. unfold open_file in H.
  destruct (priv_ToBox C priv w4) as [[rb p] w5] eqn:Eb.
  destruct (ToBox_spec C priv w4 rb p w5 (readPrivateKeyFile_wf _ _ Rk) Eb) as (outs & B1 & B2 & B3 & B4 & B5 & B6 & B7).
  assert (W4t : w_tty w4 = w_tty w) by exact F3t. rewrite W4t in B7.
  assert (W4l : w_log w4 = w_log w ++ [EvCreate mp 438]) by (unfold w4; cbn; rewrite F3l; reflexivity).
  assert (W4f : w_fs w4 = replay (w_fs w) [EvCreate mp 438]) by (unfold w4; cbn; rewrite F3f; reflexivity).
  assert (W5l : w_log w5 = w_log w ++ EvCreate mp 438 :: outs) by (rewrite B2, W4l, <- app_assoc; reflexivity).
  assert (W5f : w_fs w5 = replay (w_fs w) (EvCreate mp 438 :: outs)).
  { change (EvCreate mp 438 :: outs) with ([EvCreate mp 438] ++ outs). rewrite replay_app, replay_outs, B3, W4f by exact B1. reflexivity. }
  destruct rb as [edpriv|e|].
  - destruct B7 as [U ->]. 
    assert (Fd5 : w_fs w5 ep = Some (File (c ++ x0a :: t) mo)).
    { rewrite B3, W4f. cbn. rewrite fs_create_other by exact Hne. exact Fd. }
    assert (Hh5 : handle w5 (length (w_fds (next w))) ep off) by (unfold handle; rewrite B4; exact Hh3).
    destruct (open_body_spec C _ mp ep _ mo _ Hne Ht off w5 r w' Hh5 Fd5 H) as (K & N & Cs).
    rewrite Hs3 in Cs. destruct Cs as [(G1 & G2 & (e & -> & _) & _)|(h & ms & evs & G1 & G2 & G3 & G4 & G5)].
    + split; [discriminate|]. exists (EvCreate mp 438 :: outs). split; [rewrite G2; exact W5l|]. split; [rewrite G1; exact W5f|].
      right. exists kf, priv, (c ++ x0a :: t), c, t, outs, []. rewrite app_nil_r. 
      do 8 (split; [first [assumption|reflexivity]|]). left. split; [reflexivity|discriminate].
    + split; [intros _; destruct G5 as [(-> & _)|(e & -> & _)]; discriminate|].
      exists (EvCreate mp 438 :: outs ++ evs).
      split; [rewrite G4, W5l, <- app_assoc; reflexivity|].
      split; [rewrite G3, W5f, <- replay_app; reflexivity|].
      right. exists kf, priv, (c ++ x0a :: t), c, t, outs, evs.
      do 8 (split; [first [assumption|reflexivity]|]). right. exists p, h, ms. auto.
  - injection H as <- <-. split; [discriminate|]. exists (EvCreate mp 438 :: outs). split; [exact W5l|]. split; [exact W5f|].
    right. exists kf, priv, (c ++ x0a :: t), c, t, outs, []. rewrite app_nil_r.
    do 8 (split; [first [assumption|reflexivity]|]). left. split; [reflexivity|discriminate].
  - injection H as <- <-. split; [intro X; contradiction|]. exists (EvCreate mp 438 :: outs). split; [exact W5l|]. split; [exact W5f|].
    right. exists kf, priv, (c ++ x0a :: t), c, t, outs, []. rewrite app_nil_r.
    do 8 (split; [first [assumption|reflexivity]|]). left. split; [reflexivity|discriminate].
Qed.

Lemma replay_appends fs p ms d m : fs p = Some (File d m) ->
  replay fs (map (EvAppend p) ms) p = Some (File (d ++ concat ms) m).
Proof.
  revert fs d. induction ms as [|x ms IH]; intros fs d H; cbn [map concat].
  - rewrite app_nil_r. exact H.
  - change (replay fs (EvAppend p x :: map (EvAppend p) ms)) with (replay (fs_append fs p x) (map (EvAppend p) ms)).
    rewrite (IH _ (d ++ x)); [rewrite <- app_assoc; reflexivity|]. rewrite fs_append_same, H. reflexivity.
Qed.
Lemma replay_appends_other fs p ms q : q <> p -> replay fs (map (EvAppend p) ms) q = fs q.
Proof.
  intro H. revert fs. induction ms as [|x ms IH]; intro fs; [reflexivity|]. cbn [map].
  change (replay fs (EvAppend p x :: map (EvAppend p) ms)) with (replay (fs_append fs p x) (map (EvAppend p) ms)).
  rewrite IH. apply fs_append_other, H.
Qed.

Lemma Open_runs C sk ep mp w kf priv c t p h ms : ep <> mp -> mp <> [] -> BoxTidy C -> BoxCorrect C -> no_faults w ->
  contents w sk kf -> readPrivateKeyFile kf = Ok priv -> contents w ep (c ++ x0a :: t) -> lf_free c ->
  unlocked C priv (w_tty w) p -> authentic_header C (box_secret C (key p)) t h ->
  authentic C (shared_of C (box_secret C (key p)) h) 0 (body_text t) ms -> Z.of_nat (length ms) = count_of h ->
  exists w', Open C sk ep mp w = (Ok tt, w') /\ no_faults w' /\
    w_fs w' mp = Some (File (concat ms) (file_mode (w_fs w) mp 438)) /\
    (forall x, x <> mp -> w_fs w' x = w_fs w x).
Proof.
  intros Hne Hmp Ht BC Hn Ck Rk Cd Hc U Ah A Cn. rewrite Open_eq.
  rewrite LoadPrivateKey_eq, (ReadFile_contents sk w kf) by (try apply undisturbed_nil; assumption).
  rewrite Rk, next_id by exact Hn.
  destruct (open_read_spec ep w) as (r2 & w2 & E2 & O2 & N2 & D2). rewrite E2. specialize (N2 Hn).
  pose proof Cd as (mo & Fd). 
  destruct D2 as [(d & -> & Cd' & Hh)|(e & -> & D2)]; [|rewrite (D2 Hn) in Fd; discriminate].
  pose proof (contents_fun _ _ _ _ Cd' Cd) as ->. pose proof O2 as (F2f & F2r & F2t & F2b & F2l).
  assert (Fd2 : w_fs w2 ep = Some (File (c ++ x0a :: t) mo)) by (rewrite F2f; exact Fd).
  destruct (skipComment_file (length (w_fds w)) ep _ mo w2 Hh Fd2) as (r3 & w3 & E3 & O3 & N3 & C3). rewrite E3. specialize (N3 N2).
  destruct C3 as [(c' & t' & off & Ect & Hc' & -> & Hh3 & Hs3)|(e & -> & C3)].
  2:{ exfalso. apply (C3 N2). apply in_or_app. right. left. reflexivity. }
  destruct (first_line_unique _ _ _ _ Ect Hc Hc') as [<- <-]. clear Ect Hc'.
  assert (Fr3 : only_reads w w3) by (eapply only_reads_trans; [exact O2|exact O3]).
  pose proof Fr3 as (F3f & F3r & F3t & F3b & F3l).
  destruct (create_file_spec mp 438 w3) as (r4 & w4 & E4 & N4 & C4). rewrite E4. specialize (N4 N3).
  destruct C4 as [(-> & -> & _)|(e & -> & -> & C4)]; [|exfalso; apply Hmp, C4, N3].
  set (w4 := do_create mp 438 (next w3)) in *. unfold open_file.
  assert (W4t : w_tty w4 = w_tty w) by exact F3t. rewrite <- W4t in U.
  destruct (ToBox_runs C priv w4 p (readPrivateKeyFile_wf _ _ Rk) U) as (w5 & Eb). rewrite Eb.
  destruct (ToBox_spec C priv w4 _ p w5 (readPrivateKeyFile_wf _ _ Rk) Eb) as (outs & B1 & B2 & B3 & B4 & B5 & B6 & B7).
  assert (W4f : w_fs w4 = fs_create (w_fs w) mp 438) by (unfold w4; cbn; rewrite F3f; reflexivity).
  assert (Fd5 : w_fs w5 ep = Some (File (c ++ x0a :: t) mo)).
  { rewrite B3, W4f. rewrite fs_create_other by exact Hne. exact Fd. }
  assert (Hh5 : handle w5 (length (w_fds w)) ep off) by (unfold handle; rewrite B4; exact Hh3).
  assert (N5 : no_faults w5) by (unfold no_faults; rewrite B5; exact N4).
  rewrite <- Hs3 in Ah, A.
  destruct (open_body_ok C _ mp ep _ mo _ Hne Ht off w5 h ms BC Hh5 Fd5 N5 Ah A Cn) as (w6 & E6 & N6 & K6 & F6).
  exists w6. split; [exact E6|]. split; [exact N6|]. split.
  - rewrite F6, (replay_appends _ _ _ [] (file_mode (w_fs w) mp 438)); [reflexivity|]. rewrite B3, W4f, fs_create_same. reflexivity.
  - intros x Hx. rewrite F6, replay_appends_other by exact Hx. rewrite B3, W4f. apply fs_create_other, Hx.
Qed.
