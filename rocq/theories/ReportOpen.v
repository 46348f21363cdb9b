(* Open reports what SpecReport.v says. *)
From Verif Require Export ReportFacts RoundTrip.
Local Open Scope Z_scope.

Lemma decoded t b : DecodeString t = Ok b <-> base64_of (no_crlf t) b.
Proof. apply decode_iff. Qed.

(* ---- the boxes ---- *)
Section Boxes.
Variables (C : Crypto) (shared : bytes) (fd : nat) (mp ep : path) (d : bytes) (mo : Z).
Hypothesis Hne : ep <> mp.
Notation step := (open_step C world shared (file_decoder fd) (file_write mp)).
Definition loop_result (x : (bytes * world) + (res unit * world)) : res unit := match x with inl _ => Ok tt | inr (r, _) => r end.

Lemma open_loop_outcome k : forall i off w, 0 <= i -> i + Z.of_nat k < 2 ^ 192 ->
  handle w fd ep off -> w_fs w ep = Some (File d mo) -> no_faults w ->
  boxes_outcome C shared (i + Z.of_nat k) i (no_lf (skipn off d)) (loop_result (iter_loop k step i (nonce i, w))).
Proof.
  induction k as [|k IH]; intros i off w Hi Hk Hh Hf Hn; cbn [iter_loop].
  - replace (i + Z.of_nat 0) with i by lia. apply BoxEnd.
  - assert (Lt : i < i + Z.of_nat (Datatypes.S k)) by lia.
    destruct (step i (nonce i, w)) as [[n w1]|[x w1]] eqn:E; unfold open_step in E; rewrite sealed_nat_3 in E;
    destruct (file_decoder_spec fd ep d mo off (Z.to_nat 5467) w Hh Hf) as (r & w2 & Er & O & N & Cs); rewrite Er in E;
    rewrite <- piece_chars_4 in Cs; pose proof O as (Of & _); specialize (N Hn);
    (destruct Cs as [(off' & Hh1 & Ht1 & [(b & -> & ED)|(b & at_ & -> & ED)])|(b & -> & Hnf)]; [| |contradiction (Hnf Hn)]); try discriminate E.
    + destruct (box_open C b (nonce i) shared) as [m|] eqn:Eo; [|discriminate E].
      destruct (file_write mp m w2) as [[nn er] w3] eqn:Ew.
      destruct (file_write_frame _ _ _ _ _ _ Ew) as (a & b' & -> & Hr & Hfs & Hl & (S1 & S2 & S3 & S4) & Hn').
      destruct er as [er|]; [discriminate E|]. rewrite incrementNonce_nonce in E by lia. injection E as <- <-.
      apply (BoxNext _ _ _ _ _ b _ _ Lt (proj1 (decoded _ _) ED) Eo). rewrite <- Ht1.
      replace (i + Z.of_nat (Datatypes.S k)) with (i + 1 + Z.of_nat k) by lia.
      apply IH; try lia.
      * unfold handle. rewrite S4. exact Hh1.
      * rewrite Hfs, fs_append_other, Of by exact Hne. exact Hf.
      * apply Hn', N.
    + destruct (box_open C b (nonce i) shared) as [m|] eqn:Eo.
      * exfalso. destruct (file_write mp m w2) as [[nn er] w3] eqn:Ew.
        destruct (file_write_frame _ _ _ _ _ _ Ew) as (a & b' & -> & Hr & Hfs & Hl & _ & Hn').
        destruct (Hn' N) as [-> _]. rewrite incrementNonce_nonce in E by lia. discriminate E.
      * injection E as <- <-. apply (BoxBad _ _ _ _ _ b Lt (proj1 (decoded _ _) ED) Eo).
    + injection E as <- <-. apply (BoxText _ _ _ _ _ _ Lt (proj1 (fault_iff _ _) ED)).
Qed.
End Boxes.

Lemma boxes_fun C shared n i t o : boxes_outcome C shared n i t o -> forall o', boxes_outcome C shared n i t o' -> o = o'.
Proof.
  induction 1 as [t|i t j L N|i t b L B O|i t b m o L B O H IH]; intros o' H'; inversion H'; subst; try reflexivity; try lia.
  all: repeat match goal with
  | N : faulty_at ?x _, B : base64_of (no_crlf ?x) _ |- _ => exfalso; exact (fault_not_text _ _ _ N B)
  | N : faulty_at ?x ?a, B : faulty_at ?x ?b |- _ => pose proof (faulty_unique _ _ _ N B); subst b; clear B
  | B : base64_of ?x ?b, B' : base64_of ?x ?c |- _ => apply decoded in B; apply decoded in B'; rewrite B in B'; apply Ok_inj in B'; subst c
  end; try congruence; auto.
Qed.

Lemma open_body_outcome C edpriv fd mp ep d mo off w : ep <> mp ->
  handle w fd ep off -> w_fs w ep = Some (File d mo) -> no_faults w ->
  text_outcome C edpriv (skipn off d) (fst (open_body C world edpriv (file_decoder fd) (file_write mp) w)).
Proof.
  intros Hne Hh Hf Hn. unfold open_body. rewrite header_nat_3.
  destruct (file_decoder_spec fd ep d mo off 24 w Hh Hf) as (rr & w1 & E & O & N & Cs). rewrite E.
  rewrite <- header_chars_4 in Cs. pose proof O as (Of & _). specialize (N Hn).
  destruct Cs as [(off' & Hh1 & Ht1 & [(b & -> & ED)|(b & at_ & -> & ED)])|(b & -> & Hnf)]; [| |contradiction (Hnf Hn)].
  2: { apply HText. exact (proj1 (fault_iff _ _) ED). }
  apply decoded in ED. rewrite <- header_nat_3. change header_nat with 72%nat.
  destruct (Nat.eqb_spec (length b) 72) as [Lb|Lb]; cbn [negb].
  2: { exact (HShort _ _ _ _ ED Lb). }
  change (firstn 8 b) with (slice 0 8 b). change (firstn 32 (skipn 8 b)) with (slice 8 32 b).
  change (firstn 40 b) with (slice 0 40 b). rewrite (slice_all 40 32 b Lb). unfold auth_Verify.
  destruct (bytes_eqb (slice 40 32 b) _) eqn:Ea; cbn [negb].
  2: { apply bytes_eqb_neq in Ea. exact (HBad _ _ _ _ ED Lb Ea). }
  apply bytes_eqb_eq in Ea. rewrite for_loop_iter, zeroNonce_eq.
  pose proof (count_range b) as R. unfold count_of in R.
  pose proof (open_loop_outcome C (box_precompute C (slice 8 32 b) edpriv) fd mp ep d mo Hne (Z.to_nat (be_decode (slice 0 8 b))) 0 off' w1
    ltac:(lia) ltac:(lia) Hh1 ltac:(rewrite Of; exact Hf) N) as L.
  rewrite Ht1 in L. replace (0 + Z.of_nat (Z.to_nat (be_decode (slice 0 8 b)))) with (be_decode (slice 0 8 b)) in L by lia.
  apply (HBoxes _ _ _ b _ ED Lb Ea). destruct (iter_loop _ _ _ _) as [[n w2]|[x w2]]; exact L.
Qed.

Lemma text_fun C edpriv t o o' : text_outcome C edpriv t o -> text_outcome C edpriv t o' -> o = o'.
Proof.
  intros H H'. destruct H as [j N|h B L|h B L A|h o B L A H]; inversion H'; subst; try reflexivity.
  all: repeat match goal with
  | N : faulty_at ?x _, B : base64_of (no_crlf ?x) _ |- _ => exfalso; exact (fault_not_text _ _ _ N B)
  | N : faulty_at ?x ?a, B : faulty_at ?x ?b |- _ => pose proof (faulty_unique _ _ _ N B); subst b; clear B
  | B : base64_of ?x ?b, B' : base64_of ?x ?c |- _ => apply decoded in B; apply decoded in B'; rewrite B in B'; apply Ok_inj in B'; subst c
  end; try contradiction; try reflexivity. exact (boxes_fun _ _ _ _ _ _ H _ H3).
Qed.

(* ---- the key ---- *)
Lemma ToBox_outcome C a kdf r s c n k w : priv_wf (Priv a kdf r s c n k) ->
  exists x, box_key (sha512 C) (fun pass salt r => pbkdf C pass salt r 64) w kdf r s c k x /\
    fst (fst (priv_ToBox C (Priv a kdf r s c n k) w)) = match x with Ok k => Ok (box_secret C k) | Err e => Err e | Panic => Panic end.
Proof.
  intro W. rewrite ToBox_eq by exact W. rewrite check_is.
  destruct (bytes_eqb (firstn 8 (sha512 C k)) c) eqn:E.
  { apply bytes_eqb_eq in E. exists (Ok k). split; [apply BSum; exact E|reflexivity]. }
  apply bytes_eqb_neq in E. destruct (w_tty w) as [|[pass|e|] tl] eqn:Ty.
  - exists (Err ETty). split; [apply BTty; [exact E|unfold answers; rewrite Ty; reflexivity]|reflexivity].
  - assert (An : answers w (Ok pass)) by (unfold answers; rewrite Ty; reflexivity).
    destruct (Z.eq_dec r 0) as [-> | Nz].
    { exists (Ok k). split; [exact (BPlain _ _ _ _ _ _ _ _ pass E An eq_refl)|]. rewrite decrypt_plain by reflexivity. reflexivity. }
    destruct (decrypt_cases C a kdf r s c n k pass W Nz) as [(t & U & Ed)|(U & p & Ed)].
    + exists (Err (EMsg t)). split; [exact (BLocked _ _ _ _ _ _ _ _ _ _ E An Nz U)|].
      destruct (decrypt C _ pass) as [[u|e|] p']; cbn [fst] in Ed |- *; try discriminate. injection Ed as ->. reflexivity.
    + exists (Ok (xor_bytes k (pbkdf C pass s r 64))). split; [exact (BUnlocked _ _ _ _ _ _ _ _ _ E An Nz U)|].
      rewrite Ed. cbn [fst]. f_equal. f_equal.
      assert (IE : IsEncrypted (Priv a kdf r s c n k) = true) by (unfold IsEncrypted; cbn; apply Z.gtb_lt; destruct W as (_ & _ & W & _); cbn in W; lia).
      rewrite decrypt_enc in Ed by assumption. cbn [kdfAlgo] in Ed. destruct (bytes_eqb kdf (str "BK")); [|discriminate].
      destruct pass as [|x pass]; [discriminate|]. cbv zeta in Ed. injection Ed as _ <-. reflexivity.
  - exists (Err e). split; [apply BTty; [exact E|unfold answers; rewrite Ty; reflexivity]|reflexivity].
  - exists Panic. split; [apply BTtyPanic; [exact E|unfold answers; rewrite Ty; reflexivity]|reflexivity].
Qed.
Lemma box_key_fun hash derive w kdf r s c k x y : box_key hash derive w kdf r s c k x -> box_key hash derive w kdf r s c k y -> x = y.
Proof.
  intros H H'. destruct H; inversion H'; subst; try reflexivity; try contradiction; unfold answers in *; try congruence.
  all: repeat match goal with A : Ok ?p = hd _ _, B : Ok ?q = hd _ _ |- _ => rewrite <- A in B; apply Ok_inj in B; subst q end; try reflexivity.
  - f_equal. f_equal. match goal with A : unlock_error _ _ _ _ _ _ _ _ _, B : unlock_error _ _ _ _ _ _ _ _ _ |- _ => destruct A, B; congruence end.
  - exfalso. match goal with A : unlock_error _ _ _ _ _ _ _ _ _, B : unlocks _ _ _ _ _ _ _ _ |- _ => destruct B as (? & ? & ?); destruct A; congruence end.
  - exfalso. match goal with A : unlock_error _ _ _ _ _ _ _ _ _, B : unlocks _ _ _ _ _ _ _ _ |- _ => destruct B as (? & ? & ?); destruct A; congruence end.
Qed.

Lemma box_key_world hash derive w v kdf r s c k x : w_tty w = w_tty v ->
  box_key hash derive w kdf r s c k x -> box_key hash derive v kdf r s c k x.
Proof.
  intros E B. assert (An : forall z, answers w z -> answers v z) by (intros z A; unfold answers in *; rewrite <- E; exact A).
  destruct B; [apply BSum|apply BTty|apply BTtyPanic|apply (BPlain _ _ _ _ _ _ _ _ pass)|apply (BLocked _ _ _ _ _ _ _ _ pass)|apply (BUnlocked _ _ _ _ _ _ _ _ pass)]; auto.
Qed.

(* ---- the first line ---- *)
Lemma skip_loop_eof fd p d mo t : forall fuel off c0 w,
  handle w fd p off -> w_fs w p = Some (File d mo) -> skipn off d = t -> (length t < fuel)%nat -> no_faults w -> ~ In x0a t ->
  fst (skip_loop fuel (file_read fd) c0 w) = Some (Err EOF).
Proof.
  induction t as [|x t IH]; intros fuel off c0 w Hh Hf Ht Hfu Hn Hl; (destruct fuel as [|fuel]; [cbn in Hfu; lia|]); cbn [skip_loop];
    destruct (file_read_spec fd p off d mo 1 w Hh Hf ltac:(lia)) as (r & w1 & E1 & O1 & N1 & C1); rewrite E1;
    destruct C1 as [(got & -> & Hg & Hl' & Hh1 & rest & Hs & Hex)|[(-> & Hs & Hh1)|(-> & Hfa)]]; try contradiction.
  - rewrite Ht in Hs. destruct got; [contradiction Hg; reflexivity|discriminate].
  - reflexivity.
  - rewrite (Hex (or_intror eq_refl)), Ht in *. cbn [firstn length] in *. pose proof (skipn_cons_tl _ _ _ _ Ht) as Ht1.
    destruct (beqb x x0a) eqn:Ex; [apply beqb_eq in Ex; contradiction Hl; left; exact Ex|].
    pose proof O1 as (O1f & _). apply (IH fuel (off + 1)%nat); try assumption; [rewrite O1f; exact Hf|lia|exact (N1 Hn)|].
    intro X. apply Hl. right. exact X.
  - rewrite Ht in Hs. discriminate.
Qed.

Lemma private_text_fun file kdf r s c k kdf' r' s' c' k' : private_text file kdf r s c k -> private_text file kdf' r' s' c' k' ->
  kdf = kdf' /\ r = r' /\ s = s' /\ c = c' /\ k = k'.
Proof.
  intros H H'. apply private_text_read in H. apply private_text_read in H'. destruct H as (a & n & H). destruct H' as (a' & n' & H').
  rewrite H in H'. injection H' as <- <- <- <- <- <- <-. auto.
Qed.
Lemma error_not_text file e kdf r s c k : private_error file e -> private_text file kdf r s c k -> False.
Proof. intros H H'. apply private_error_read in H. apply private_text_read in H'. destruct H' as (a & n & H'). congruence. Qed.

Theorem Open_has_outcome C sk ep mp w : no_faults w -> ep <> mp ->
  open_outcome C (box_secret C) (fun pass salt r => pbkdf C pass salt r 64) w sk ep mp (fst (Open C sk ep mp w)).
Proof.
  intros Hn Hne. rewrite Open_eq, LoadPrivateKey_eq.
  destruct (contents_dec w sk) as [(kf & Ck)|Ck].
  2: { rewrite ReadFile_eq. unfold no_faults in Hn. rewrite Hn. cbn. rewrite Ck. apply OKeyRead. exact Ck. }
  rewrite (ReadFile_contents sk w kf) by (try apply undisturbed_nil; assumption). rewrite next_id by exact Hn.
  destruct (private_cases kf) as [(e & E)|([a kdf r s c n k] & E)].
  { rewrite (private_error_read _ _ E). exact (OKey _ _ _ _ _ _ _ _ _ Ck E). }
  rewrite E. assert (T : private_text kf kdf r s c k) by (apply private_text_read; exists a, n; exact E).
  assert (W : priv_wf (Priv a kdf r s c n k)) by (apply private_file_iff in E; apply E).
  destruct (open_read_spec ep w) as (r2 & w2 & E2 & O2 & N2 & D2). rewrite E2. specialize (N2 Hn).
  destruct D2 as [(d & -> & Cd & Hh)|(e & -> & D2)].
  2: { specialize (D2 Hn). assert (e = ENotExist ep) as ->.
       { unfold open_read in E2. rewrite pop_fault_eq in E2. unfold no_faults in Hn. rewrite Hn in E2. cbn [hd] in E2.
         change (w_fs (next w) ep) with (w_fs w ep) in E2. rewrite D2 in E2. injection E2 as <- _. reflexivity. }
       exact (OFile _ _ _ _ _ _ _ _ _ _ _ _ _ Ck T D2). }
  pose proof O2 as (F2f & F2r & F2t & F2b & F2l). pose proof Cd as (mo & Fd).
  assert (Fd2 : w_fs w2 ep = Some (File d mo)) by (rewrite F2f; exact Fd).
  destruct (in_dec Byte.byte_eq_dec x0a d) as [Hin|Hin].
  2: { assert (X : fst (skipComment (file_fuel (length (w_fds w))) (file_read (length (w_fds w))) w2) = Err EOF).
       { unfold skipComment. 
         pose proof (skip_loop_eof (length (w_fds w)) ep d mo d (file_fuel (length (w_fds w)) w2) 0 x00 w2 Hh Fd2 eq_refl) as Y.
         destruct (skip_loop _ _ _ _) as [o w3]. cbn [fst] in Y. rewrite Y; [reflexivity| |exact N2|exact Hin].
         unfold file_fuel, remaining. unfold handle in Hh. rewrite Hh, Fd2. cbn [f_data]. lia. }
       destruct (skipComment _ _ w2) as [r3 w3]. cbn [fst] in X. rewrite X. exact (OLine _ _ _ _ _ _ _ _ _ _ _ _ _ _ Ck T Cd Hin). }
  destruct (skipComment_file (length (w_fds w)) ep _ mo w2 Hh Fd2) as (r3 & w3 & E3 & O3 & N3 & C3). rewrite E3. specialize (N3 N2).
  destruct C3 as [(c' & t' & off & -> & Hc' & -> & Hh3 & Hs3)|(e & -> & C3)].
  2: { contradiction (C3 N2 Hin). }
  assert (Fr3 : only_reads w w3) by (eapply only_reads_trans; [exact O2|exact O3]).
  pose proof Fr3 as (F3f & F3r & F3t & F3b & F3l).
  destruct (list_eq_dec Byte.byte_eq_dec mp []) as [-> | Hmp].
  { unfold create_file. rewrite pop_fault_eq. unfold no_faults in N3. rewrite N3. cbn [hd fst].
    exact (ONoName _ _ _ _ _ _ _ _ _ _ _ _ _ _ Ck T Cd Hin eq_refl). }
  destruct (create_file_spec mp 438 w3) as (r4 & w4 & E4 & N4 & C4). rewrite E4. specialize (N4 N3).
  destruct C4 as [(-> & -> & _)|(e & -> & -> & C4)]; [|exfalso; apply Hmp, C4, N3].
  unfold open_file. set (w4 := do_create mp 438 (next w3)) in *.
  destruct (ToBox_outcome C a kdf r s c n k w4 W) as (x & B & Ex).
  assert (B' : box_key (sha512 C) (fun pass salt r => pbkdf C pass salt r 64) w kdf r s c k x).
  { revert B. apply box_key_world. exact F3t. }
  destruct (priv_ToBox C (Priv a kdf r s c n k) w4) as [[rb p] w5] eqn:Eb. cbn [fst] in Ex.
  destruct (ToBox_spec C _ w4 rb p w5 W Eb) as (outs & B1 & B2 & B3 & B4 & B5 & B6 & _).
  destruct x as [k'|e|]; subst rb; cbn [fst].
  2: { exact (OLocked _ _ _ _ _ _ _ _ _ _ _ _ _ _ _ Ck T Cd Hin Hmp B'). }
  2: { exact (OPanic _ _ _ _ _ _ _ _ _ _ _ _ _ _ Ck T Cd Hin Hmp B'). }
  apply (OText _ _ _ _ _ _ _ kf kdf r s c k c' t' k' _ Ck T Cd Hc' Hmp B').
  rewrite <- Hs3 at 1. apply (open_body_outcome C (box_secret C k') (length (w_fds w)) mp ep (c' ++ x0a :: t') mo off w5 Hne).
  - unfold handle. rewrite B4. exact Hh3.
  - rewrite B3. change (w_fs w4) with (fs_create (w_fs w3) mp 438). rewrite fs_create_other, F3f by exact Hne. exact Fd.
  - unfold no_faults. rewrite B5. exact N4.
Qed.

Lemma contents_none w p d : contents w p d -> w_fs w p = None -> False.
Proof. intros (m & H) E. congruence. Qed.
Lemma in_line (c t : bytes) : In x0a (c ++ x0a :: t).
Proof. apply in_or_app. right. left. reflexivity. Qed.

Lemma open_outcome_fun C secret derive w sk ep mp o o' :
  open_outcome C secret derive w sk ep mp o -> open_outcome C secret derive w sk ep mp o' -> o = o'.
Proof.
  intros H H'. destruct H; inversion H'; subst; try reflexivity.
  all: try (exfalso; match goal with A : contents ?w ?p _, B : w_fs ?w ?p = None |- _ => exact (contents_none _ _ _ A B) end).
  all: repeat match goal with
  | A : contents ?w ?p ?x, B : contents ?w ?p ?y |- _ =>
      lazymatch x with y => fail | _ => pose proof (contents_fun _ _ _ _ A B); clear B; try subst y; try subst x end
  end.
  all: try (exfalso; solve [eapply error_not_text; eassumption]).
  all: try (apply f_equal; solve [eapply private_error_fun; eassumption]).
  all: try (match goal with A : private_text ?f _ _ _ _ _, B : private_text ?f _ _ _ _ _ |- _ =>
      destruct (private_text_fun _ _ _ _ _ _ _ _ _ _ _ A B) as (? & ? & ? & ? & ?); subst end).
  all: try contradiction; try (exfalso; match goal with A : ~ In x0a ?d |- _ => apply A; first [assumption|subst; apply in_line] end).
  all: try (match goal with A : box_key _ _ _ _ _ _ _ _ _, B : box_key _ _ _ _ _ _ _ _ _ |- _ =>
      pose proof (box_key_fun _ _ _ _ _ _ _ _ _ _ A B) as X; try discriminate X; first [injection X as ->|injection X] end; try reflexivity).
  match goal with E : ?c ++ x0a :: ?t = ?c' ++ x0a :: ?t' |- _ => destruct (first_line_unique _ _ _ _ E) as [? ?]; [assumption|assumption|subst] end.
  intros; subst. eapply text_fun; eassumption.
Qed.

Theorem Open_outcome C sk ep mp w r : no_faults w -> ep <> mp -> fst (Open C sk ep mp w) = r <->
  open_outcome C (box_secret C) (fun pass salt r => pbkdf C pass salt r 64) w sk ep mp r.
Proof.
  intros Hn Hne. pose proof (Open_has_outcome C sk ep mp w Hn Hne) as H. split; [intros <-; exact H|].
  intro H'. exact (open_outcome_fun _ _ _ _ _ _ _ _ _ H H').
Qed.
