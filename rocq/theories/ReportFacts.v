(* Verify and Sign report what SpecReport.v says. *)
From Verif Require Export SpecReport TextKeys Torn FaultFacts.
Local Open Scope Z_scope.

Lemma fails_dec w n : {call_fails w n} + {~ call_fails w n}.
Proof. unfold call_fails. destruct (nth n (w_faults w) FOk); [right|left|right]; auto. Qed.
Lemma fails_next w n : call_fails (next w) n <-> call_fails w (Datatypes.S n).
Proof. unfold call_fails, next. cbn [w_faults set_faults]. destruct (w_faults w) as [|f r]; [destruct n|]; reflexivity. Qed.
Lemma fails_hd w : call_fails w 0 <-> ~ not_failing (hd FOk (w_faults w)).
Proof. unfold call_fails, not_failing. destruct (w_faults w) as [|[|k|k] r]; cbn; intuition. Qed.

Lemma ReadFile_reads p w d : reads w 0 p d -> ReadFile p w = (Ok d, next w).
Proof.
  intros [F H]. apply ReadFile_ok. rewrite fails_hd in F. split; [|split; [exact H|reflexivity]].
  destruct (hd FOk (w_faults w)); cbn in *; auto.
Qed.
Lemma ReadFile_error p w e : read_error w 0 p e -> ReadFile p w = (Err e, next w).
Proof.
  rewrite ReadFile_eq. unfold read_error, call_fails. destruct (w_faults w) as [|f r]; cbn [nth hd].
  - intros [[[] _]|(_ & -> & ->)]. reflexivity.
  - destruct f; intros [[F ->]|(F & H & ->)]; cbn in *; try contradiction; try rewrite H; try reflexivity; contradiction.
Qed.
Lemma ReadFile_cases p w : (exists e, read_error w 0 p e) \/ (exists d, reads w 0 p d).
Proof.
  destruct (fails_dec w 0) as [F|F]; [left; exists EFault; left; auto|].
  destruct (contents_dec w p) as [(d & H)|H]; [right; exists d; split; assumption | left; exists (ENotExist p); right; auto].
Qed.
Lemma read_error_next w n p e : read_error (next w) n p e <-> read_error w (Datatypes.S n) p e.
Proof. unfold read_error. rewrite fails_next. reflexivity. Qed.
Lemma reads_next w n p d : reads (next w) n p d <-> reads w (Datatypes.S n) p d.
Proof. unfold reads. rewrite fails_next. reflexivity. Qed.

(* ---- the files ---- *)
Lemma public_error_read file e : public_error file e -> readPublicKeyFile file = Err e.
Proof.
  intro H. unfold readPublicKeyFile, rbind. destruct H as [i H|d H L].
  - apply data_file_fault in H. rewrite H. reflexivity.
  - apply data_file_iff in H. destruct H as (com & ->). cbn [df_data]. unfold readPublicKeyData.
    destruct (Nat.eqb_spec (length d) (keyAlgoLength + keyNumLength + publicKeyLength)) as [E|_]; [contradiction|reflexivity].
Qed.
Lemma public_cases file : (exists e, public_error file e) \/
  (exists d a n k, holds file d /\ length d = 42%nat /\ fields3 2 8 32 d a n k /\ readPublicKeyFile file = Ok (Pub a n k)).
Proof.
  destruct (readPublicKeyFile file) as [[a n k]|e|] eqn:E.
  - right. apply public_file_iff in E as E'. destruct E' as (H & La & Ln & Lk). exists (a ++ n ++ k), a, n, k.
    split; [exact H|]. split; [rewrite !app_length; lia|]. split; [split; auto|reflexivity].
  - left. exists e. unfold readPublicKeyFile, rbind in E.
    destruct (readDataFileBytes file) as [[com d]|e'|] eqn:Ed; try discriminate.
    + cbn [df_data] in E. unfold readPublicKeyData in E.
      destruct (Nat.eqb_spec (length d) (keyAlgoLength + keyNumLength + publicKeyLength)) as [|L]; [discriminate|].
      injection E as <-. apply PubLength; [apply data_file_iff; exists com; exact Ed|exact L].
    + injection E as <-. destruct (data_file_error _ _ Ed) as (i & ->).
      apply PubText. apply data_file_fault. exact Ed.
  - contradiction (readPublicKeyFile_no_panic _ E).
Qed.
Lemma private_short d : (length d <= 40)%nat -> readPrivateKeyData d =
  if ((5 <=? length d) && (length d <=? 7))%nat then Err ErrUnexpectedEOF else Err EOF.
Proof. intro L. do 41 (destruct d as [|? d]; [reflexivity|]). cbn [length] in L. lia. Qed.
Lemma private_error_read file e : private_error file e -> readPrivateKeyFile file = Err e.
Proof.
  intro H. unfold readPrivateKeyFile, rbind. destruct H as [i H|d H L|d H L].
  - apply data_file_fault in H. rewrite H. reflexivity.
  - apply data_file_iff in H. destruct H as (com & ->). cbn [df_data]. rewrite private_short by lia.
    destruct (Nat.leb_spec 5 (length d)), (Nat.leb_spec (length d) 7); cbn [andb]; try reflexivity. lia.
  - apply data_file_iff in H. destruct H as (com & ->). cbn [df_data]. rewrite private_short by lia.
    destruct (Nat.leb_spec 5 (length d)), (Nat.leb_spec (length d) 7); cbn [andb]; try reflexivity; lia.
Qed.
Lemma private_cases file : (exists e, private_error file e) \/ (exists p, readPrivateKeyFile file = Ok p).
Proof.
  destruct (readDataFileBytes file) as [[com d]|e|] eqn:E.
  - assert (H : holds file d) by (apply data_file_iff; exists com; exact E).
    destruct (le_dec (length d) 40) as [L|L].
    + left. destruct (le_dec (length d) 4), (le_dec 8 (length d));
        solve [exists EOF; apply (SecEOF _ d); [exact H|lia] | exists ErrUnexpectedEOF; apply (SecCut _ d); [exact H|lia]].
    + right. unfold readPrivateKeyFile, rbind. rewrite E. cbn [df_data].
      destruct (readPrivateKeyData d) as [p|e|] eqn:R; [exists p; reflexivity| |contradiction (read_private_no_panic _ R)].
      exfalso. destruct (proj2 (read_private_iff d)) as (p & R'); [lia|congruence].
  - left. destruct (data_file_error _ _ E) as (i & ->). exists (CorruptInput i). apply SecText. apply data_file_fault. exact E.
  - contradiction (data_file_total file).
Qed.
Lemma signature_cases file : (exists i, misread file i /\ readSignatureFile file = Err (CorruptInput i)) \/
  (exists d, holds file d /\ (length d < 10)%nat /\ readSignatureFile file = Panic) \/
  (exists d a n s, holds file d /\ (10 <= length d)%nat /\ fields3 2 8 64 (zero_extend 74 d) a n s /\ readSignatureFile file = Ok (Sig a n s)).
Proof.
  destruct (readSignatureFile file) as [[a n s]|e|] eqn:E.
  - right. right. apply signature_file_iff in E as E'. destruct E' as ((d & H & L & Eq) & La & Ln & Ls).
    exists d, a, n, s. split; [exact H|]. split; [exact L|]. split; [|reflexivity]. unfold fields3. rewrite Eq. auto.
  - left. unfold readSignatureFile, rbind in E. destruct (readDataFileBytes file) as [[com d]|e'|] eqn:Ed; try discriminate.
    + cbn [df_data] in E. unfold readSignatureData in E. destruct (_ <? _)%nat; discriminate.
    + injection E as <-. destruct (data_file_error _ _ Ed) as (i & ->). exists i. split; [apply data_file_fault; exact Ed|reflexivity].
  - right. left. apply readSignatureFile_panic in E. destruct E as (com & d & Ed & L). exists d. split; [|auto].
    apply data_file_iff. exists com. exact Ed.
Qed.

(* ---- Verify ---- *)
Lemma pub_verify_cases C a n k m a' n' s :
  (exists t, refused (fun k m s => ed_verify C k m s = true) a n k m a' n' s t /\ pub_verify C (Pub a n k) m (Sig a' n' s) = Err (EMsg t)) \/
  (a = str "Ed" /\ a' = str "Ed" /\ n = n' /\ ed_verify C k m s = true /\ pub_verify C (Pub a n k) m (Sig a' n' s) = Ok tt).
Proof.
  unfold pub_verify, verifyEd25519. cbn [p_keyAlgo pkAlgo p_keyNum s_keyNum p_key sig].
  destruct (bytes_eqb a (str "Ed")) eqn:E1.
  2: { left. eexists. split; [apply RefKey; apply bytes_eqb_neq; exact E1|reflexivity]. }
  apply bytes_eqb_eq in E1. cbn [negb]. destruct (bytes_eqb a' (str "Ed")) eqn:E2.
  2: { left. eexists. split; [apply RefSig; [exact E1|apply bytes_eqb_neq; exact E2]|reflexivity]. }
  apply bytes_eqb_eq in E2. cbn [negb]. destruct (bytes_eqb n n') eqn:E3.
  2: { left. eexists. split; [apply RefNum; [exact E1|exact E2|apply bytes_eqb_neq; exact E3]|reflexivity]. }
  apply bytes_eqb_eq in E3. cbn [negb]. destruct (ed_verify C k m s) eqn:E4.
  2: { left. eexists. split; [apply RefBad; [exact E1|exact E2|exact E3|rewrite E4; discriminate]|reflexivity]. }
  right. auto.
Qed.
Lemma refused_fun V a n k m a' n' s t t' : refused V a n k m a' n' s t -> refused V a n k m a' n' s t' -> t = t'.
Proof. intros [] []; congruence. Qed.
Lemma refused_not V a n k m a' n' s t : refused V a n k m a' n' s t -> a = str "Ed" -> a' = str "Ed" -> n = n' -> V k m s -> False.
Proof. intros []; auto. Qed.

Lemma fields3_fun x y z d a b c a' b' c' : fields3 x y z d a b c -> fields3 x y z d a' b' c' -> a = a' /\ b = b' /\ c = c'.
Proof.
  intros (-> & La & Lb & Lc) (E & La' & Lb' & Lc'). apply app_inj_len in E; [|congruence]. destruct E as [-> E].
  apply app_inj_len in E; [|congruence]. destruct E as [-> ->]. auto.
Qed.

Lemma Verify_steps C a b c w : Verify C a b c w =
  match ReadFile a w with
  | (Ok pf, w1) =>
      match readPublicKeyFile pf with
      | Ok pk =>
          match ReadFile b w1 with
          | (Ok m, w2) =>
              match ReadFile (sigPathOf b c) w2 with
              | (Ok sf, w3) => match readSignatureFile sf with Ok sg => (pub_verify C pk m sg, w3) | Err e => (Err e, w3) | Panic => (Panic, w3) end
              | (Err e, w3) => (Err e, w3)
              | (Panic, w3) => (Panic, w3)
              end
          | (Err e, w2) => (Err e, w2)
          | (Panic, w2) => (Panic, w2)
          end
      | Err e => (Err e, w1)
      | Panic => (Panic, w1)
      end
  | (Err e, w1) => (Err e, w1)
  | (Panic, w1) => (Panic, w1)
  end.
Proof.
  unfold Verify, bind. rewrite LoadPublicKey_eq. destruct (ReadFile a w) as [[pf|e|] w1]; try reflexivity.
  destruct (readPublicKeyFile pf); try reflexivity. destruct (ReadFile b w1) as [[m|e|] w2]; try reflexivity.
  unfold readSignaturePath, bind, lift. destruct (ReadFile (sigPathOf b c) w2) as [[sf|e|] w3]; try reflexivity.
Qed.

Lemma read_public_holds file d : holds file d -> length d = 42%nat -> exists a n k, fields3 2 8 32 d a n k /\ readPublicKeyFile file = Ok (Pub a n k).
Proof.
  intros H L. destruct (public_cases file) as [(e & [i N|d' H' L'])|(d' & a & n & k & H' & _ & F & R)].
  - contradiction (misread_not _ _ d N H).
  - rewrite (holds_unique _ _ _ H' H) in L'. contradiction.
  - rewrite (holds_unique _ _ _ H H'). exists a, n, k. auto.
Qed.
Lemma read_signature_holds file d : holds file d -> (10 <= length d)%nat ->
  exists a n s, fields3 2 8 64 (zero_extend 74 d) a n s /\ readSignatureFile file = Ok (Sig a n s).
Proof.
  intros H L. destruct (signature_cases file) as [(i & N & _)|[(d' & H' & L' & _)|(d' & a & n & s & H' & _ & F & R)]].
  - contradiction (misread_not _ _ d N H).
  - rewrite (holds_unique _ _ _ H' H) in L'. lia.
  - rewrite (holds_unique _ _ _ H H'). exists a, n, s. auto.
Qed.

Theorem Verify_outcome C a b c w r : fst (Verify C a b c w) = r <->
  verify_outcome (fun k m s => ed_verify C k m s = true) w a b (sigPathOf b c) r.
Proof.
  rewrite Verify_steps. split.
  - intros <-. destruct (ReadFile_cases a w) as [(e & E)|(pf & R)].
    { rewrite (ReadFile_error _ _ _ E). apply VKeyRead; exact E. }
    rewrite (ReadFile_reads _ _ _ R). destruct (public_cases pf) as [(e & E)|(d & al & n & k & H & L & F & E)].
    { rewrite (public_error_read _ _ E). exact (VKey _ _ _ _ _ _ _ R E). }
    rewrite E. destruct (ReadFile_cases b (next w)) as [(e & E1)|(m & R1)].
    { rewrite (ReadFile_error _ _ _ E1). apply (proj1 (read_error_next _ _ _ _)) in E1. exact (VMessage _ _ _ _ _ _ _ _ R H L E1). }
    rewrite (ReadFile_reads _ _ _ R1). destruct (ReadFile_cases (sigPathOf b c) (next (next w))) as [(e & E2)|(sf & R2)].
    { rewrite (ReadFile_error _ _ _ E2). apply (proj1 (read_error_next _ _ _ _)), (proj1 (read_error_next _ _ _ _)) in E2. apply (proj1 (reads_next _ _ _ _)) in R1.
      exact (VSigRead _ _ _ _ _ _ _ _ _ R H L R1 E2). }
    rewrite (ReadFile_reads _ _ _ R2). apply (proj1 (reads_next _ _ _ _)) in R1. apply (proj1 (reads_next _ _ _ _)), (proj1 (reads_next _ _ _ _)) in R2.
    destruct (signature_cases sf) as [(i & N & ->)|[(d' & H' & L' & ->)|(d' & a' & n' & s & H' & L' & F' & ->)]].
    { exact (VSigText _ _ _ _ _ _ _ _ _ _ R H L R1 R2 N). }
    { exact (VSigShort _ _ _ _ _ _ _ _ _ _ R H L R1 R2 H' L'). }
    destruct (pub_verify_cases C al n k m a' n' s) as [(t & T & ->)|(-> & -> & <- & V & ->)].
    { exact (VRefused _ _ _ _ _ _ _ _ _ _ _ _ _ _ _ _ _ R H F R1 R2 H' L' F' T). }
    cbn [fst]. apply (VAccepted _ _ _ _ _ pf m sf); try assumption.
    destruct F as (-> & F). destruct F' as (F1 & F2). exists n, k, s, d'. intuition.
  - intros [e E | pf e R E | pf d e R H L E | pf d m e R H L R1 E | pf d m sf i R H L R1 R2 N | pf d m sf d' R H L R1 R2 H' L'
           | pf d m sf d' al n k a' n' s t R H F R1 R2 H' L' F' T | pf m sf R R1 R2 T].
    1: { rewrite (ReadFile_error _ _ _ E). reflexivity. }
    1: { rewrite (ReadFile_reads _ _ _ R), (public_error_read _ _ E). reflexivity. }
    all: rewrite (ReadFile_reads _ _ _ R).
    1-4: destruct (read_public_holds _ _ H L) as (al & n & k & F & ->).
    1: { apply (proj2 (read_error_next _ _ _ _)) in E. rewrite (ReadFile_error _ _ _ E). reflexivity. }
    all: apply (proj2 (reads_next _ _ _ _)) in R1; try rewrite (ReadFile_reads _ _ _ R1).
    1: { apply (proj2 (read_error_next _ _ _ _)), (proj2 (read_error_next _ _ _ _)) in E. rewrite (ReadFile_error _ _ _ E). reflexivity. }
    all: apply (proj2 (reads_next _ _ _ _)), (proj2 (reads_next _ _ _ _)) in R2; try rewrite (ReadFile_reads _ _ _ R2).
    + destruct (signature_cases sf) as [(j & N' & ->)|[(d' & H' & _)|(d' & a' & n' & s & H' & _)]];
        [rewrite (misread_unique _ _ _ N N'); reflexivity| |]; contradiction (misread_not _ _ d' N H').
    + destruct (signature_cases sf) as [(i & N & _)|[(d2 & H2 & _ & ->)|(d2 & a' & n' & s & H2 & L2 & _)]]; [contradiction (misread_not _ _ d' N H')|reflexivity|].
      rewrite (holds_unique _ _ _ H2 H') in L2. lia.
    + assert (L : length d = 42%nat) by (destruct F as (-> & A1 & A2 & A3); rewrite !app_length; lia).
      destruct (read_public_holds _ _ H L) as (al' & n2 & k2 & F2 & ->). destruct (fields3_fun _ _ _ _ _ _ _ _ _ _ F F2) as (<- & <- & <-).
      destruct (read_signature_holds _ _ H' L') as (a2 & n3 & s2 & F3 & ->). destruct (fields3_fun _ _ _ _ _ _ _ _ _ _ F' F3) as (<- & <- & <-).
      destruct (pub_verify_cases C al n k m a' n' s) as [(t' & T' & ->)|(X1 & X2 & X3 & X4 & _)].
      * rewrite (refused_fun _ _ _ _ _ _ _ _ _ _ T T'). reflexivity.
      * contradiction (refused_not _ _ _ _ _ _ _ _ _ T X1 X2 X3 X4).
    + apply acceptable_text in T. destruct T as (pk & sg & -> & E2 & A).
      rewrite E2. cbn [fst]. apply pub_verify_iff. exact A.
Qed.

(* ---- Sign ---- *)
Lemma private_text_read file kdf r salt sum key : private_text file kdf r salt sum key <->
  exists a n, readPrivateKeyFile file = Ok (Priv a kdf r salt sum n key).
Proof.
  unfold private_text. split.
  - intros (d & a & n & H & L & E & W). exists a, n. apply private_file_exact. exists d. rewrite E. auto.
  - intros (a & n & H). apply private_file_exact in H. destruct H as (d & H & L & E & W). exists d, a, n. rewrite E. auto.
Qed.
Lemma private_error_fun file e e' : private_error file e -> private_error file e' -> e = e'.
Proof. intros H H'. apply private_error_read in H. apply private_error_read in H'. congruence. Qed.
Lemma write_create_fail p d m w : call_fails w 0 -> WriteFile p d m w = (Err EFault, next w).
Proof.
  intro F. unfold WriteFile, create_file. rewrite pop_fault_eq. unfold call_fails in F.
  destruct (w_faults w) as [|[|k|k] r]; cbn in *; try contradiction. reflexivity.
Qed.
Lemma write_noname d m w : ~ call_fails w 0 -> fst (WriteFile [] d m w) = Err (ENotExist []).
Proof.
  intro F. unfold WriteFile, create_file. rewrite pop_fault_eq. unfold call_fails in F.
  destruct (w_faults w) as [|[|k|k] r]; cbn in *; try reflexivity. contradiction F; exact I.
Qed.
Lemma write_named p d m w : ~ call_fails w 0 -> p <> [] ->
  ((call_fails w 1 \/ call_fails w 2) /\ fst (WriteFile p d m w) = Err EFault) \/
  (~ call_fails w 1 /\ ~ call_fails w 2 /\ fst (WriteFile p d m w) = Ok tt).
Proof.
  intros F N. destruct p as [|c p]; [contradiction N; reflexivity|]. unfold WriteFile, create_file. rewrite pop_fault_eq.
  unfold call_fails in *.
  assert (E : hd FOk (w_faults w) = nth 0 (w_faults w) FOk) by (destruct (w_faults w); reflexivity). rewrite E.
  assert (X : forall T (x y : T), match nth 0 (w_faults w) FOk with FFail _ => x | _ => y end = y)
    by (intros T x y; destruct (nth 0 (w_faults w) FOk); tauto).
  rewrite X. clear X E. unfold file_write. rewrite pop_fault_eq.
  change (w_faults (do_create (c :: p) m (next w))) with (tl (w_faults w)).
  assert (E : hd FOk (tl (w_faults w)) = nth 1 (w_faults w) FOk) by (destruct (w_faults w) as [|? [|? ?]]; reflexivity). rewrite E.
  destruct (nth 1 (w_faults w) FOk) eqn:E1.
  2: { left. auto. }
  all: cbv zeta iota beta; rewrite pop_fault_eq; cbn [w_faults do_append next set_faults].
  all: match goal with |- context [hd FOk ?x] => change x with (tl (tl (w_faults w))) end.
  all: assert (E2 : hd FOk (tl (tl (w_faults w))) = nth 2 (w_faults w) FOk) by (destruct (w_faults w) as [|? [|? [|? ?]]]; reflexivity); rewrite E2.
  all: destruct (nth 2 (w_faults w) FOk); cbn [fst]; auto 10.
Qed.

Lemma sign_rest_iff C k mp sp p w v r : (forall n, call_fails v n <-> call_fails w (Datatypes.S n)) -> w_fs v = w_fs w ->
  fst (signFinish C k mp sp p v) = r <-> sign_rest w mp sp r.
Proof.
  intros Fv Ev. rewrite signFinish_eq.
  assert (RE : forall e, read_error v 0 mp e <-> read_error w 1 mp e) by (intro e; unfold read_error; rewrite Fv, Ev; reflexivity).
  assert (RD : forall d, reads v 0 mp d <-> reads w 1 mp d) by (intro d; unfold reads, contents; rewrite Fv, Ev; reflexivity).
  assert (Fn : forall n, call_fails (next v) n <-> call_fails w (Datatypes.S (Datatypes.S n))) by (intro n; rewrite fails_next; apply Fv).
  assert (Dec : forall m x, sp <> [] -> ~ call_fails w 2 ->
    ((call_fails w 3 \/ call_fails w 4) /\ fst (WriteFile sp x m (next v)) = Err EFault) \/
    (~ call_fails w 3 /\ ~ call_fails w 4 /\ fst (WriteFile sp x m (next v)) = Ok tt)).
  { intros m x N F. rewrite <- !Fn. apply write_named; [rewrite Fn; exact F|exact N]. }
  split.
  - intros <-. destruct (ReadFile_cases mp v) as [(e & E)|(d & R)].
    { rewrite (ReadFile_error _ _ _ E). apply RMessage. apply RE. exact E. }
    rewrite (ReadFile_reads _ _ _ R). apply RD in R. destruct (fails_dec w 2) as [F|F].
    { rewrite write_create_fail by (apply Fn; exact F). exact (RCreate _ _ _ _ R F). }
    destruct (list_eq_dec Byte.byte_eq_dec sp []) as [-> | N].
    { rewrite write_noname by (rewrite Fn; exact F). exact (RNoName _ _ _ _ R F eq_refl). }
    destruct (Dec 420 (signed_file C k p d) N F) as [(X & ->)|(X & Y & ->)].
    + exact (RWrite _ _ _ _ R F N X).
    + exact (RDone _ _ _ _ R F N X Y).
  - intros [e E|d R F|d R F N|d R F N X|d R F N X Y].
    { apply RE in E. rewrite (ReadFile_error _ _ _ E). reflexivity. }
    all: apply RD in R; rewrite (ReadFile_reads _ _ _ R).
    + rewrite write_create_fail by (apply Fn; exact F). reflexivity.
    + subst sp. rewrite write_noname by (rewrite Fn; exact F). reflexivity.
    + destruct (Dec 420 (signed_file C k p d) N F) as [(_ & ->)|(Y & Z & _)]; [reflexivity|tauto].
    + destruct (Dec 420 (signed_file C k p d) N F) as [([Z|Z] & _)|(_ & _ & ->)]; [contradiction|contradiction|reflexivity].
Qed.

Section SignOutcome.
Variable C : Crypto.
Let derive (pass salt : bytes) (r : Z) : bytes := pbkdf C pass salt r 64.

Lemma check_is a kdf r s c n k : Check C (Priv a kdf r s c n k) =
  if bytes_eqb (firstn 8 (sha512 C k)) c then Ok tt else Err (EMsg (str "signify: invalid private key checksum")).
Proof. reflexivity. Qed.

Lemma decrypt_cases a kdf r s c n k pass : priv_wf (Priv a kdf r s c n k) -> r <> 0 ->
  (exists t, unlock_error (sha512 C) derive kdf r s c k pass t /\ fst (decrypt C (Priv a kdf r s c n k) pass) = Err (EMsg t)) \/
  (unlocks (sha512 C) derive kdf r s c k pass /\ exists p, decrypt C (Priv a kdf r s c n k) pass = (Ok tt, p)).
Proof.
  intros W Hr. assert (IE : IsEncrypted (Priv a kdf r s c n k) = true) by (unfold IsEncrypted; cbn; apply Z.gtb_lt; destruct W as (_ & _ & W & _); cbn in W; lia).
  rewrite decrypt_enc by assumption. cbn [kdfAlgo].
  destruct (bytes_eqb kdf (str "BK")) eqn:E.
  2: { left. eexists. split; [apply UKdf; apply bytes_eqb_neq; exact E|reflexivity]. }
  apply bytes_eqb_eq in E. destruct pass as [|x pass].
  { left. eexists. split; [apply UEmpty; [exact E|reflexivity]|reflexivity]. }
  cbv zeta. unfold set_key. cbn. rewrite check_is.
  destruct (bytes_eqb (firstn 8 (sha512 C (xor_bytes k (pbkdf C (x :: pass) s r 64)))) c) eqn:E2.
  - right. apply bytes_eqb_eq in E2. split; [|eexists; reflexivity]. split; [exact E|]. split; [discriminate|exact E2].
  - left. eexists. split; [apply UWrong; [exact E|discriminate|apply bytes_eqb_neq; exact E2]|reflexivity].
Qed.
Lemma unlock_error_fun kdf r s c k pass t t' : unlock_error (sha512 C) derive kdf r s c k pass t ->
  unlock_error (sha512 C) derive kdf r s c k pass t' -> t = t'.
Proof. intros [] []; congruence. Qed.
Lemma unlock_error_not kdf r s c k pass t : unlock_error (sha512 C) derive kdf r s c k pass t ->
  unlocks (sha512 C) derive kdf r s c k pass -> False.
Proof. intros [] (A & B & D); contradiction. Qed.

Lemma fst_defer (A : Type) (x : res A * world) (f : world -> world) : fst (let '(r, v) := x in (r, f v)) = fst x.
Proof. destruct x; reflexivity. Qed.

Theorem Sign_outcome kp mp s w r : fst (Sign C kp mp s w) = r <->
  sign_outcome (sha512 C) derive w kp mp (sigPathOf mp s) r.
Proof.
  rewrite Sign_eq, LoadPrivateKey_eq. cbv zeta. set (sp := sigPathOf mp s).
  assert (Tty : w_tty (next w) = w_tty w) by reflexivity.
  split.
  - intros <-. destruct (ReadFile_cases kp w) as [(e & E)|(kf & R)].
    { rewrite (ReadFile_error _ _ _ E). apply SKeyRead; exact E. }
    rewrite (ReadFile_reads _ _ _ R). destruct (private_cases kf) as [(e & E)|(p & E)].
    { rewrite (private_error_read _ _ E). exact (SKey _ _ _ _ _ _ _ _ R E). }
    rewrite E. destruct p as [a kdf z sl c n k].
    assert (T : private_text kf kdf z sl c k) by (apply private_text_read; exists a, n; exact E).
    assert (W : priv_wf (Priv a kdf z sl c n k)) by (apply private_file_iff in E; apply E).
    destruct (Z.eq_dec z 0) as [-> | Nz].
    { change (IsEncrypted (Priv a kdf 0 sl c n k)) with false. cbv iota.
      apply (SPlain _ _ _ _ _ _ kf kdf sl c k); [exact R|exact T|].
      apply (sign_rest_iff C kp mp sp (Priv a kdf 0 sl c n k) w (next w)); [intro; apply fails_next|reflexivity|reflexivity]. }
    assert (IE : IsEncrypted (Priv a kdf z sl c n k) = true) by (unfold IsEncrypted; cbn; apply Z.gtb_lt; destruct W as (_ & _ & W & _); cbn in W; lia).
    rewrite IE, Tty. destruct (w_tty w) as [|[pass|e|] tl] eqn:Ty.
    + apply (STty _ _ _ _ _ _ kf kdf z sl c k); try assumption. unfold answers. rewrite Ty. reflexivity.
    + assert (An : answers w (Ok pass)) by (unfold answers; rewrite Ty; reflexivity).
      destruct (decrypt_cases a kdf z sl c n k pass W Nz) as [(t & U & Ed)|(U & p' & ->)].
      * destruct (decrypt C _ pass) as [[u|e|] p']; cbn [fst] in Ed; try discriminate. injection Ed as ->.
        exact (SLocked _ _ _ _ _ _ _ _ _ _ _ _ _ _ R T Nz An U).
      * rewrite fst_defer. apply (SUnlocked _ _ _ _ _ _ kf kdf z sl c k pass); try assumption.
        apply (sign_rest_iff C kp mp sp p' w (ask_world (next w) pass tl)); [intro; apply fails_next|reflexivity|reflexivity].
    + apply (STty _ _ _ _ _ _ kf kdf z sl c k); try assumption. unfold answers. rewrite Ty. reflexivity.
    + apply (STtyPanic _ _ _ _ _ _ kf kdf z sl c k); try assumption. unfold answers. rewrite Ty. reflexivity.
  - intros [e E|kf e R E|kf kdf z sl c k e R T Nz An|kf kdf z sl c k R T Nz An|kf kdf z sl c k pass t R T Nz An U
           |kf kdf z sl c k pass o R T Nz An U Rest|kf kdf sl c k o R T Rest].
    { rewrite (ReadFile_error _ _ _ E). reflexivity. }
    { rewrite (ReadFile_reads _ _ _ R), (private_error_read _ _ E). reflexivity. }
    all: rewrite (ReadFile_reads _ _ _ R); apply private_text_read in T; destruct T as (a & n & T); rewrite T.
    all: assert (W := T); apply private_file_iff in W; destruct W as (_ & W).
    5: { change (IsEncrypted (Priv a kdf 0 sl c n k)) with false. cbv iota.
         apply (sign_rest_iff C kp mp sp (Priv a kdf 0 sl c n k) w (next w)); [intro; apply fails_next|reflexivity|exact Rest]. }
    all: assert (IE : IsEncrypted (Priv a kdf z sl c n k) = true) by (unfold IsEncrypted; cbn; apply Z.gtb_lt; destruct W as (_ & _ & W & _); cbn in W; lia);
      rewrite IE, Tty; unfold answers in An; destruct (w_tty w) as [|[pass'|e'|] tl]; cbn [hd] in An; try discriminate; try (injection An as ->); try reflexivity.
    all: subst; destruct (decrypt_cases a kdf z sl c n k pass' W Nz) as [(t' & U' & Ed)|(U' & p' & Ed)].
    + destruct (decrypt C _ pass') as [[u|e|] p']; cbn [fst] in Ed; try discriminate. rewrite (unlock_error_fun _ _ _ _ _ _ _ _ U U'). cbn [fst]. exact Ed.
    + contradiction (unlock_error_not _ _ _ _ _ _ _ U U').
    + contradiction (unlock_error_not _ _ _ _ _ _ _ U' U).
    + rewrite Ed, fst_defer. apply (sign_rest_iff C kp mp sp p' w (ask_world (next w) pass' tl)); [intro; apply fails_next|reflexivity|exact Rest].
Qed.
End SignOutcome.

(* ---- any two notions of a good signature that agree ---- *)
Lemma refused_ext (P Q : bytes -> bytes -> bytes -> Prop) a n k m a' n' s t : P k m s <-> Q k m s ->
  refused P a n k m a' n' s t -> refused Q a n k m a' n' s t.
Proof. intros H []; [apply RefKey|apply RefSig|apply RefNum|apply RefBad]; tauto. Qed.
Lemma verify_outcome_ext (P Q : bytes -> bytes -> bytes -> Prop) w pp mp sp r :
  (forall k m s, length k = 32%nat -> length s = 64%nat -> P k m s <-> Q k m s) ->
  verify_outcome P w pp mp sp r -> verify_outcome Q w pp mp sp r.
Proof.
  intros H. intros [e E | pf e R E | pf d e R Hd L E | pf d m e R Hd L R1 E | pf d m sf i R Hd L R1 R2 N | pf d m sf d' R Hd L R1 R2 H' L'
           | pf d m sf d' al n k a' n' s t R Hd F R1 R2 H' L' F' T | pf m sf R R1 R2 T].
  - apply VKeyRead; exact E.
  - exact (VKey _ _ _ _ _ _ _ R E).
  - exact (VMessage _ _ _ _ _ _ _ _ R Hd L E).
  - exact (VSigRead _ _ _ _ _ _ _ _ _ R Hd L R1 E).
  - exact (VSigText _ _ _ _ _ _ _ _ _ _ R Hd L R1 R2 N).
  - exact (VSigShort _ _ _ _ _ _ _ _ _ _ R Hd L R1 R2 H' L').
  - refine (VRefused _ _ _ _ _ _ _ _ _ _ _ _ _ _ _ _ _ R Hd F R1 R2 H' L' F' (refused_ext P Q _ _ _ _ _ _ _ _ _ T)).
    apply H; [exact (proj2 (proj2 (proj2 F)))|exact (proj2 (proj2 (proj2 F')))].
  - apply (VAccepted _ _ _ _ _ pf m sf R R1 R2). exact (proj1 (signature_text_ext P Q pf m sf (fun k s => H k m s)) T).
Qed.
Theorem Verify_outcome_rfc C a b c w r : conforms_signatures C -> fst (Verify C a b c w) = r <->
  verify_outcome (Ed25519_accepts (sha512 C)) w a b (sigPathOf b c) r.
Proof.
  intro CS. rewrite Verify_outcome. split; apply verify_outcome_ext; intros k m s Lk Ls; [|symmetry]; exact (rfc_pointwise C CS k m s Lk Ls).
Qed.

(* verifyEd25519's first test never fails *)
Theorem Verify_not_this C a b c w : fst (Verify C a b c w) <> Err (EMsg (str "signify: not an Ed25519 public key")).
Proof.
  intro H. apply Verify_outcome in H. inversion H as [e E X | pf e R E X | pf d e R Hd L E X | pf d m e R Hd L R1 E X | | 
     | pf d m sf d' al n k a' n' s t R Hd F R1 R2 H' L' F' T X |]; subst.
  - destruct E as [[_ E]|(_ & _ & E)]; discriminate E.
  - inversion E.
  - destruct E as [[_ E]|(_ & _ & E)]; discriminate E.
  - destruct E as [[_ E]|(_ & _ & E)]; discriminate E.
  - inversion T.
Qed.

(* ---- the command ---- *)
Theorem main_sign_reports C arg0 u ss args rest w n w' : command_line ss args rest -> stops rest -> signs ss ->
  main C arg0 u args w = (n, w') ->
  let kp := or_default (string_value x73 ss) (defaultKeyBase u) (str ".sec") in
  let mp := string_value x6d ss in let sp := sigPathOf mp (string_value x78 ss) in
  kp <> [] -> mp <> [] -> forall o, sign_outcome (sha512 C) (fun pass salt r => pbkdf C pass salt r 64) w kp mp sp o ->
  match o with
  | Ok _ => n = 0
  | Err e => n = 1 /\ forall t, error_text e t ->
      exists pre, w_log w' = w_log w ++ pre ++ [EvErr (str "Signing " ++ mp ++ str " failed: " ++ t ++ [x0a])]
  | Panic => n = 2
  end.
Proof.
  intros Hc Hs (HG & HS) H kp mp sp Nk Nm o O. rewrite (main_dispatch _ _ _ _ _ _ _ Hc Hs) in H. unfold dispatch in H.
  cbn [flags_of f_s f_p f_G f_S f_m f_x] in H. rewrite HG, HS, !or_default_eq in H. fold kp mp in H.
  assert (isEmpty kp = false) as E1 by (destruct kp; [contradiction|reflexivity]).
  assert (isEmpty mp = false) as E2 by (destruct mp; [contradiction|reflexivity]).
  rewrite E1, E2 in H. cbn [orb] in H. unfold action in H.
  apply (Sign_outcome C kp mp (string_value x78 ss) w o) in O.
  destruct (Sign C kp mp (string_value x78 ss) w) as [r v] eqn:E. cbn [fst] in O. subst r.
  destruct o as [[]|e|]; injection H as <- <-; try reflexivity. split; [reflexivity|].
  intros t T. destruct (Sign_log _ _ _ _ _ _ _ E) as (outs & evs & _ & L & _).
  exists (outs ++ evs). destruct T; cbn [w_log emit]; rewrite L, <- app_assoc; reflexivity.
Qed.
