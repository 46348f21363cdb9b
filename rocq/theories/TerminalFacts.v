(* What psignify finds wrong by itself, and what reaches the terminal: proofs. *)
From Verif Require Import DecimalText ReportFacts TextKeys KeysFacts B64StreamFacts SealFacts CallFacts CallKeys CallExample PrintExample CmdCallFacts CmdCallEnds.
From Verif Require Import SpecTerminal.
Local Open Scope Z_scope.

Lemma bad_data f e : readDataFileBytes f = Err e -> bad_text e.
Proof. intro E. destruct (data_file_error _ _ E) as (i & ->). constructor. Qed.
Lemma bad_pub f e : readPublicKeyFile f = Err e -> bad_public e.
Proof.
  unfold readPublicKeyFile, rbind. destruct (readDataFileBytes f) as [[com d]|x|] eqn:E; try discriminate.
  - cbn [df_data]. unfold readPublicKeyData. destruct (negb _) eqn:N; [|discriminate]. intro H. injection H as <-.
    apply BadPubLength; [|lia]. intro L. apply Bool.negb_true_iff, Nat.eqb_neq in N. apply N. apply Nat2Z.inj. rewrite L. reflexivity.
  - intro H. injection H as <-. apply BadPubText, (bad_data _ _ E).
Qed.
Lemma bad_sec f e : readPrivateKeyFile f = Err e -> bad_secret e.
Proof.
  intro E. destruct (private_cases f) as [(x & X)|(p & X)]; [|congruence]. pose proof (private_error_read _ _ X) as Y. rewrite Y in E. injection E as <-.
  destruct X; [apply BadSecText; constructor|apply BadSecEnd|apply BadSecCut].
Qed.
Lemma bad_sig f e : readSignatureFile f = Err e -> bad_text e.
Proof.
  destruct (signature_cases f) as [(i & _ & ->)|[(d & _ & _ & ->)|(d & a & n & s & _ & _ & _ & ->)]]; try discriminate. intro H. injection H as <-. constructor.
Qed.
Lemma two_bytes (l : bytes) : length l = 2%nat -> exists a b, l = [a; b].
Proof. destruct l as [|a [|b [|c l]]]; try discriminate. eauto. Qed.
Lemma good_key f p : readPrivateKeyFile f = Ok p -> length (kdfAlgo p) = 2%nat /\ length (salt p) = 16%nat.
Proof. intro E. apply private_file_iff in E as [_ W]. unfold priv_wf in W. tauto. Qed.
Lemma bad_decrypt C p pass e : length (kdfAlgo p) = 2%nat -> length (salt p) = 16%nat -> fst (decrypt C p pass) = Err e -> not_unlocked e.
Proof.
  intros L2 L16. unfold decrypt. destruct (IsEncrypted p) eqn:I; [|discriminate]. cbn [negb]. destruct (bytes_eqb (kdfAlgo p) (str "BK")) eqn:K.
  - cbn [negb]. unfold bcrypt_Key. unfold IsEncrypted in I. replace (kdfRounds p <? 1) with false by lia. destruct pass as [|x pass]; [intro H; injection H as <-; constructor|].
    replace (Z.of_nat (length (salt p))) with 16 by lia. cbn [Z.eqb Z.gtb Z.compare orb Pos.compare Pos.compare_cont]. 
    change (Z.of_nat secretKeyLength >? 1024) with false. cbv iota beta. unfold Check. cbv zeta. match goal with |- context [if ?c then _ else _] => destruct c end; cbn [fst]; [discriminate|].
    intro H. injection H as <-. constructor.
  - cbn [negb fst]. intro H. injection H as <-. destruct (two_bytes _ L2) as (a & b & E). rewrite E in *. apply (BadKdf a b). apply bytes_eqb_neq, K.
Qed.

(* ---- loops ---- *)
Lemma iter_inv {St R} (I : Z -> St -> Prop) (Q : R -> Prop) step lim : (forall i st, 0 <= i < lim -> I i st -> match step i st with inl st' => I (i + 1) st' | inr r => Q r end) ->
  forall n i st, 0 <= i -> i + Z.of_nat n <= lim -> I i st -> match iter_loop n step i st with inl _ => True | inr r => Q r end.
Proof.
  intros H. induction n as [|n IH]; intros i st P L J; cbn [iter_loop]; [exact Logic.I|]. pose proof (H i st ltac:(lia) J) as X. destruct (step i st) as [st'|r]; [|exact X].
  apply IH; [lia|lia|exact X].
Qed.
Section Streams.
Variable C : Crypto.
Variable S : Type.
Variable B : error -> Prop.
Definition r_within (rd : Reader S) : Prop := forall n s b e, fst (rd n s) = RRet b (Some e) -> B e.
Definition w_within (wr : Writer S) : Prop := forall b s n e, fst (wr b s) = (n, Some e) -> B e.
Definition m_within {A} (m : S -> res A * S) : Prop := forall s e, fst (m s) = Err e -> B e.

Lemma skip_within fuel rd : r_within rd -> m_within (skipComment fuel rd).
Proof.
  intros R s e. unfold skipComment. assert (K : forall n c s, match fst (skip_loop n rd c s) with Some (Err e) => B e | _ => True end).
  { induction n as [|n IH]; intros c t; cbn [skip_loop]; [exact I|]. pose proof (R 1%nat t) as X. destruct (rd 1%nat t) as [[got [x|]|] t']; cbn [fst] in *; [apply (X got x eq_refl)| |exact I].
    destruct (beqb _ _); [exact I|apply IH]. }
  specialize (K (fuel s) x00 s). destruct (skip_loop (fuel s) rd x00 s) as [[r|] t]; cbn [fst] in *; [|discriminate]. intros ->. exact K.
Qed.
Lemma dec_within fuel rd : r_within rd -> (forall i, B (CorruptInput i)) -> r_within (dec_read fuel rd).
Proof.
  intros R BC n s b e. unfold dec_read. set (el := EncodedLen (Z.of_nat n)).
  assert (K : forall f c k buf s, match fst (dec_loop f rd el c k buf s) with Some (Err e) => B e | _ => True end).
  { induction f as [|f IH]; intros c k buf t; cbn [dec_loop]; [destruct (k =? el); exact I|]. destruct (k =? el); [exact I|].
    pose proof (R 1%nat t) as X. destruct (rd 1%nat t) as [[got [x|]|] t']; cbn [fst] in *; [|destruct (beqb _ _); apply IH|exact I].
    pose proof (X got x eq_refl) as Y. destruct x; cbn [fst]; try exact Y; exact I. }
  specialize (K (fuel s el) x00 0 [] s). destruct (dec_loop (fuel s el) rd el x00 0 [] s) as [[[buf|x|]|] t]; cbn [fst] in *; try discriminate.
  - intro E. destruct (decode_loop_err _ _ _ _ _ _ _ E) as (i & ->). apply BC.
  - intro E. injection E as _ <-. exact K.
Qed.
Lemma seal_within draw pub rd len wr : 0 <= len < 2 ^ 63 -> (forall n, m_within (draw n)) -> r_within rd -> w_within wr ->
  (forall e, pub_ToBox pub = Err e -> B e) -> m_within (seal C S draw pub rd len wr).
Proof.
  intros L D R W T s e. unfold seal. destruct (len =? 0); [discriminate|]. destruct (pub_ToBox pub) as [edpub|x|]; [|intro E; injection E as <-; apply T; reflexivity|discriminate].
  pose proof (D 32%nat s) as X. destruct (draw 32%nat s) as [[epriv|x|] s1]; [|cbn [fst] in *; intro E; injection E as <-; apply X; reflexivity|discriminate].
  cbv zeta. set (sh := box_precompute C edpub epriv). set (hd := sealHeader C (chunksFor len) (x25519_base C epriv) sh).
  pose proof (W hd s1) as Y. destruct (wr hd s1) as [[k [x|]] s2]; [cbn [fst] in *; intro E; injection E as <-; apply (Y k x); reflexivity|].
  rewrite for_loop_iter. assert (Lc : 0 <= chunksFor len <= 2 ^ 63) by (rewrite chunksFor_ceil by lia; split; [apply Z.div_pos; lia|apply Z.div_le_upper_bound; lia]).
  assert (K : forall i st, 0 <= i < 2 ^ 64 -> fst st = nonce i -> match seal_step C S sh rd wr i st with inl st' => fst st' = nonce (i + 1) | inr r => forall e, fst r = Err e -> B e end).
  { intros i [n t] Hi E. cbn [fst] in E. subst n. unfold seal_step. pose proof (R chunk_nat t) as X1.
  destruct (rd chunk_nat t) as [[chunk [x|]|] t1]; cbn [fst] in *; [intros z E; injection E as <-; apply (X1 chunk x); reflexivity| |discriminate].
  pose proof (W (box_seal C chunk (nonce i) sh) t1) as X2. destruct (wr _ t1) as [[k2 [x|]] t2]; cbn [fst] in *; [intros z E; injection E as <-; apply (X2 k2 x); reflexivity|].
  rewrite incrementNonce_nonce by (split; [lia|]; apply (Z.lt_trans _ (2 ^ 64)); [lia|reflexivity]). reflexivity. }
  apply (iter_inv (fun i st => fst st = nonce i) (fun r : res unit * S => forall e, fst r = Err e -> B e) _ _) with (n := Z.to_nat (chunksFor len)) (i := 0) (st := (zeroNonce, s2)) in K; [|lia|lia|reflexivity].
  destruct (iter_loop _ _ 0 (zeroNonce, s2)) as [[n3 s3]|r]; [discriminate|]. apply K.
Qed.
Lemma open_within edpriv rd wr : r_within rd -> w_within wr ->
  (forall n, n <> 72 -> 0 <= n -> B (EMsg (str "signify/crypto: couldn't read the full header (read " ++ decimal n ++ str ")"))) ->
  B (EMsg (str "signify/crypto: failed to authenticate the message header")) -> (forall i, 0 <= i < 2 ^ 64 -> B (EChunk i)) ->
  m_within (open_body C S edpriv rd wr).
Proof.
  intros R W B1 B2 B3 s e. unfold open_body. pose proof (R header_nat s) as X.
  destruct (rd header_nat s) as [[header [x|]|] s1]; cbn [fst] in *; [intro E; injection E as <-; apply (X header x); reflexivity| |discriminate].
  destruct (length header =? header_nat)%nat eqn:Lh; cbn [negb].
  2:{ cbn [fst]. intro E. injection E as <-. apply B1; [|lia]. apply Nat.eqb_neq in Lh. intro Q. apply Lh. unfold header_nat, headerSize. lia. }
  apply Nat.eqb_eq in Lh. destruct (negb _); [cbn [fst]; intro E; injection E as <-; exact B2|].
  rewrite for_loop_iter. cbv zeta. set (sh := box_precompute C (firstn 32 (skipn 8 header)) edpriv). set (cnt := be_decode (firstn 8 header)).
  assert (Lc : 0 <= cnt < 2 ^ 64).
  { pose proof (be_decode_range (firstn 8 header)) as Q. rewrite firstn_length, Lh in Q. exact Q. }
  assert (K : forall i st, 0 <= i < 2 ^ 64 -> fst st = nonce i -> match open_step C S sh rd wr i st with inl st' => fst st' = nonce (i + 1) | inr r => forall e, fst r = Err e -> B e end).
  { intros i [n t] Hi E. cbn [fst] in E. subst n. unfold open_step. pose proof (R sealed_nat t) as X1.
  destruct (rd sealed_nat t) as [[chunk [x|]|] t1]; cbn [fst] in *; [intros z E; injection E as <-; apply (X1 chunk x); reflexivity| |discriminate].
  destruct (box_open C chunk (nonce i) sh) as [out|]; [|cbn [fst]; intros z E; injection E as <-; apply B3, Hi].
  pose proof (W out t1) as X2. destruct (wr out t1) as [[k2 [x|]] t2]; cbn [fst] in *; [intros z E; injection E as <-; apply (X2 k2 x); reflexivity|].
  rewrite incrementNonce_nonce by (split; [lia|]; apply (Z.lt_trans _ (2 ^ 64)); [lia|reflexivity]). reflexivity. }
  apply (iter_inv (fun i st => fst st = nonce i) (fun r : res unit * S => forall e, fst r = Err e -> B e) _ _) with (n := Z.to_nat cnt) (i := 0) (st := (zeroNonce, s1)) in K; [|lia|lia|reflexivity].
  destruct (iter_loop _ _ 0 (zeroNonce, s1)) as [[n3 s3]|r]; [discriminate|]. apply K.
Qed.
End Streams.

(* ---- the operations ---- *)
Definition leads_to {A} (B : error -> Prop) (Q : A -> Prop) (m : H A) : Prop :=
  forall h, match fst (m h) with Ok a => Q a | Err e => B e | Panic => True end.
Lemma lt_bind {A A'} (B : error -> Prop) (Q : A -> Prop) (Q' : A' -> Prop) m k : leads_to B Q m -> (forall a, Q a -> leads_to B Q' (k a)) -> leads_to B Q' (hbind m k).
Proof. intros M K h. unfold hbind. pose proof (M h) as X. destruct (m h) as [[a|e|] h1]; cbn [fst] in X; [apply K, X|exact X..]. Qed.
Lemma lt_defer {A} (B : error -> Prop) (Q : A -> Prop) c m : leads_to B Q m -> leads_to B Q (hdefer c m).
Proof. intros M h. unfold hdefer. pose proof (M h) as X. destruct (m h) as [r h1]. exact X. Qed.
Lemma lt_lift {A} (B : error -> Prop) (Q : A -> Prop) r : (forall a, r = Ok a -> Q a) -> (forall e, r = Err e -> B e) -> leads_to B Q (hlift r).
Proof. intros X Y h. destruct r; cbn; auto. Qed.
Lemma lt_ret {A} (B : error -> Prop) (Q : A -> Prop) (a : A) : Q a -> leads_to B Q (hret a).
Proof. intros X h. exact X. Qed.
Definition any {A} (a : A) : Prop := True.
Lemma lt_within {A} (B : error -> Prop) (m : H A) : m_within (list step) B m -> leads_to B any m.
Proof. intros W h. destruct (m h) as [[a|e|] h'] eqn:E; cbn [fst]; [exact I| |exact I]. apply (W h). rewrite E. reflexivity. Qed.

Section Ops.
Variable C : Crypto.
Variable O : os.
Variable A B : error -> Prop.
Variable P : path -> Prop.
Hypothesis EA : errors_in P O A.
Hypothesis AB : forall e, A e -> B e.
Ltac call := intro h; cbv beta delta [h_readfile h_writefile h_open h_create h_stat h_rand h_pass] zeta; cbn [fst];
  match goal with
  | |- match got ?r with _ => _ end => destruct r as [a|e] eqn:E; cbn [got]; [|apply AB]
  | |- match gone ?r with _ => _ end => destruct r as [e|] eqn:E; cbn [gone]; [apply AB|]
  end.
Lemma l_readfile p : P p -> leads_to B any (h_readfile O p).
Proof. intro Hp. call; [exact I|]. apply (EA h (SReadFile p (inr e))); [exact E|reflexivity|exact Hp]. Qed.
Lemma l_writefile p b m : P p -> leads_to B any (h_writefile O p b m).
Proof. intro Hp. call; [|exact I]. apply (EA h (SWriteFile p b m (Some e))); [exact E|reflexivity|exact Hp]. Qed.
Lemma l_open p : P p -> leads_to B any (h_open O p).
Proof. intro Hp. call; [exact I|]. apply (EA h (SOpen p (inr e))); [exact E|reflexivity|exact Hp]. Qed.
Lemma l_create p m : P p -> leads_to B any (h_create O p m).
Proof. intro Hp. call; [exact I|]. apply (EA h (SCreate p m (inr e))); [exact E|reflexivity|exact Hp]. Qed.
Lemma l_stat fd : file_rules O -> leads_to B (fun z => 0 <= z < 2 ^ 63) (h_stat O fd).
Proof. intros [_ FR]. call; [apply (FR h fd a E)|]. apply (EA h (SStat fd (inr e))); [exact E|reflexivity|exact I]. Qed.
Lemma l_rand n : rand_rules O -> leads_to B (fun b => length b = n) (h_rand O n).
Proof. intros RR. call; [apply (RR h n a E)|]. apply (EA h (SRand n (inr e))); [exact E|reflexivity|exact I]. Qed.
Lemma l_pass : leads_to B any (h_pass O).
Proof. call; [exact I|]. apply (EA h (SPass (inr e))); [exact E|reflexivity|exact I]. Qed.
Lemma l_out b : leads_to B any (h_out b).
Proof. intro h. exact I. Qed.
Lemma l_read fd : r_within _ B (h_read O fd).
Proof. intros n h b e. unfold h_read. destruct (o_read O h fd n) as [b' r] eqn:E. cbn [fst]. intro X. injection X as -> ->. apply AB, (EA h (SRead fd n b (Some e))); [exact E|reflexivity|exact I]. Qed.
Lemma l_write fd : w_within _ B (h_write O fd).
Proof. intros b h n e. unfold h_write. destruct (o_write O h fd b) as [n' r] eqn:E. cbn [fst]. intro X. injection X as -> ->. apply AB, (EA h (SWrite fd b n (Some e))); [exact E|reflexivity|exact I]. Qed.
Lemma l_prompt : leads_to B any (prompt_os O).
Proof. eapply lt_bind; [apply l_out|intros _ _]. eapply lt_bind; [apply l_pass|intros b _]. eapply lt_bind; [apply l_out|intros _ _]. apply lt_ret. exact I. Qed.
Lemma l_confirm : B (EMsg (str "passphrases don't match")) -> leads_to B any (confirm_os O).
Proof.
  intro N. unfold confirm_os. eapply lt_bind; [apply l_out|intros _ _]. eapply lt_bind; [apply l_pass|intros a _]. do 2 (eapply lt_bind; [apply l_out|intros _ _]).
  eapply lt_bind; [apply l_pass|intros b _]. eapply lt_bind; [apply l_out|intros _ _]. destruct (bytes_eqb a b); [apply lt_ret; exact I|apply lt_lift; [discriminate|]].
  intros e E. injection E as <-. exact N.
Qed.
Lemma l_public p : P p -> (forall e, bad_public e -> B e) -> leads_to B (fun k => length (p_keyAlgo k) = 2%nat) (LoadPublicKey_os O p).
Proof.
  intros Hp N. eapply lt_bind; [apply l_readfile, Hp|intros d _]. apply lt_lift; [|intros e E; apply N, (bad_pub _ _ E)].
  intros [a n k] E. apply public_file_iff in E as (_ & La & _). exact La.
Qed.
Lemma l_secret p : P p -> (forall e, bad_secret e -> B e) -> leads_to B (fun k => length (kdfAlgo k) = 2%nat /\ length (salt k) = 16%nat) (LoadPrivateKey_os O p).
Proof. intros Hp N. eapply lt_bind; [apply l_readfile, Hp|intros d _]. apply lt_lift; [intros k E; exact (good_key _ _ E)|intros e E; apply N, (bad_sec _ _ E)]. Qed.
Lemma l_unlock p : (forall e, not_unlocked e -> B e) -> length (kdfAlgo p) = 2%nat /\ length (salt p) = 16%nat ->
  leads_to B any (hbind (prompt_os O) (fun pass => match decrypt C p pass with (Ok _, p) => hret p | (Err e, _) => hlift (Err e) | (Panic, _) => hlift Panic end)).
Proof.
  intros N [L2 L16]. eapply lt_bind; [apply l_prompt|intros pass _]. pose proof (fun e => bad_decrypt C p pass e L2 L16) as D.
  destruct (decrypt C p pass) as [[u|e|] q]; [apply lt_ret; exact I|apply lt_lift; [discriminate|]; intros x E; injection E as <-; apply N, D; reflexivity|apply lt_lift; discriminate].
Qed.

Lemma verify_errors k m s : P k -> P m -> P (sigPathOf m s) -> (forall e, verify_error e -> B e) -> leads_to B any (Verify_os C O k m s).
Proof.
  intros Pk Pm Ps N. eapply lt_bind; [apply l_public; [exact Pk|]; intros; apply N, VePublic; assumption|intros [a n key] La]. cbn [p_keyAlgo] in La. eapply lt_bind; [apply l_readfile, Pm|intros d _].
  eapply (lt_bind _ (fun g => length (pkAlgo g) = 2%nat)).
  { eapply lt_bind; [apply l_readfile, Ps|intros f _]. apply lt_lift; [|intros e E; apply N, VeText, (bad_sig _ _ E)]. intros [a' n' g] E. apply signature_file_iff in E as (_ & W & _). exact W. }
  intros [a' n' g] La'. cbn [pkAlgo] in La'. apply lt_lift; [intros; exact I|]. intros e E. apply N.
  destruct (two_bytes _ La) as (x & y & ->). destruct (two_bytes _ La') as (x' & y' & ->).
  destruct (pub_verify_cases C [x; y] n key d [x'; y'] n' g) as [(t & R & X)|(_ & _ & _ & _ & X)]; [|congruence]. rewrite X in E. injection E as <-.
  destruct R; constructor; assumption.
Qed.
Lemma sign_errors k m s : P k -> P m -> P (sigPathOf m s) -> (forall e, sign_error e -> B e) -> leads_to B any (Sign_os C O k m s).
Proof.
  intros Pk Pm Ps N. eapply lt_bind; [apply l_secret; [exact Pk|]; intros; apply N, SiSecret; assumption|intros p Lp]. eapply lt_bind with (Q := any).
  - destruct (IsEncrypted p); [|apply lt_ret; exact I]. apply l_unlock; [intros; apply N, SiLocked; assumption|exact Lp].
  - intros q _. eapply lt_bind; [apply l_readfile, Pm|intros d _]. apply l_writefile, Ps.
Qed.
Lemma generate_errors k pass : P (k ++ str ".sec") -> P (k ++ str ".pub") -> rand_rules O -> leads_to B any (GenerateKey_os C O k pass None).
Proof.
  intros Ps Pp RR. eapply lt_bind with (Q := any); [|intros pp _; eapply lt_bind; [apply l_writefile, Ps|intros _ _; apply l_writefile, Pp]].
  unfold GenerateKeypair_os. cbv zeta. eapply lt_bind; [apply l_rand, RR|intros seed _]. eapply lt_bind; [apply l_rand, RR|intros slt Ls]. eapply lt_bind; [apply l_rand, RR|intros num _].
  eapply lt_bind with (Q := any); [|intros; apply lt_ret; exact I]. apply lt_lift; [intros; exact I|]. intros e E. destruct pass as [|x pass]; [discriminate|].
  unfold bcrypt_Key in E. change (defaultRounds mod 4294967296 <? 1) with false in E. cbv iota in E. rewrite Ls in E.
  change (Z.of_nat saltLength) with 16 in E. cbn [Z.eqb Z.gtb Z.compare orb Pos.compare Pos.compare_cont] in E. change (Z.of_nat secretKeyLength >? 1024) with false in E. discriminate E.
Qed.
Lemma tobox_errors p : (forall e, not_unlocked e -> B e) -> length (kdfAlgo p) = 2%nat /\ length (salt p) = 16%nat -> leads_to B any (ToBox_os C O p).
Proof. intros N Lp. eapply lt_bind with (Q := any); [|intros; apply lt_ret; exact I]. destruct (Check C p); [apply lt_ret; exact I|apply l_unlock; assumption..]. Qed.
Lemma l_encode out : w_within _ B (enc_write (h_write O out)).
Proof.
  assert (K : forall p k en t, match fst (enc_write_loop (h_write O out) p k en t) with (_, Some x) => B x | _ => True end).
  { induction p as [|y p IH]; intros k0 en0 t0; cbn [enc_write_loop]; [exact I|]. destruct (_ =? 3)%nat; [|apply IH].
    pose proof (l_write out (StdEncode (set_nth (e_index en0) y (e_buf en0))) t0) as Z. destruct (h_write O out _ t0) as [[k1 [x1|]] t1]; cbn [fst] in *; [apply (Z k1 x1); reflexivity|].
    destruct (_ =? decodedSize); [|apply IH]. pose proof (l_write out [x0a] t1) as Z2. destruct (h_write O out [x0a] t1) as [[k2 [x2|]] t2]; cbn [fst] in *; [apply (Z2 k2 x2); reflexivity|]. apply IH. }
  intros b [en t] n0 x0. unfold enc_write. intro E. specialize (K b 0 en t). cbn [fst snd] in E. rewrite E in K. exact K.
Qed.
Lemma tobox_bad p x : pub_ToBox p = Err x -> seal_error x.
Proof. unfold pub_ToBox. destruct (e_from_bytes _); [discriminate|]. intro E. assert (X : EMsg (str "signify: invalid public key") = x) by congruence. rewrite <- X. exact SePoint. Qed.
Lemma l_seal pub fd len out : rand_rules O -> 0 <= len < 2 ^ 63 -> (forall e, seal_error e -> B e) ->
  m_within _ B (seal C (enc * list step) (beside_rand O) pub (beside_reader (h_read O fd)) len (enc_write (h_write O out))).
Proof.
  intros RR Ll N. apply seal_within.
  - exact Ll.
  - intros n0 [en t] x0. unfold beside_rand. cbn [snd]. pose proof (l_rand n0 RR t) as Z. destruct (h_rand O n0 t) as [[b|y|] t']; cbn [fst] in *; try discriminate. intro E. injection E as <-. exact Z.
  - intros n0 [en t] b x0. unfold beside_reader. cbn [snd]. pose proof (l_read fd n0 t b x0) as Z. destruct (h_read O fd n0 t) as [r t']. exact Z.
  - apply l_encode.
  - intros x0 E. apply N, (tobox_bad pub), E.
Qed.
Lemma l_sealed {T} (m : enc * list step -> res unit * (enc * list step)) (c : enc * list step -> T * (enc * list step)) es : m_within _ B m ->
  match fst (let '(r, es) := m es in let '(_, es) := c es in (r, snd es)) with Ok _ => True | Err e => B e | Panic => True end.
Proof. intro Y. pose proof (fun e => Y es e) as X. destruct (m es) as [[u|x|] es1]; cbn [fst] in X; destruct (c es1) as [? es2]; cbn [fst]; [exact I|apply X; reflexivity|exact I]. Qed.
Lemma seal_errors k m e : P k -> P m -> P (enc_path m e) -> file_rules O -> rand_rules O -> (forall e, seal_error e -> B e) -> leads_to B any (Seal_os C O k m e).
Proof.
  intros Pk Pm Pe FR RR N. unfold Seal_os. eapply lt_bind; [apply l_public; [exact Pk|]; intros; apply N, SePublic; assumption|intros pub _]. eapply lt_bind; [apply l_open, Pm|intros fd _].
  apply lt_defer. eapply lt_bind; [apply l_stat, FR|intros len Ll]. eapply lt_bind; [apply l_create; unfold enc_path in Pe; destruct e; exact Pe|intros out _]. apply lt_defer.
  intro h. pose proof (l_write out (str "untrusted comment: psignify encrypted file" ++ [x0a]) h) as X.
  destruct (h_write O out _ h) as [[n [x|]] h1]; [apply (X n x); reflexivity|].
  exact (l_sealed _ (enc_close (h_write O out)) (NewEncoder, h1) (l_seal pub fd len out RR Ll N)).
Qed.
Lemma open_errors fuel k e m : P k -> P e -> P m -> (forall e, open_error e -> B e) -> leads_to B any (Open_os C O fuel k e m).
Proof.
  intros Pk Pe Pm N. eapply lt_bind; [apply l_secret; [exact Pk|]; intros; apply N, OpSecret; assumption|intros p Lp]. eapply lt_bind; [apply l_open, Pe|intros fd _].
  apply lt_defer. eapply lt_bind; [apply lt_within, skip_within, l_read|intros _ _]. eapply lt_bind; [apply l_create, Pm|intros out _]. apply lt_defer.
  eapply lt_bind; [apply tobox_errors; [intros; apply N, OpLocked; assumption|exact Lp]|intros edpriv _]. apply lt_within, open_within.
  - apply dec_within; [apply l_read|intro i; apply N, OpText; constructor].
  - apply l_write.
  - intros n X Y. apply N, OpHeader; assumption.
  - apply N, OpAuth.
  - intros i Hi. apply N, OpChunk, Hi.
Qed.
End Ops.

(* ---- the terminal ---- *)
Definition tameb (b : byte) : bool := beqb b x0a || ((32 <=? b2z b) && (b2z b <=? 126)).
Lemma tame_b t : forallb tameb t = true -> tame t.
Proof.
  intros F b I. rewrite forallb_forall in F. specialize (F b I). unfold tameb in F. apply orb_true_iff in F as [F|F]; [left; apply beqb_eq; exact F|].
  apply andb_true_iff in F as [X Y]. right. lia.
Qed.
Lemma tame_app a b : tame a -> tame b -> tame (a ++ b).
Proof. intros X Y c I. apply in_app_or in I as [I|I]; auto. Qed.
Lemma tame_nil : tame [].
Proof. intros b []. Qed.
Lemma tame_part a b : tame (a ++ b) -> tame a /\ tame b.
Proof. intro T. split; intros c I; apply T, in_or_app; auto. Qed.
Lemma tame_cons b t : tame (b :: t) -> tame [b] /\ tame t.
Proof. apply (tame_part [b] t). Qed.
Lemma tame_line t : tame t -> tame (line t).
Proof. intro T. apply tame_app; [exact T|apply tame_b; reflexivity]. Qed.
Lemma tame_decimal z : tame (decimal z).
Proof.
  assert (D : forall u, tame (digits u)).
  { intros u b I. pose proof (digits_are u) as F. rewrite Forall_forall in F. specialize (F b I). unfold is_digit in F. right. lia. }
  assert (U : forall u, tame (str (DecimalString.NilZero.string_of_uint u))).
  { intro u. unfold DecimalString.NilZero.string_of_uint. destruct u; [apply tame_b; reflexivity|..]; rewrite digits_string; apply D. }
  unfold decimal. destruct (Z.to_int z) as [u|u]; cbn [DecimalString.NilZero.string_of_int]; [apply U|].
  apply (tame_app [x2d]); [apply tame_b; reflexivity|apply U].
Qed.

(* a text that is tame, or a tame one followed by the message with two bytes of the key file *)
Definition nearly (e : error) : Prop := tame (errText e) \/ exists a b, [a; b] <> str "BK" /\ errText e = kdf_message a b.
Ltac tame := repeat match goal with
  | |- tame (_ ++ _) => apply tame_app
  | |- tame (decimal _) => apply tame_decimal
  | |- tame (str _) => apply tame_b; vm_compute; reflexivity
  | |- tame [] => exact tame_nil
  | |- tame [_] => first [assumption | apply tame_b; vm_compute; reflexivity]
  | |- tame (?b :: ?t) => first [assumption | apply (tame_app [b] t)]
  | |- tame _ => assumption
  end.
Lemma text_own (e : error) : (forall t, error_text e t -> tame t) -> tame (errText e).
Proof. intro T. destruct e; cbn [errText]; first [apply T; constructor | tame]. Qed.
Lemma tame_bad_text e : bad_text e -> tame (errText e).
Proof. intros []. cbn [errText]. tame. Qed.
Lemma tame_bad_secret e : bad_secret e -> tame (errText e).
Proof. intros [x X| |]; [apply tame_bad_text, X|cbn [errText]; tame..]. Qed.
Lemma tame_bad_public e : bad_public e -> tame (errText e).
Proof. intros [x X|n _ _]; [apply tame_bad_text, X|cbn [errText]; tame]. Qed.
Lemma nearly_locked e : not_unlocked e -> nearly e.
Proof. intros [a b N| |]; [right; exists a, b; split; [exact N|reflexivity]|left; cbn [errText]; tame..]. Qed.
Lemma tame_seal e : seal_error e -> tame (errText e).
Proof. intros [x X|]; [apply tame_bad_public, X|cbn [errText]; tame]. Qed.
Lemma nearly_sign e : sign_error e -> nearly e.
Proof. intros [x X|x X]; [left; apply tame_bad_secret, X|apply nearly_locked, X]. Qed.
Lemma nearly_open e : open_error e -> nearly e.
Proof. intros [x X|x X|x X|n _ _| |i _]; [left; apply tame_bad_secret, X|apply nearly_locked, X|left; apply tame_bad_text, X|left; cbn [errText]; tame..]. Qed.

(* flags have values out of the arguments, and so have complaints *)
Definition tame_flags (f : flags) : Prop := tame (f_c f) /\ tame (f_m f) /\ tame (f_p f) /\ tame (f_s f) /\ tame (f_x f).
Lemma tame_split_eq t n v : tame t -> split_eq t = (n, v) -> tame n /\ forall x, v = Some x -> tame x.
Proof.
  revert n v. induction t as [|b t IH]; intros n v T E; cbn in E; [injection E as <- <-; split; [apply tame_nil|discriminate]|].
  apply tame_cons in T as [T1 T2]. destruct (beqb b x3d).
  - injection E as <- <-. split; [apply tame_nil|]. intros x X. injection X as <-. exact T2.
  - destruct (split_eq t) as [n' v'] eqn:E2. injection E as <- <-. destruct (IH n' v' T2 eq_refl) as [X Y]. split; [apply (tame_app [b]); assumption|exact Y].
Qed.
Lemma tame_Quote t : tame t -> tame (Quote t).
Proof.
  intro T. unfold Quote. apply tame_app; [intros b [<- | []]; right; vm_compute; split; discriminate|]. apply tame_app; [|intros b [<- | []]; right; vm_compute; split; discriminate].
  intros b X. apply in_concat in X. destruct X as (q & Iq & Ib). apply in_map_iff in Iq. destruct Iq as (c & <- & Ic). right.
  destruct (T c Ic) as [-> |R]; [vm_compute in Ib; destruct Ib as [<- |[<- |[]]]; vm_compute; split; discriminate|].
  destruct (beqb c x22) eqn:E1; [apply beqb_eq in E1; subst c; vm_compute in Ib; destruct Ib as [<- |[<- |[]]]; vm_compute; split; discriminate|].
  destruct (beqb c x5c) eqn:E2; [apply beqb_eq in E2; subst c; vm_compute in Ib; destruct Ib as [<- |[<- |[]]]; vm_compute; split; discriminate|].
  assert (Q : quoteByte c = [c]).
  { clear Ib T. destruct c; try reflexivity; try discriminate; exfalso; vm_compute in R; destruct R as [R1 R2]; first [apply R1; reflexivity|apply R2; reflexivity]. }
  rewrite Q in Ib. destruct Ib as [<- |[]]. exact R.
Qed.
Definition tame_one (o : one) : Prop :=
  match o with Stop r => True | More f r => tame_flags f /\ Forall tame r | Bad msg => tame msg end.
Lemma tame_set n v f : tame v -> tame_flags f -> tame_flags (setString n v f).
Proof. intros V (X1 & X2 & X3 & X4 & X5). destruct f. cbn in X1, X2, X3, X4, X5. unfold setString. repeat match goal with |- context [if ?c then _ else _] => destruct c end; repeat split; assumption. Qed.
Lemma tame_setb n v f : tame_flags f -> tame_flags (setBool n v f).
Proof. intros (X1 & X2 & X3 & X4 & X5). destruct f. cbn in X1, X2, X3, X4, X5. unfold setBool. repeat match goal with |- context [if ?c then _ else _] => destruct c end; repeat split; assumption. Qed.
Lemma tame_parseFlag s name rest f : tame s -> tame name -> Forall tame rest -> tame_flags f -> tame_one (parseFlag s name rest f).
Proof.
  intros S N R F. unfold parseFlag. destruct name as [|c r]; [cbn [tame_one]; tame|]. destruct (_ || _); [cbn [tame_one]; tame|].
  cbn [split_name]. destruct (split_eq r) as [n v] eqn:E. apply tame_cons in N as [Nc Nr]. destruct (tame_split_eq _ _ _ Nr E) as [Tn Tv].
  pose proof (tame_app _ _ Nc Tn) as T. cbn [app] in T. destruct (kindOf (c :: n)).
  - destruct v as [v|]; [cbn [tame_one]; split; [apply tame_set; [apply Tv; reflexivity|exact F]|exact R]|].
    destruct R as [|v r' Tv' R]; [cbn [tame_one]; tame|cbn [tame_one]; split; [apply tame_set; assumption|exact R]].
  - destruct v as [v|]; [|cbn [tame_one]; split; [apply tame_setb, F|exact R]]. destruct (ParseBool v); [cbn [tame_one]; split; [apply tame_setb, F|exact R]|].
    cbn [tame_one]. specialize (tame_Quote _ (Tv v eq_refl)). intro TQ. tame.
  - destruct (_ || _); cbn [tame_one]; [apply tame_nil|tame].
Qed.
Lemma tame_parse args : Forall tame args -> match flagParse args with Parsed f _ => tame_flags f | Malformed msg => tame msg end.
Proof.
  unfold flagParse. generalize (Datatypes.S (length args)). intro n. assert (F : tame_flags noFlags) by (repeat split; apply tame_nil). revert F. generalize noFlags.
  revert args. induction n as [|n IH]; intros args f F T; [exact F|]. cbn [parseArgs].
  assert (O : tame_one (parseOne args f)).
  { unfold parseOne. destruct T as [|s rest Ts Tr]; [exact I|]. destruct s as [|c [|c2 r]]; [exact I..|]. destruct (negb _); [exact I|].
    pose proof (proj2 (tame_cons _ _ Ts)) as T2. destruct (beqb c2 x2d).
    - destruct r as [|c3 r]; [exact I|]. apply tame_parseFlag; [exact Ts|apply (tame_cons _ _ T2)|exact Tr|exact F].
    - apply tame_parseFlag; assumption. }
  destruct (parseOne args f) as [r|f' r|m]; cbn [tame_one] in O; [exact F|apply IH; apply O|exact O].
Qed.

Lemma stdout_app a b : on_stdout (a ++ b) = on_stdout a ++ on_stdout b.
Proof. apply flat_map_app. Qed.
Lemma stdout_touches rs ws h : Forall (touches rs ws) h -> tame (on_stdout h).
Proof.
  induction 1 as [|s h X _ IH]; [apply tame_nil|]. cbn [on_stdout flat_map]. apply tame_app; [|exact IH]. destruct s; try apply tame_nil. cbn in X. destruct X as [-> | ->]; tame.
Qed.
Lemma tame_usage arg0 : tame arg0 -> tame (usageText arg0).
Proof. intro T. unfold usageText. tame. Qed.

(* the default names *)
Lemma tame_in p q : (forall b, In b q -> In b p \/ In b (str "./")) -> tame p -> tame q.
Proof. intros S T b I. apply S in I as [I|I]; [exact (T b I)|]. destruct I as [<-|[<-|[]]]; right; cbn; lia. Qed.
Lemma split_in l : forall cur c b, In c (split_slash cur l) -> In b c -> In b (cur ++ l).
Proof.
  induction l as [|x l IH]; intros cur c b Hc Hb; cbn [split_slash] in Hc.
  - destruct Hc as [<-|[]]. rewrite app_nil_r. apply in_rev. exact Hb.
  - destruct (beqb x slash).
    + destruct Hc as [<-|Hc]; [apply in_or_app; left; apply in_rev; exact Hb|]. apply in_or_app. right. right. exact (IH [] c b Hc Hb).
    + specialize (IH (x :: cur) c b Hc Hb). apply in_app_or in IH as [[<-|IH]|IH]; apply in_or_app; [right; left; reflexivity|left; exact IH|right; right; exact IH].
Qed.
Lemma clean_in r l : forall acc c, In c (clean_comps r acc l) -> In c acc \/ In c l.
Proof.
  induction l as [|x l IH]; intros acc c H; cbn [clean_comps] in H; [left; apply in_rev; exact H|].
  destruct (_ || _); [destruct (IH _ _ H); auto using in_cons|]. destruct (bytes_eqb x dotdot).
  - destruct acc as [|a acc].
    + destruct r; destruct (IH _ _ H) as [X|X]; auto using in_cons. destruct X as [<-|[]]. right. left. reflexivity.
    + destruct (bytes_eqb a dotdot); destruct (IH _ _ H) as [X|X]; auto using in_cons. destruct X as [<-|X]; [right; left; reflexivity|left; exact X].
  - destruct (IH _ _ H) as [X|X]; auto using in_cons. destruct X as [<-|X]; [right; left; reflexivity|left; exact X].
Qed.
Lemma join_in cs b : In b (join_slash cs) -> b = slash \/ exists c, In c cs /\ In b c.
Proof.
  induction cs as [|c cs IH]; [intros []|]. destruct cs as [|c' cs]; [intro H; right; exists c; split; [left; reflexivity|exact H]|].
  change (join_slash (c :: c' :: cs)) with (c ++ slash :: join_slash (c' :: cs)). intro H. apply in_app_or in H as [H|[<-|H]].
  - right. exists c. split; [left; reflexivity|exact H].
  - left. reflexivity.
  - destruct (IH H) as [->|(d & X & Y)]; [left; reflexivity|right; exists d; split; [right; exact X|exact Y]].
Qed.
Lemma tame_Clean p : tame p -> tame (Clean p).
Proof.
  apply tame_in. unfold Clean. destruct p as [|c p]; [intros b [<-|[]]; right; left; reflexivity|].
  assert (J : forall r b, In b (join_slash (clean_comps r [] (split_slash [] (c :: p)))) -> In b (c :: p) \/ In b (str "./")).
  { intros r b H. apply join_in in H as [->|(d & X & Y)]; [right; right; left; reflexivity|]. apply clean_in in X as [[]|X]. left. exact (split_in (c :: p) [] d b X Y). }
  cbv zeta. intro b. destruct (beqb c slash).
  - intros [<-|H]; [right; right; left; reflexivity|exact (J _ _ H)].
  - destruct (clean_comps false [] (split_slash [] (c :: p))) eqn:E; [intros [<-|[]]; right; left; reflexivity|]. rewrite <- E. apply J.
Qed.
Lemma tame_base u : tame_user u -> tame (defaultKeyBase u).
Proof.
  destruct u as [[home name]|]; [|intro; apply tame_nil]. intros [Th Tn]. unfold defaultKeyBase. destruct home as [|c home]; [exact Tn|].
  change (Join [c :: home; str ".signify"; name]) with (Clean (join_slash [c :: home; str ".signify"; name])). apply tame_Clean.
  cbn [join_slash]. apply tame_app; [exact Th|]. apply (tame_app [slash]); [apply tame_b; reflexivity|]. apply tame_app; [apply tame_b; reflexivity|].
  apply (tame_app [slash]); [apply tame_b; reflexivity|exact Tn].
Qed.

Section Main.
Variable C : Crypto.
Variable O : os.
Variable fuel : list step -> nat.
Theorem stdout_tame arg0 u args n e h : LengthLaws C -> BoxTidy C -> rand_rules O -> file_rules O -> tame arg0 -> Forall tame args ->
  main_os C O fuel arg0 u args = (n, e, h) -> tame (on_stdout h).
Proof.
  intros LL BT RR FR T0 T M. pose proof (tame_parse args T) as TF. destruct (every_command_line args) as (ss & rest & Hc & [Hs|Hm]).
  - destruct (flagParse_stops _ _ _ Hc Hs) as (rr & P). rewrite P in TF. destruct TF as (Tc & Tm & Tp & Ts & Tx). cbn [flags_of f_c f_m f_p f_s f_x] in Tc, Tm, Tp, Ts, Tx.
    pose proof (main_runs C O fuel arg0 u ss args rest n e h LL BT RR FR Hc Hs M) as R. clear M.
    assert (K : forall f done r n e t, concluded f done r n e t -> tame (on_stdout done) -> tame (on_stdout t)) by (intros ? ? ? ? ? ? []; intros; try apply tame_nil; assumption).
    assert (Y : forall a, tame (on_stdout (asked a ++ [SOut (str "Confirm password: ")]))) by (intro a; cbn [on_stdout asked flat_map app]; tame).
    assert (TT : forall a b, tame (on_stdout (typed_twice a b))) by (intros; cbn [on_stdout typed_twice asked flat_map app]; tame).
    assert (OK : forall x, tame x -> tame (on_stdout [SOut (line (x ++ str ": OK"))])) by (intros x X; cbn [on_stdout flat_map]; rewrite app_nil_r; unfold line; tame).
    destruct R as [Mo'|r n e h t Mo' _ _ (Th & _) Kc|pass r n e h t Mo' _ _ _ (Th & _) Kc|y s h Mo' _ _ Np _|Mo'|r n e h t Mo' _ _ (Th & _) Kc|r n e h t Mo' (Th & _) Kc|r n e h t Mo' (_ & Th & _) Kc|r n e h t Mo' (_ & Th & _) Kc|N];
      rewrite ?stdout_app; try apply tame_nil.
    + apply tame_app; [exact (stdout_touches _ _ _ Th)|apply (K _ _ _ _ _ _ Kc), tame_nil].
    + apply tame_app; [apply TT|apply tame_app; [exact (stdout_touches _ _ _ Th)|apply (K _ _ _ _ _ _ Kc), tame_nil]].
    + destruct Np; [cbn [on_stdout flat_map]; tame| |apply TT]. cbn [on_stdout asked flat_map app]. tame.
    + apply tame_app; [exact (stdout_touches _ _ _ Th)|apply (K _ _ _ _ _ _ Kc), tame_nil].
    + apply tame_app; [exact (stdout_touches _ _ _ Th)|apply (K _ _ _ _ _ _ Kc), OK, Tm].
    + apply tame_app; [exact (stdout_touches _ _ _ Th)|apply (K _ _ _ _ _ _ Kc), OK, Tm].
    + apply tame_app; [exact (stdout_touches _ _ _ Th)|apply (K _ _ _ _ _ _ Kc), OK, Tc].
  - destruct (flagParse_malformed _ _ _ Hc Hm) as (msg & P). unfold main_os in M. rewrite P in M. injection M as <- <- <-.
    cbn [on_stdout flat_map]. rewrite app_nil_r. apply tame_usage, T0.
Qed.

Lemma action_text (m : H unit) (B : error -> Prop) onErr onOk h n e h' : leads_to B any m -> action_os m onErr onOk h = (n, e, h') -> e = [] \/ exists x, B x /\ e = onErr x.
Proof.
  intros L E. specialize (L h). unfold action_os in E. destruct (m h) as [[[]|x|] h1]; cbn [fst] in L; injection E as <- <- <-; [left; reflexivity|right; exists x; auto|left; reflexivity].
Qed.

Theorem stderr_tame arg0 u args n e h : rand_rules O -> file_rules O -> tame arg0 -> Forall tame args -> tame_user u -> tame_errors O ->
  main_os C O fuel arg0 u args = (n, e, h) ->
  tame e \/ exists ss rest p a b, command_line ss args rest /\ stops rest /\ (mode ss x53 \/ mode ss x44) /\
    tame p /\ [a; b] <> str "BK" /\ e = line (p ++ kdf_message a b).
Proof.
  intros RR FR T0 T Tu EA M. apply tame_base in Tu. pose proof (tame_parse args T) as TF. unfold main_os in M. destruct (every_command_line args) as (ss & rest & Hc & [Hs|Hm]).
  2:{ destruct (flagParse_malformed _ _ _ Hc Hm) as (msg & P). rewrite P in M, TF. injection M as <- <- <-. left. exact TF. }
  destruct (flagParse_stops _ _ _ Hc Hs) as (rr & P). rewrite P in M, TF. clear P rr. destruct TF as (Tc & Tm & Tp & Ts & Tx). cbn [flags_of f_c f_m f_p f_s f_x] in Tc, Tm, Tp, Ts, Tx.
  unfold dispatch_os in M. cbn [flags_of f_s f_p f_G f_S f_V f_E f_D f_m f_x f_c f_n] in M. rewrite !or_default_eq in M. cbv zeta in M.
  set (A := fun e : error => forall t, error_text e t -> tame t) in *.
  assert (Tsig : tame (sigPathOf (string_value x6d ss) (string_value x78 ss))) by (unfold sigPathOf; destruct (string_value x78 ss); tame).
  assert (Tpub : tame (or_default (string_value x70 ss) (defaultKeyBase u) (str ".pub"))) by (unfold or_default; destruct (string_value x70 ss), (defaultKeyBase u); tame).
  assert (Tsec : tame (or_default (string_value x73 ss) (defaultKeyBase u) (str ".sec"))) by (unfold or_default; destruct (string_value x73 ss), (defaultKeyBase u); tame).
  destruct (bool_value x47 ss) eqn:G.
  { left. unfold generateAction_os in M. destruct (isEmpty _); [injection M as <- <- <-; tame|].
    assert (K : forall k pass h n e h', tame k -> action_os (GenerateKey_os C O k pass None) (fun e => str "Failed to generate keypair: " ++ errText e ++ [x0a]) None h = (n, e, h') -> tame e).
    { intros k pass h0 n0 e0 h' Tk E. apply (action_text _ A) in E as [-> | (x & X & ->)]; [apply tame_nil|apply text_own in X; tame|].
      apply generate_errors with (A := A) (P := tame); [exact EA|auto|tame|tame|exact RR]. }
    destruct (bool_value x6e ss); [exact (K _ _ _ _ _ _ Tpub M)|].
    pose proof (l_confirm O A (fun e => tame (errText e)) tame EA (fun e => text_own e)) as L. specialize (L ltac:(cbn [errText]; tame) []).
    destruct (confirm_os O []) as [[pass|x|] h1]; cbn [fst] in L; [exact (K _ _ _ _ _ _ Tpub M)|injection M as <- <- <-; tame|injection M as <- <- <-; apply tame_nil]. }
  destruct (bool_value x53 ss) eqn:Sb.
  { pose proof (mode_S ss G Sb) as Mo. destruct (_ || _); [injection M as <- <- <-; left; tame|].
    apply (action_text _ nearly) in M as [-> | (x & X & ->)]; [left; apply tame_nil| |].
    - destruct X as [X|(a & b & N & X)]; [left; tame|]. right. exists ss, rest, (str "Signing " ++ string_value x6d ss ++ str " failed: "), a, b.
      repeat (split; [first [assumption|left; assumption|tame]|]). rewrite X. unfold line. rewrite <- !app_assoc. reflexivity.
    - apply sign_errors with (A := A) (P := tame); [exact EA|intros y Y; left; apply text_own, Y|assumption..|exact nearly_sign]. }
  destruct (bool_value x56 ss) eqn:Vb.
  { left. apply (action_text _ (fun _ => True)) in M as [-> | (x & _ & ->)]; [apply tame_nil|tame|]. apply verify_errors with (A := A) (P := tame); auto. }
  destruct (bool_value x45 ss) eqn:Eb.
  { left. apply (action_text _ (fun e => tame (errText e))) in M as [-> | (x & X & ->)]; [apply tame_nil|tame|].
    apply seal_errors with (A := A) (P := tame); [exact EA|intros y; apply text_own|assumption|assumption|unfold enc_path; destruct (bytes_eqb _ _); tame|exact FR|exact RR|exact tame_seal]. }
  destruct (bool_value x44 ss) eqn:Db.
  { pose proof (mode_D ss G Sb Vb Eb Db) as Mo.
    apply (action_text _ nearly) in M as [-> | (x & X & ->)]; [left; apply tame_nil| |].
    - destruct X as [X|(a & b & N & X)]; [left; tame|]. right. exists ss, rest, [], a, b.
      repeat (split; [first [assumption|right; assumption|apply tame_nil]|]). rewrite X. reflexivity.
    - apply open_errors with (A := A) (P := tame); [exact EA|intros y Y; left; apply text_own, Y|assumption..|exact nearly_open]. }
  injection M as <- <- <-. left. apply tame_usage, T0.
Qed.
End Main.

(* ---- examples ---- *)
Lemma small_tame fs size ps fails : (forall k e t, fails k = Some e -> error_text e t -> tame t) -> tame_errors (small_os fs size ps fails).
Proof.
  intros F h s e A X Q t T. destruct s as [p r|p b m r|p r|p m r|fd r|fd n b r|fd b n r|fd r|n r|r|b]; cbn in A, X, Q.
  - destruct r as [d|x]; [discriminate|]. injection X as ->. match type of A with match ?c with _ => _ end = _ => destruct c end; [discriminate|]. injection A as <-. inversion T; subst. tame.
  - exact (F _ _ _ (eq_trans A X) T).
  - destruct r; [discriminate|discriminate].
  - destruct r; [discriminate|discriminate].
  - destruct r; [discriminate|discriminate].
  - subst r. assert (E : e = EOF \/ e = EFault).
    { destruct (nth_error ps _) as [[|y b']|]; [left; congruence| |left; congruence].
      match type of A with context [if ?c then _ else _] => destruct c end; [discriminate|right; congruence]. }
    destruct E as [-> | ->]; inversion T; tame.
  - apply pair_equal_spec in A as [_ A]. exact (F _ _ _ (eq_trans A X) T).
  - assert (E : e = EFault) by congruence. subst e. inversion T.
  - destruct r; discriminate.
  - destruct r; discriminate.
  - discriminate.
Qed.
Definition odd_key : Private :=
  Priv (keyAlgo toy_locked) [x1b; x63] (kdfRounds toy_locked) (salt toy_locked) (checksum toy_locked) (keyNum toy_locked) (key toy_locked).
Definition odd_files : list (path * bytes) := (str "o.sec", sec_file odd_key) :: key_files.
Lemma odd_escape : exists n e h, LengthLaws toy /\ BoxTidy toy /\ rand_rules (small_os odd_files 5 [str "hello"] never) /\ file_rules (small_os odd_files 5 [str "hello"] never) /\
  tame_errors (small_os odd_files 5 [str "hello"] never) /\
  main_os toy (small_os odd_files 5 [str "hello"] never) (fun _ => 1000%nat) (str "psignify") None [str "-S"; str "-s"; str "o.sec"; str "-m"; str "m"] = (n, e, h) /\
  tame (str "psignify") /\ Forall tame [str "-S"; str "-s"; str "o.sec"; str "-m"; str "m"] /\
  n = 1 /\ e = line (str "Signing m failed: signify: unsupported KDF algorithm " ++ [x1b; x63]) /\ ~ tame e.
Proof.
  eexists _, _, _. split; [exact toy_lengths|]. split; [exact toy_tidy|]. split; [apply small_rand|]. split; [apply small_rules|].
  split; [apply small_tame; discriminate|]. split; [vm_compute; reflexivity|]. split; [apply tame_b; vm_compute; reflexivity|].
  split; [do 5 (apply Forall_cons; [apply tame_b; vm_compute; reflexivity|]); apply Forall_nil|]. split; [reflexivity|]. split; [vm_compute; reflexivity|].
  intro T. specialize (T x1b). destruct T as [T|T]; [|discriminate|]. 2:{ vm_compute in T. destruct T as [T _]. contradiction (T eq_refl). }
  vm_compute. tauto.
Qed.

(* ---- as stated ---- *)
Lemma from_leads {T} (B : error -> Prop) (m : H T) h e : leads_to B any m -> fst (m h) = Err e -> B e.
Proof. intros L E. specialize (L h). rewrite E in L. exact L. Qed.
Lemma verify_finds C O A k m s h e : errors_in (fun p => In p [k; m; sigPathOf m s]) O A -> fst (Verify_os C O k m s h) = Err e -> A e \/ verify_error e.
Proof. intros EA. apply from_leads with (B := fun e => A e \/ verify_error e). eapply verify_errors; [exact EA|auto|cbn [In]; auto..|auto]. Qed.
Lemma sign_finds C O A k m s h e : errors_in (fun p => In p [k; m; sigPathOf m s]) O A -> fst (Sign_os C O k m s h) = Err e -> A e \/ sign_error e.
Proof. intros EA. apply from_leads with (B := fun e => A e \/ sign_error e). eapply sign_errors; [exact EA|auto|cbn [In]; auto..|auto]. Qed.
Lemma generate_finds C O A k pass h e : rand_rules O -> errors_in (fun p => In p [k ++ str ".sec"; k ++ str ".pub"]) O A -> fst (GenerateKey_os C O k pass None h) = Err e -> A e.
Proof. intros RR EA. apply from_leads with (B := A). eapply generate_errors; [exact EA|auto|cbn [In]; auto..|exact RR]. Qed.
Lemma seal_finds C O A k m c h e : file_rules O -> rand_rules O -> errors_in (fun p => In p [k; m; enc_path m c]) O A -> fst (Seal_os C O k m c h) = Err e -> A e \/ seal_error e.
Proof. intros FR RR EA. apply from_leads with (B := fun e => A e \/ seal_error e). eapply seal_errors; [exact EA|auto|cbn [In]; auto..|exact FR|exact RR|auto]. Qed.
Lemma open_finds C O A fuel k c m h e : errors_in (fun p => In p [k; c; m]) O A -> fst (Open_os C O fuel k c m h) = Err e -> A e \/ open_error e.
Proof. intros EA. apply from_leads with (B := fun e => A e \/ open_error e). eapply open_errors; [exact EA|auto|cbn [In]; auto..|auto]. Qed.

(* small runs: what is found wrong *)
Lemma example_found :
  fst (Verify_os toy (small_os key_files 5 [] never) (str "k.pub") (str "m") (str "m") []) = Err (CorruptInput 4) /\
  fst (Sign_os toy (small_os odd_files 5 [] never) (str "o.sec") (str "m") [] []) = Err (EMsg (kdf_message x1b x63)) /\
  fst (Sign_os toy (small_os key_files 5 [] never) (str "k.pub") (str "m") [] []) = Err (EMsg (kdf_message x13 x13)) /\
  fst (Seal_os toy (small_os key_files 5 [] never) (str "k.sec") (str "m") [] []) = Err (EMsg (str "signify: invalid public key length 104")) /\
  fst (Open_os toy (small_os key_files 5 (map (fun x => [x]) (str "abc" ++ [x0a] ++ str "AAAA")) never) (fun _ => 1000%nat) (str "k.sec") (str "c") (str "m") []) =
    Err (EMsg (str "signify/crypto: couldn't read the full header (read 3)")).
Proof. do 4 (split; [vm_compute; reflexivity|]). vm_compute. reflexivity. Qed.
