(* The files of key pairs made from the same random bytes with different passphrases. *)
From Verif Require Import KeysFacts KeyOpsFacts SignFacts GenFacts TextFacts TextKeys RoundTrip ReportFacts ReportOpen SpecReport.
From Verif Require Export SpecPass.
Local Open Scope Z_scope.

Lemma sec_file_holds p : priv_wf p -> holds (sec_file p) (priv_encode p).
Proof.
  intro W. destruct (data_file_round_trip (str "untrusted comment: signify private key") (priv_encode p)) as (com & H).
  - reflexivity.
  - vm_compute. intuition discriminate.
  - vm_compute. discriminate.
  - rewrite priv_encode_length by exact W. lia.
  - exact (read_holds _ _ _ H).
Qed.
Lemma pub_file_holds p : pub_wf p -> holds (pub_file p) (pub_encode p).
Proof.
  intro W. destruct (data_file_round_trip (str "untrusted comment: signify public key") (pub_encode p)) as (com & H).
  - reflexivity.
  - vm_compute. intuition discriminate.
  - vm_compute. discriminate.
  - unfold pub_encode. rewrite !app_length. destruct W as (-> & -> & ->). lia.
  - exact (read_holds _ _ _ H).
Qed.

Lemma slice_prefix (a b : bytes) off n : firstn 56 a = firstn 56 b -> (off + n <= 56)%nat -> slice off n a = slice off n b.
Proof.
  intros E L. unfold slice.
  assert (X : forall l : bytes, firstn n (skipn off l) = firstn n (skipn off (firstn 56 l))).
  { intro l. rewrite skipn_firstn_comm, firstn_firstn. f_equal. lia. }
  rewrite (X a), (X b), E. reflexivity.
Qed.

Section Two.
Variable C : Crypto.
Hypothesis LL : LengthLaws C.

Lemma made_files k pass opts w v : GenerateKey C k pass opts w = (Ok tt, v) ->
  exists priv pub, file_holds v (sec_path k) (priv_encode priv) /\ file_holds v (pub_path k) (pub_encode pub) /\
    consistent_pair C pass opts (w_rng w) priv pub /\ priv_wf priv /\ pub_wf pub /\
    (pass <> [] -> kdfRounds priv = rounds_of opts mod 2 ^ 32).
Proof.
  intro G. destruct (GenerateKey_success _ _ _ _ _ _ LL G) as (priv & pub & w0 & GK & S1 & S2 & _).
  destruct (generate_wf _ _ _ _ _ _ _ LL GK) as [W1 W2]. exists priv, pub.
  split; [exists (sec_file priv); split; [eexists; exact S1|apply sec_file_holds, W1]|].
  split; [exists (pub_file pub); split; [eexists; exact S2|apply pub_file_holds, W2]|].
  split; [apply (generate_pair _ _ _ _ _ _ _ LL GK)|]. split; [exact W1|]. split; [exact W2|].
  intro Hp. apply (generate_rounds _ _ _ _ _ _ _ LL GK), Hp.
Qed.

Lemma same_public k1 k2 pass1 pass2 o1 o2 w1 w2 v1 v2 :
  GenerateKey C k1 pass1 o1 w1 = (Ok tt, v1) -> GenerateKey C k2 pass2 o2 w2 = (Ok tt, v2) -> same_draw w1 w2 ->
  exists f, contents v1 (pub_path k1) f /\ contents v2 (pub_path k2) f.
Proof.
  intros G1 G2 E.
  destruct (GenerateKey_success _ _ _ _ _ _ LL G1) as (priv1 & pub1 & u1 & K1 & _ & F1 & _).
  destruct (GenerateKey_success _ _ _ _ _ _ LL G2) as (priv2 & pub2 & u2 & K2 & _ & F2 & _).
  destruct (generate_pair _ _ _ _ _ _ _ LL K1) as [[(_ & A1 & _) (N1 & M1) _ P1 _ _ _] _].
  destruct (generate_pair _ _ _ _ _ _ _ LL K2) as [[(_ & A2 & _) (N2 & M2) _ P2 _ _ _] _].
  assert (X : pub1 = pub2).
  { destruct pub1 as [a1 n1 y1], pub2 as [a2 n2 y2]. cbn [p_keyAlgo p_keyNum p_key] in *. rewrite A1, A2, M1, M2, N1, N2, P1, P2, (slice_prefix _ _ 48 8 E ltac:(lia)), (slice_prefix _ _ 0 32 E ltac:(lia)). reflexivity. }
  subst pub2. exists (pub_file pub1). split; eexists; [exact F1|exact F2].
Qed.

Lemma same_secret_parts k1 k2 pass1 pass2 o1 o2 w1 w2 v1 v2 :
  GenerateKey C k1 pass1 o1 w1 = (Ok tt, v1) -> GenerateKey C k2 pass2 o2 w2 = (Ok tt, v2) -> same_draw w1 w2 ->
  exists d1 d2 r1 r2 common x1 x2, file_holds v1 (sec_path k1) d1 /\ file_holds v2 (sec_path k2) d2 /\
    secret_parts d1 r1 common x1 /\ secret_parts d2 r2 common x2.
Proof.
  intros G1 G2 E.
  destruct (made_files _ _ _ _ _ G1) as (p1 & q1 & H1 & _ & [(A1 & _ & B1) (N1 & _) S1 P1 C1 _ _] & W1 & _ & _).
  destruct (made_files _ _ _ _ _ G2) as (p2 & q2 & H2 & _ & [(A2 & _ & B2) (N2 & _) S2 P2 C2 _ _] & W2 & _ & _).
  exists (priv_encode p1), (priv_encode p2), (be_encode 4 (kdfRounds p1)), (be_encode 4 (kdfRounds p2)), (salt p1 ++ checksum p1 ++ keyNum p1), (key p1), (key p2).
  split; [exact H1|]. split; [exact H2|].
  destruct W1 as (_ & _ & _ & L1 & L2 & L3 & L4). destruct W2 as (_ & _ & _ & M1 & M2 & M3 & M4).
  split.
  - split; [unfold priv_encode; rewrite A1, B1, <- !app_assoc; reflexivity|]. rewrite length_be_encode, !app_length, L1, L2, L3, L4. auto.
  - split; [|rewrite length_be_encode, !app_length, L1, L2, L3, M4; auto].
    unfold priv_encode. rewrite A2, B2, S1, S2, C1, C2, N1, N2, P1, P2, (slice_prefix _ _ 48 8 E ltac:(lia)), (slice_prefix _ _ 0 32 E ltac:(lia)), (slice_prefix _ _ 32 16 E ltac:(lia)), <- !app_assoc. reflexivity.
Qed.

(* ---- what the two files show ---- *)
Lemma xor_skip n : forall a b, xor_bytes (skipn n a) (skipn n b) = skipn n (xor_bytes a b).
Proof.
  induction n as [|n IH]; intros a b; [reflexivity|]. destruct a as [|x a]; [reflexivity|]. destruct b as [|y b]; [|apply IH].
  cbn [skipn xor_bytes]. destruct (skipn n a); reflexivity.
Qed.
Lemma xor_both a b : length a = length b -> xor_bytes (xor_bytes a b) a = b.
Proof.
  revert b. induction a as [|x a IH]; intros [|y b] L; try discriminate L; [reflexivity|]. cbn [xor_bytes]. f_equal.
  - rewrite bxor_comm. rewrite (bxor_comm x y). rewrite bxor_comm. apply bxor_invol.
  - apply IH. injection L as L. exact L.
Qed.
Lemma shown k pass opts w v : GenerateKey C k pass opts w = (Ok tt, v) -> pass <> [] ->
  exists ds dp, file_holds v (sec_path k) ds /\ file_holds v (pub_path k) dp /\ length ds = 104%nat /\ length dp = 42%nat /\
    slice 4 4 ds = be_encode 4 (rounds_of opts mod 2 ^ 32) /\
    slice 24 8 ds = firstn 8 (sha512 C (firstn 32 (w_rng w) ++ slice 10 32 dp)) /\
    xor_bytes (slice 72 32 ds) (slice 10 32 dp) = skipn 32 (pbkdf C pass (slice 8 16 ds) (rounds_of opts mod 2 ^ 32) 64).
Proof.
  intros G Hp. pose proof G as GG.
  destruct (made_files _ _ _ _ _ G) as (p & q & H1 & H2 & [(A1 & A2 & B1) (N1 & N2) S1 P1 C1 _ K1] & W1 & W2 & R). specialize (R Hp). specialize (K1 Hp).
  exists (priv_encode p), (pub_encode q). split; [exact H1|]. split; [exact H2|].
  split; [apply priv_encode_length, W1|]. destruct W1 as (L1 & L2 & _ & L3 & L4 & L5 & L6). destruct W2 as (Q1 & Q2 & Q3).
  split; [unfold pub_encode; rewrite !app_length, Q1, Q2, Q3; reflexivity|].
  assert (E1 : slice 4 4 (priv_encode p) = be_encode 4 (kdfRounds p)).
  { unfold priv_encode. change 4%nat with (2 + (2 + 0))%nat at 1. rewrite (slice_app 2 _ _ _ _ L1), (slice_app 2 _ _ _ _ L2). apply slice_here, length_be_encode. }
  assert (E2 : slice 8 16 (priv_encode p) = salt p).
  { unfold priv_encode. change 8%nat with (2 + (2 + (4 + 0)))%nat. rewrite (slice_app 2 _ _ _ _ L1), (slice_app 2 _ _ _ _ L2), (slice_app 4) by apply length_be_encode. apply slice_here, L3. }
  assert (E3 : slice 24 8 (priv_encode p) = checksum p).
  { unfold priv_encode. change 24%nat with (2 + (2 + (4 + (16 + 0))))%nat. rewrite (slice_app 2 _ _ _ _ L1), (slice_app 2 _ _ _ _ L2), (slice_app 4), (slice_app 16) by (exact L3 || apply length_be_encode). apply slice_here, L4. }
  assert (E4 : slice 72 32 (priv_encode p) = skipn 32 (key p)).
  { unfold priv_encode. change 72%nat with (2 + (2 + (4 + (16 + (8 + (8 + 32))))))%nat.
    rewrite (slice_app 2 _ _ _ _ L1), (slice_app 2 _ _ _ _ L2), (slice_app 4), (slice_app 16), (slice_app 8), (slice_app 8) by (exact L3 || exact L4 || exact L5 || apply length_be_encode).
    unfold slice. apply firstn_all2. rewrite skipn_length, L6. lia. }
  assert (E5 : slice 10 32 (pub_encode q) = p_key q).
  { unfold pub_encode. change 10%nat with (2 + (8 + 0))%nat. rewrite (slice_app 2 _ _ _ _ Q1), (slice_app 8 _ _ _ _ Q2). unfold slice. apply firstn_all2. cbn [skipn]. lia. }
  rewrite E1, E2, E3, E4, E5, R. split; [reflexivity|]. split; [rewrite C1; reflexivity|].
  rewrite K1, R. set (K := pbkdf C pass (salt p) (rounds_of opts mod 2 ^ 32) 64).
  assert (LK : length K = 64%nat) by (apply len_pbkdf, LL).
  rewrite <- xor_skip.
  assert (X : skipn 32 (slice 0 32 (w_rng w) ++ p_key q) = p_key q).
  { assert (L : length (slice 0 32 (w_rng w)) = 32%nat).
    { rewrite K1, length_xor_bytes, app_length, Q3 in L6. lia. }
    rewrite skipn_app, L, Nat.sub_diag, skipn_all2 by lia. reflexivity. }
  rewrite X. apply xor_both. rewrite skipn_length, LK, Q3. reflexivity.
Qed.

(* ---- use of the keys ---- *)
Lemma key_ready k pass opts w w1 v mp m : GenerateKey C k pass opts w = (Ok tt, w1) ->
  w_fs v (sec_path k) = w_fs w1 (sec_path k) -> contents v mp m -> typed pass v ->
  exists p, sign_ready C (sec_path k) mp v p m /\ key p = slice 0 32 (w_rng w) ++ ed_public C (slice 0 32 (w_rng w)) /\
    keyAlgo p = str "Ed" /\ keyNum p = slice 48 8 (w_rng w).
Proof.
  intros G Fs Cm Ht.
  destruct (GenerateKey_success _ _ _ _ _ _ LL G) as (priv & pub & w0 & GK & S1 & S2 & R1 & R2).
  destruct (generate_rounds _ _ _ _ _ _ _ LL GK) as [Rd1 Rd2].
  destruct (generate_pair _ _ _ _ _ _ _ LL GK) as [[(A1 & A2 & A3) (N1 & N2) _ P1 _ _ _] _].
  destruct pass as [|c pass].
  - destruct (decrypt_generated C [] opts w priv pub w0 [] LL GK) as (p & D & K & _ & KA & KN).
    rewrite decrypt_plain in D by (apply Rd2; reflexivity). apply pair_equal_spec in D. destruct D as [_ <-].
    exists priv. split; [|auto]. exists (sec_file priv), priv. split; [eexists; rewrite Fs; exact S1|].
    split; [exact R1|]. split; [exact Cm|]. left. split; [apply Rd2; reflexivity|reflexivity].
  - destruct (decrypt_generated C (c :: pass) opts w priv pub w0 [] LL GK) as (p & D & K & _ & KA & KN).
    exists p. split; [|rewrite KA, KN; auto]. exists (sec_file priv), priv. split; [eexists; rewrite Fs; exact S1|].
    split; [exact R1|]. split; [exact Cm|]. right. split; [apply Rd1; discriminate|].
    destruct (Ht ltac:(discriminate)) as (tl & Htl). exists (c :: pass), tl. auto.
Qed.

Lemma sign_ready_fun k mp w p m p' m' : sign_ready C k mp w p m -> sign_ready C k mp w p' m' -> p = p' /\ m = m'.
Proof.
  intros (ka & pa & Ca & Ra & Ma & Da) (kb & pb & Cb & Rb & Mb & Db).
  rewrite (contents_fun _ _ _ _ Ca Cb) in Ra. rewrite Ra in Rb. injection Rb as <-. split; [|exact (contents_fun _ _ _ _ Ma Mb)].
  destruct Da as [[Ea ->]|(Ea & pa' & ta & Ta & Da)], Db as [[Eb ->]|(Eb & pb' & tb & Tb & Db)]; congruence.
Qed.

(* signatures: the same file, whichever passphrase protects the key *)
Lemma same_signature k pass1 pass2 o1 o2 w1 w2 w1' w2' v1 v2 mp m s u1 u2 r1 r2 :
  GenerateKey C k pass1 o1 w1 = (Ok tt, w1') -> GenerateKey C k pass2 o2 w2 = (Ok tt, w2') -> same_draw w1 w2 ->
  w_fs v1 (sec_path k) = w_fs w1' (sec_path k) -> w_fs v2 (sec_path k) = w_fs w2' (sec_path k) ->
  contents v1 mp m -> contents v2 mp m -> typed pass1 v1 -> typed pass2 v2 ->
  w_faults v1 = [] -> w_faults v2 = [] -> sigPathOf mp s <> [] ->
  Sign C (sec_path k) mp s v1 = (r1, u1) -> Sign C (sec_path k) mp s v2 = (r2, u2) ->
  r1 = Ok tt /\ r2 = Ok tt /\ exists f, contents u1 (sigPathOf mp s) f /\ contents u2 (sigPathOf mp s) f.
Proof.
  intros G1 G2 E F1 F2 M1 M2 T1 T2 N1 N2 Ns S1 S2.
  destruct (key_ready _ _ _ _ _ _ _ _ G1 F1 M1 T1) as (p1 & R1 & K1 & A1 & B1).
  destruct (key_ready _ _ _ _ _ _ _ _ G2 F2 M2 T2) as (p2 & R2 & K2 & A2 & B2).
  destruct (Sign_runs C _ _ s _ _ _ R1 N1 Ns) as (x1 & Q1 & _). rewrite S1 in Q1. apply pair_equal_spec in Q1. destruct Q1 as [-> <-].
  destruct (Sign_runs C _ _ s _ _ _ R2 N2 Ns) as (x2 & Q2 & _). rewrite S2 in Q2. apply pair_equal_spec in Q2. destruct Q2 as [-> <-].
  split; [reflexivity|]. split; [reflexivity|].
  pose proof (sig_base_name (sec_path k)) as Nm.
  destruct (Sign_success C _ _ _ _ _ _ LL Nm S1) as (p1' & m1' & R1' & W1).
  destruct (Sign_success C _ _ _ _ _ _ LL Nm S2) as (p2' & m2' & R2' & W2).
  destruct (sign_ready_fun _ _ _ _ _ _ _ R1 R1') as [<- <-]. destruct (sign_ready_fun _ _ _ _ _ _ _ R2 R2') as [<- <-].
  eexists. split; [eexists; exact W1|]. eexists. rewrite W2. f_equal. f_equal.
  rewrite A1, A2, B1, B2, K1, K2, (slice_prefix _ _ 48 8 E ltac:(lia)), (slice_prefix _ _ 0 32 E ltac:(lia)). reflexivity.
Qed.

(* boxes: the same secret *)
Lemma box_key_of k pass opts w w1 v : GenerateKey C k pass opts w = (Ok tt, w1) -> not_mistaken C pass opts (w_rng w) ->
  w_fs v (sec_path k) = w_fs w1 (sec_path k) -> typed pass v ->
  exists kf kdf r slt sum ky, contents v (sec_path k) kf /\ private_text kf kdf r slt sum ky /\
    box_key (sha512 C) (fun pass salt rounds => pbkdf C pass salt rounds 64) v kdf r slt sum ky
      (Ok (slice 0 32 (w_rng w) ++ ed_public C (slice 0 32 (w_rng w)))).
Proof.
  intros G Nm Fs Ht.
  destruct (GenerateKey_success _ _ _ _ _ _ LL G) as (priv & pub & w0 & GK & S1 & S2 & R1 & R2).
  destruct (generate_rounds _ _ _ _ _ _ _ LL GK) as [Rd1 Rd2].
  destruct (generate_pair _ _ _ _ _ _ _ LL GK) as [[(A1 & A2 & A3) (N1 & N2) Sa P1 C1 K1 K2] _].
  destruct (generate_wf _ _ _ _ _ _ _ LL GK) as [W1 W2].
  exists (sec_file priv), (kdfAlgo priv), (kdfRounds priv), (salt priv), (checksum priv), (key priv).
  split; [eexists; rewrite Fs; exact S1|]. split; [apply private_text_read; exists (keyAlgo priv), (keyNum priv); rewrite R1; destruct priv; reflexivity|].
  destruct pass as [|c pass].
  - rewrite <- P1, <- (K1 eq_refl). apply BSum. rewrite C1, (K1 eq_refl). reflexivity.
  - specialize (K2 ltac:(discriminate)). destruct (Rd1 ltac:(discriminate)) as (R3 & R4 & _). destruct (Ht ltac:(discriminate)) as (tl & Htl).
    specialize (Nm ltac:(discriminate)). cbv zeta in Nm.
    assert (X : xor_bytes (key priv) (pbkdf C (c :: pass) (salt priv) (kdfRounds priv) 64) = slice 0 32 (w_rng w) ++ ed_public C (slice 0 32 (w_rng w))).
    { rewrite K2, P1. apply xor_bytes_invol. }
    rewrite <- X. apply (BUnlocked _ (fun pass salt rounds => pbkdf C pass salt rounds 64)).
    + rewrite K2, C1, P1, Sa, R4. exact Nm.
    + unfold answers. rewrite Htl. reflexivity.
    + lia.
    + split; [exact A3|]. split; [discriminate|]. rewrite X, C1, P1. reflexivity.
Qed.

Lemma same_opening k pass1 pass2 o1 o2 w1 w2 w1' w2' v1 v2 ep mp :
  GenerateKey C k pass1 o1 w1 = (Ok tt, w1') -> GenerateKey C k pass2 o2 w2 = (Ok tt, w2') -> same_draw w1 w2 ->
  not_mistaken C pass1 o1 (w_rng w1) -> not_mistaken C pass2 o2 (w_rng w2) ->
  w_fs v1 (sec_path k) = w_fs w1' (sec_path k) -> w_fs v2 (sec_path k) = w_fs w2' (sec_path k) ->
  w_fs v1 ep = w_fs v2 ep -> typed pass1 v1 -> typed pass2 v2 ->
  no_faults v1 -> no_faults v2 -> ep <> mp ->
  fst (Open C (sec_path k) ep mp v1) = fst (Open C (sec_path k) ep mp v2).
Proof.
  intros G1 G2 E Nm1 Nm2 F1 F2 Fe T1 T2 N1 N2 Ne.
  destruct (box_key_of _ _ _ _ _ _ G1 Nm1 F1 T1) as (kf1 & d1 & r1 & s1 & c1 & y1 & C1 & P1 & B1).
  destruct (box_key_of _ _ _ _ _ _ G2 Nm2 F2 T2) as (kf2 & d2 & r2 & s2 & c2 & y2 & C2 & P2 & B2).
  rewrite (slice_prefix _ _ 0 32 E ltac:(lia)) in B1.
  symmetry. apply Open_outcome; [exact N2|exact Ne|].
  assert (Q : open_outcome C (box_secret C) (fun pass salt rounds => pbkdf C pass salt rounds 64) v1 (sec_path k) ep mp (fst (Open C (sec_path k) ep mp v1)))
    by (apply Open_outcome; [exact N1|exact Ne|reflexivity]).
  assert (Ce : forall d, contents v1 ep d -> contents v2 ep d) by (intros d (mo & X); exists mo; rewrite <- Fe; exact X).
  assert (U : forall kf kdf r slt sum ky, contents v1 (sec_path k) kf -> private_text kf kdf r slt sum ky ->
     kdf = d1 /\ r = r1 /\ slt = s1 /\ sum = c1 /\ ky = y1).
  { intros kf kdf r slt sum ky X Y. rewrite (contents_fun _ _ _ _ X C1) in Y. exact (private_text_fun _ _ _ _ _ _ _ _ _ _ _ Y P1). }
  inversion Q as [X|kf e X Y|kf kdf r slt sum ky X Y Z|kf kdf r slt sum ky d X Y Z V|kf kdf r slt sum ky d X Y Z V M|kf kdf r slt sum ky d e X Y Z V M B|kf kdf r slt sum ky d X Y Z V M B|kf kdf r slt sum ky c t kk o X Y Z V M B O].
  - exfalso. destruct C1 as (mo & C1). congruence.
  - exfalso. rewrite (contents_fun _ _ _ _ X C1) in Y. exact (error_not_text _ _ _ _ _ _ _ Y P1).
  - eapply OFile; [exact C2|exact P2|rewrite <- Fe; exact Z].
  - eapply OLine; [exact C2|exact P2|apply Ce; exact Z|exact V].
  - eapply ONoName; [exact C2|exact P2|apply Ce; exact Z|exact V|exact M].
  - exfalso. destruct (U _ _ _ _ _ _ X Y) as (-> & -> & -> & -> & ->). discriminate (box_key_fun _ _ _ _ _ _ _ _ _ _ B B1).
  - exfalso. destruct (U _ _ _ _ _ _ X Y) as (-> & -> & -> & -> & ->). discriminate (box_key_fun _ _ _ _ _ _ _ _ _ _ B B1).
  - destruct (U _ _ _ _ _ _ X Y) as (-> & -> & -> & -> & ->). pose proof (box_key_fun _ _ _ _ _ _ _ _ _ _ B B1) as Q2. injection Q2 as ->.
    eapply OText; [exact C2|exact P2|apply Ce; exact Z|exact V|exact M|exact B2|exact O].
Qed.
End Two.
