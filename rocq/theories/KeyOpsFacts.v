(* Facts about key generation, decryption and Private.ToBox (signify/key.go). *)
From Verif Require Export KeysFacts ToyCrypto.

Lemma Ok_inj {A} (a b : A) : Ok a = Ok b -> a = b.
Proof. intro H. injection H. auto. Qed.

(* ---- Check ---- *)
Lemma Check_iff C p : Check C p = Ok tt <-> checksum p = firstn 8 (sha512 C (key p)).
Proof.
  unfold Check, checksumLength. destruct (bytes_eqb _ _) eqn:E.
  - apply bytes_eqb_eq in E. split; [intros _; symmetry; exact E|reflexivity].
  - apply bytes_eqb_neq in E. split; [discriminate|intro H; symmetry in H; contradiction].
Qed.
Lemma Check_cases C p : Check C p = Ok tt \/
  Check C p = Err (EMsg (str "signify: invalid private key checksum")).
Proof. unfold Check. destruct (bytes_eqb _ _); auto. Qed.

(* ---- bcrypt_pbkdf argument checks for the salts that occur ---- *)
Lemma bcrypt_Key_ok C pass slt r : length slt = 16%nat ->
  bcrypt_Key C pass slt r 64 =
    if r <? 1 then Err (EMsg (str "bcrypt_pbkdf: number of rounds is too small"))
    else match pass with
         | [] => Err (EMsg (str "bcrypt_pbkdf: empty password"))
         | _ => Ok (pbkdf C pass slt r 64)
         end.
Proof. intro H. unfold bcrypt_Key. rewrite H. reflexivity. Qed.

(* ---- GenerateKeypair ---- *)
Definition rounds_of (opts : option Z) : Z := match opts with Some r => r | None => 42 end.

Lemma rand_read_eq n w : rand_read n w =
  if (length (w_rng w) <? n)%nat then (Err ERand, w)
  else (Ok (firstn n (w_rng w)), set_rng w (skipn n (w_rng w))).
Proof. reflexivity. Qed.

Lemma generate_eq C pass opts w :
  LengthLaws C ->
  let rng := w_rng w in
  let seed := slice 0 32 rng in let slt := slice 32 16 rng in let num := slice 48 8 rng in
  let rounds := match pass with [] => 0 | _ => rounds_of opts mod 4294967296 end in
  let edpriv := seed ++ ed_public C seed in
  (56 <= length rng)%nat ->
  (pass = [] \/ rounds <> 0) ->
  GenerateKeypair C pass opts w =
  (Ok (Priv (str "Ed") (str "BK") rounds slt (firstn 8 (sha512 C edpriv)) num
         (match pass with [] => edpriv | _ => xor_bytes edpriv (pbkdf C pass slt rounds 64) end),
       Pub (str "Ed") num (ed_public C seed)), set_rng w (skipn 56 rng)).
Proof.
  intros LL rng seed slt num rounds edpriv Hlen Hr.
  assert (Hn : (exists x, pass = [] /\ x = 0) \/ (pass <> [] /\ 0 < rounds)).
  { destruct pass; [left; exists 0; auto|]. right. split; [discriminate|].
    destruct Hr as [Hr|Hr]; [discriminate|]. assert (0 <= rounds < 4294967296) by (apply Z.mod_pos_bound; lia). lia. }
  assert (Lseed : length seed = 32%nat) by (unfold seed, slice; rewrite firstn_length, skipn_length; fold rng; lia).
  assert (Lslt : length slt = 16%nat) by (unfold slt, slice; rewrite firstn_length, skipn_length; fold rng; lia).
  assert (Lpub : length (ed_public C seed) = 32%nat) by (apply len_ed_public; assumption).
  unfold GenerateKeypair, bind. rewrite rand_read_eq. fold rng.
  destruct (Nat.ltb_spec (length rng) 32); [lia|]. change (firstn 32 rng) with seed.
  rewrite rand_read_eq. unfold saltLength. cbn [w_rng set_rng]. rewrite skipn_length.
  destruct (Nat.ltb_spec (length rng - 32) 16); [lia|]. change (firstn 16 (skipn 32 rng)) with slt.
  rewrite rand_read_eq. unfold keyNumLength. cbn [w_rng set_rng]. rewrite !skipn_length.
  destruct (Nat.ltb_spec (length rng - 32 - 16) 8); [lia|].
  rewrite !skipn_skipn. change (16 + 32)%nat with 48%nat. change (firstn 8 (skipn 48 rng)) with num.
  change (8 + 48)%nat with 56%nat.
  assert (Ef : fit 64 (ed_private C seed) = edpriv)
    by (apply fit_exact; change (length (seed ++ ed_public C seed) = 64%nat); rewrite app_length; lia).
  assert (Ec : fit 8 (sha512 C (ed_private C seed)) = firstn 8 (sha512 C edpriv)).
  { rewrite fit_long; [reflexivity|]. rewrite len_sha512 by exact LL. lia. }
  assert (Ep : fit 32 (ed_public C seed) = ed_public C seed) by (apply fit_exact; exact Lpub).
  assert (Er : match opts with Some r => r | None => defaultRounds end = rounds_of opts) by (destruct opts; reflexivity).
  rewrite Er, Ef, Ec, Ep. unfold ret, lift.
  destruct pass as [|c pass].
  - reflexivity.
  - fold rounds. unfold secretKeyLength. rewrite bcrypt_Key_ok by exact Lslt.
    destruct Hn as [(x & Hx & _)|[_ Hn]]; [discriminate|].
    destruct (Z.ltb_spec rounds 1); [lia|]. reflexivity.
Qed.

Lemma generate_fails C pass opts w :
  LengthLaws C ->
  ((length (w_rng w) < 56)%nat \/ (pass <> [] /\ rounds_of opts mod 4294967296 = 0)) ->
  exists e, fst (GenerateKeypair C pass opts w) = Err e.
Proof.
  intros LL H. unfold GenerateKeypair, bind. rewrite rand_read_eq.
  destruct (Nat.ltb_spec (length (w_rng w)) 32); [eexists; reflexivity|].
  rewrite rand_read_eq. unfold saltLength. cbn [w_rng set_rng]. rewrite skipn_length.
  destruct (Nat.ltb_spec (length (w_rng w) - 32) 16); [eexists; reflexivity|].
  rewrite rand_read_eq. unfold keyNumLength. cbn [w_rng set_rng]. rewrite !skipn_length.
  destruct (Nat.ltb_spec (length (w_rng w) - 32 - 16) 8); [eexists; reflexivity|].
  destruct H as [H|[Hp H]]; [lia|].
  destruct pass as [|c pass]; [contradiction Hp; reflexivity|].
  assert (Er : match opts with Some r => r | None => defaultRounds end = rounds_of opts) by (destruct opts; reflexivity).
  rewrite Er, H. unfold lift. eexists. reflexivity.
Qed.

Lemma generate_inv C pass opts w kp w' :
  LengthLaws C -> GenerateKeypair C pass opts w = (Ok kp, w') ->
  (56 <= length (w_rng w))%nat /\ (pass = [] \/ match pass with [] => 0 | _ => rounds_of opts mod 4294967296 end <> 0).
Proof.
  intros LL H. split.
  - destruct (Nat.le_gt_cases 56 (length (w_rng w))) as [L|L]; [exact L|].
    destruct (generate_fails C pass opts w LL (or_introl L)) as (e & E). rewrite H in E. discriminate.
  - destruct pass as [|c pass]; [left; reflexivity|]. right. intro E0.
    destruct (generate_fails C (c :: pass) opts w LL) as (e & E); [right; split; [discriminate|exact E0]|].
    rewrite H in E. discriminate.
Qed.

(* what a generated pair looks like; an independent description *)
Record consistent_pair (C : Crypto) (pass : bytes) (opts : option Z) (rng : bytes)
  (priv : Private) (pub : Public) : Prop := {
  cp_algo : keyAlgo priv = str "Ed" /\ p_keyAlgo pub = str "Ed" /\ kdfAlgo priv = str "BK";
  cp_num : keyNum priv = slice 48 8 rng /\ p_keyNum pub = keyNum priv;
  cp_salt : salt priv = slice 32 16 rng;
  cp_pub : p_key pub = ed_public C (slice 0 32 rng);
  cp_sum : checksum priv = firstn 8 (sha512 C (slice 0 32 rng ++ p_key pub));
  cp_clear : pass = [] -> key priv = slice 0 32 rng ++ p_key pub;
  cp_enc : pass <> [] -> key priv = xor_bytes (slice 0 32 rng ++ p_key pub)
                                      (pbkdf C pass (salt priv) (kdfRounds priv) 64)
}.

Lemma generate_pair C pass opts w priv pub w' :
  LengthLaws C -> GenerateKeypair C pass opts w = (Ok (priv, pub), w') ->
  consistent_pair C pass opts (w_rng w) priv pub /\ w' = set_rng w (skipn 56 (w_rng w)).
Proof.
  intros LL H. destruct (generate_inv _ _ _ _ _ _ LL H) as [H1 H2].
  rewrite generate_eq in H by assumption. apply pair_equal_spec in H. destruct H as [H E]. apply Ok_inj, pair_equal_spec in H. destruct H as [<- <-].
  split; [|symmetry; exact E].
  constructor; cbn [keyAlgo p_keyAlgo kdfAlgo keyNum p_keyNum salt p_key checksum key kdfRounds]; auto.
  - intros ->. reflexivity.
  - intro Hp. destruct pass; [contradiction Hp; reflexivity|reflexivity].
Qed.

Lemma generate_fails_iff C pass opts w :
  LengthLaws C ->
  ((exists kp w', GenerateKeypair C pass opts w = (Ok kp, w')) <->
   (56 <= length (w_rng w))%nat /\ (pass = [] \/ rounds_of opts mod 4294967296 <> 0)).
Proof.
  intro LL. split.
  - intros (kp & w' & H). destruct (generate_inv _ _ _ _ _ _ LL H) as [H1 H2]. split; [exact H1|].
    destruct pass; [left; reflexivity|right]. destruct H2 as [H2|H2]; [discriminate|exact H2].
  - intros [H1 H2]. rewrite generate_eq; [eexists; eexists; reflexivity|exact LL|exact H1|].
    destruct pass; [left; reflexivity|right]. destruct H2 as [H2|H2]; [discriminate|exact H2].
Qed.

Lemma rand_read_world n w r w' : rand_read n w = (r, w') -> exists g, w' = set_rng w g.
Proof.
  rewrite rand_read_eq. destruct (_ <? _)%nat; intro H; apply pair_equal_spec in H; destruct H as [_ <-].
  - exists (w_rng w). destruct w; reflexivity.
  - eexists; reflexivity.
Qed.

Lemma set_rng_rng w g g' : set_rng (set_rng w g) g' = set_rng w g'.
Proof. reflexivity. Qed.

Lemma generate_world C pass opts w r w' :
  GenerateKeypair C pass opts w = (r, w') -> r <> Panic /\ exists g, w' = set_rng w g.
Proof.
  intro H. assert (W0 : exists g, w = set_rng w g) by (exists (w_rng w); destruct w; reflexivity).
  unfold GenerateKeypair, bind in H.
  destruct (rand_read 32 w) as [r1 w1] eqn:E1. destruct (rand_read_world _ _ _ _ E1) as [g1 ->].
  assert (N1 : r1 <> Panic) by (rewrite rand_read_eq in E1; destruct (_ <? _)%nat; injection E1 as <- _; discriminate).
  destruct r1 as [seed|e|]; [|injection H as <- <-; split; [discriminate|eauto]|contradiction].
  destruct (rand_read saltLength _) as [r2 w2] eqn:E2. destruct (rand_read_world _ _ _ _ E2) as [g2 ->].
  assert (N2 : r2 <> Panic) by (rewrite rand_read_eq in E2; destruct (_ <? _)%nat; injection E2 as <- _; discriminate).
  destruct r2 as [slt|e|]; [|injection H as <- <-; split; [discriminate|rewrite set_rng_rng; eauto]|contradiction].
  destruct (rand_read keyNumLength _) as [r3 w3] eqn:E3. destruct (rand_read_world _ _ _ _ E3) as [g3 ->].
  assert (N3 : r3 <> Panic) by (rewrite rand_read_eq in E3; destruct (_ <? _)%nat; injection E3 as <- _; discriminate).
  rewrite !set_rng_rng in H.
  destruct r3 as [num|e|]; [|injection H as <- <-; split; [discriminate|eauto]|contradiction].
  unfold lift, ret in H. destruct pass as [|c pass].
  - injection H as <- <-. split; [discriminate|eauto].
  - destruct (bcrypt_Key _ _ _ _ _) as [x|e|] eqn:Eb.
    + injection H as <- <-. split; [discriminate|eauto].
    + injection H as <- <-. split; [discriminate|eauto].
    + unfold bcrypt_Key in Eb. repeat (destruct (_ : bool); try discriminate).
Qed.

Lemma generate_wf C pass opts w priv pub w' :
  LengthLaws C -> GenerateKeypair C pass opts w = (Ok (priv, pub), w') -> priv_wf priv /\ pub_wf pub.
Proof.
  intros LL H. destruct (generate_inv _ _ _ _ _ _ LL H) as [H1 H2].
  rewrite generate_eq in H by assumption. apply pair_equal_spec in H. destruct H as [H _]. apply Ok_inj, pair_equal_spec in H. destruct H as [<- <-].
  assert (Ls : length (slice 0 32 (w_rng w)) = 32%nat) by (unfold slice; rewrite firstn_length, skipn_length; lia).
  assert (Lp : length (ed_public C (slice 0 32 (w_rng w))) = 32%nat) by (apply len_ed_public; assumption).
  split.
  - unfold priv_wf. cbn [keyAlgo kdfAlgo kdfRounds salt checksum keyNum key].
    split; [reflexivity|]. split; [reflexivity|].
    split; [destruct pass; [lia|apply Z.mod_pos_bound; lia]|].
    split; [|split; [|split]].
    + unfold slice. rewrite firstn_length, skipn_length. lia.
    + rewrite firstn_length, len_sha512 by exact LL. reflexivity.
    + unfold slice. rewrite firstn_length, skipn_length. lia.
    + destruct pass; rewrite ?length_xor_bytes, app_length, Ls, Lp; reflexivity.
  - unfold pub_wf. cbn [p_keyAlgo p_keyNum p_key]. split; [reflexivity|split; [|exact Lp]].
    unfold slice. rewrite firstn_length, skipn_length. lia.
Qed.

(* ---- rounds ---- *)
Lemma generate_rounds C pass opts w priv pub w' :
  LengthLaws C -> GenerateKeypair C pass opts w = (Ok (priv, pub), w') ->
  (pass <> [] -> 1 <= kdfRounds priv < 2 ^ 32 /\ kdfRounds priv = rounds_of opts mod 2 ^ 32 /\ IsEncrypted priv = true) /\
  (pass = [] -> kdfRounds priv = 0 /\ IsEncrypted priv = false).
Proof.
  intros LL H. destruct (generate_inv _ _ _ _ _ _ LL H) as [H1 H2].
  rewrite generate_eq in H by assumption. apply pair_equal_spec in H. destruct H as [H _]. apply Ok_inj, pair_equal_spec in H. destruct H as [<- <-].
  unfold IsEncrypted. cbn [kdfRounds]. change (2 ^ 32) with 4294967296. split.
  - intro Hp. destruct pass as [|c pass]; [contradiction Hp; reflexivity|].
    destruct H2 as [H2|H2]; [discriminate|].
    assert (0 <= rounds_of opts mod 4294967296 < 4294967296) by (apply Z.mod_pos_bound; lia).
    split; [lia|]. split; [reflexivity|]. apply Z.gtb_lt. lia.
  - intros ->. split; reflexivity.
Qed.

(* ---- decrypt ---- *)
Lemma decrypt_plain C p pass : IsEncrypted p = false -> decrypt C p pass = (Ok tt, p).
Proof. intro H. unfold decrypt. rewrite H. reflexivity. Qed.

Lemma decrypt_enc C p pass : IsEncrypted p = true -> priv_wf p ->
  decrypt C p pass =
  if bytes_eqb (kdfAlgo p) (str "BK") then
    match pass with
    | [] => (Err (EMsg (str "bcrypt_pbkdf: empty password")), p)
    | _ => let p' := set_key p (xor_bytes (key p) (pbkdf C pass (salt p) (kdfRounds p) 64)) in
           (Check C p', p')
    end
  else (Err (EMsg (str "signify: unsupported KDF algorithm " ++ kdfAlgo p)), p).
Proof.
  intros H W. unfold decrypt. rewrite H. cbn [negb]. destruct (bytes_eqb _ _); [|reflexivity]. cbn [negb].
  unfold secretKeyLength. rewrite bcrypt_Key_ok by apply W.
  unfold IsEncrypted in H. apply Z.gtb_lt in H. destruct (Z.ltb_spec (kdfRounds p) 1); [lia|].
  destruct pass as [|c pass]; [reflexivity|]. cbv zeta. destruct (Check_cases C (set_key p (xor_bytes (key p) (pbkdf C (c :: pass) (salt p) (kdfRounds p) 64)))) as [E|E]; rewrite E; reflexivity.
Qed.

Lemma decrypt_generated C pass opts w priv pub w' any :
  LengthLaws C -> GenerateKeypair C pass opts w = (Ok (priv, pub), w') ->
  exists priv', decrypt C priv (match pass with [] => any | _ => pass end) = (Ok tt, priv') /\
    key priv' = slice 0 32 (w_rng w) ++ ed_public C (slice 0 32 (w_rng w)) /\ Check C priv' = Ok tt /\
    keyAlgo priv' = keyAlgo priv /\ keyNum priv' = keyNum priv.
Proof.
  intros LL H. destruct (generate_wf _ _ _ _ _ _ _ LL H) as [W _].
  destruct (generate_rounds _ _ _ _ _ _ _ LL H) as [R1 R2].
  destruct (generate_pair _ _ _ _ _ _ _ LL H) as [[(A1 & A2 & A3) (N1 & N2) S1 P1 S2 K1 K2] _].
  destruct pass as [|c pass].
  - destruct (R2 eq_refl) as [_ E]. exists priv. rewrite decrypt_plain by exact E.
    rewrite K1, P1 by reflexivity. repeat split. apply Check_iff. rewrite S2, K1 by reflexivity. reflexivity.
  - assert (Hne : c :: pass <> []) by discriminate. destruct (R1 Hne) as (_ & _ & E).
    rewrite decrypt_enc by assumption. rewrite A3, bytes_eqb_refl. cbv zeta.
    exists (set_key priv (xor_bytes (key priv) (pbkdf C (c :: pass) (salt priv) (kdfRounds priv) 64))).
    split; [|split; [|split; [|split]]]; [| | |reflexivity|reflexivity].
    + apply pair_equal_spec. split; [|reflexivity]. apply Check_iff. cbn [set_key checksum key]. rewrite S2, (K2 Hne), xor_bytes_invol. reflexivity.
    + cbn [set_key key]. rewrite (K2 Hne), xor_bytes_invol, P1. reflexivity.
    + apply Check_iff. cbn [set_key checksum key]. rewrite S2, (K2 Hne), xor_bytes_invol. reflexivity.
Qed.

Lemma decrypt_ok_iff C p pass : priv_wf p -> IsEncrypted p = true ->
  (fst (decrypt C p pass) = Ok tt <->
   kdfAlgo p = str "BK" /\ pass <> [] /\
   checksum p = firstn 8 (sha512 C (xor_bytes (key p) (pbkdf C pass (salt p) (kdfRounds p) 64)))).
Proof.
  intros W E. rewrite decrypt_enc by assumption. destruct (bytes_eqb _ _) eqn:Eb.
  - apply bytes_eqb_eq in Eb. destruct pass as [|c pass].
    + cbn [fst]. split; [discriminate|]. intros (_ & H & _). contradiction H; reflexivity.
    + cbv zeta. cbn [fst]. rewrite Check_iff. cbn [set_key checksum key]. intuition discriminate.
  - apply bytes_eqb_neq in Eb. cbn [fst]. split; [discriminate|]. intros (H & _). contradiction.
Qed.

Lemma decrypt_no_panic C p pass : priv_wf p -> fst (decrypt C p pass) <> Panic.
Proof.
  intro W. destruct (IsEncrypted p) eqn:E; [|rewrite decrypt_plain by exact E; discriminate].
  rewrite decrypt_enc by assumption. destruct (bytes_eqb _ _); [|discriminate].
  destruct pass; [discriminate|]. cbv zeta. cbn [fst]. destruct (Check_cases C (set_key p (xor_bytes (key p) (pbkdf C (b :: pass) (salt p) (kdfRounds p) 64)))) as [H|H]; rewrite H; discriminate.
Qed.

(* the key left behind by an attempt that got as far as the KDF *)
Lemma decrypt_leaves C p pass : priv_wf p -> IsEncrypted p = true -> kdfAlgo p = str "BK" -> pass <> [] ->
  snd (decrypt C p pass) = set_key p (xor_bytes (key p) (pbkdf C pass (salt p) (kdfRounds p) 64)).
Proof.
  intros W E A Hp. rewrite decrypt_enc, A, bytes_eqb_refl by assumption.
  destruct pass; [contradiction Hp; reflexivity|reflexivity].
Qed.

Lemma decrypt_early_failure C p pass : priv_wf p -> IsEncrypted p = true ->
  kdfAlgo p <> str "BK" \/ pass = [] -> exists e, decrypt C p pass = (Err e, p).
Proof.
  intros W E H. rewrite decrypt_enc by assumption. destruct (bytes_eqb _ _) eqn:Eb.
  - apply bytes_eqb_eq in Eb. destruct H as [H| ->]; [contradiction|]. eexists; reflexivity.
  - eexists; reflexivity.
Qed.

Lemma set_key_wf p k : priv_wf p -> length k = 64%nat -> priv_wf (set_key p k).
Proof. intros (A1 & A2 & A3 & A4 & A5 & A6 & A7) H. unfold priv_wf, set_key. cbn. auto 10. Qed.

Lemma decrypt_twice C p pass : priv_wf p -> IsEncrypted p = true -> kdfAlgo p = str "BK" -> pass <> [] ->
  snd (decrypt C (snd (decrypt C p pass)) pass) = p.
Proof.
  intros W E A Hp. rewrite (decrypt_leaves C p) by assumption. rewrite decrypt_leaves.
  - unfold set_key. cbn. rewrite xor_bytes_invol. destruct p; reflexivity.
  - apply set_key_wf; [exact W|]. rewrite length_xor_bytes. apply W.
  - exact E.
  - exact A.
  - exact Hp.
Qed.

(* after a failed attempt the right passphrase fails as well, unless the two
   streams happen to leave a key with the same checksum *)
Lemma decrypt_after_failure C p bad good : priv_wf p -> IsEncrypted p = true -> kdfAlgo p = str "BK" ->
  bad <> [] -> good <> [] ->
  (fst (decrypt C (snd (decrypt C p bad)) good) = Ok tt <->
   checksum p = firstn 8 (sha512 C (xor_bytes (xor_bytes (key p) (pbkdf C bad (salt p) (kdfRounds p) 64))
                                              (pbkdf C good (salt p) (kdfRounds p) 64)))).
Proof.
  intros W E A Hb Hg. rewrite (decrypt_leaves C p) by assumption. rewrite decrypt_ok_iff.
  - unfold set_key. cbn. intuition.
  - apply set_key_wf; [exact W|]. rewrite length_xor_bytes. apply W.
  - exact E.
Qed.

Definition toy_plain : bytes := repeat x09 64.
Definition toy_locked : Private :=
  Priv (str "Ed") (str "BK") 42 (repeat x05 16) (repeat x09 8) (repeat x01 8)
    (xor_bytes toy_plain (pbkdf toy (str "right") (repeat x05 16) 42 64)).

Lemma failed_attempt_refuted : exists C p bad good,
  LengthLaws C /\ priv_wf p /\ IsEncrypted p = true /\
  fst (decrypt C p good) = Ok tt /\ fst (decrypt C p bad) <> Ok tt /\
  snd (decrypt C p bad) <> p /\ fst (decrypt C (snd (decrypt C p bad)) good) <> Ok tt.
Proof.
  exists toy, toy_locked, (str "wrong"), (str "right"). split; [exact toy_lengths|].
  split; [vm_compute; repeat split; discriminate|].
  repeat split; vm_compute; discriminate.
Qed.

(* ---- ToBox for private keys ---- *)
Lemma nth_set_nth_eq {A} n (x : A) l d : (n < length l)%nat -> nth n (set_nth n x l) d = x.
Proof. revert l; induction n as [|n IH]; intros [|y l] H; cbn in *; try lia; [reflexivity|]. apply IH. lia. Qed.
Lemma nth_set_nth_neq {A} n m (x : A) l d : n <> m -> nth m (set_nth n x l) d = nth m l d.
Proof.
  revert m l; induction n as [|n IH]; intros [|m] [|y l] H; cbn; try reflexivity; try lia.
  apply IH. lia.
Qed.
Lemma length_set_nth {A} n (x : A) l : length (set_nth n x l) = length l.
Proof. revert l; induction n as [|n IH]; intros [|y l]; cbn; try reflexivity. rewrite IH. reflexivity. Qed.

Lemma byte_248 b : b2z (z2b (Z.land (b2z b) 248)) mod 8 = 0 /\
  b2z (z2b (Z.land (b2z b) 248)) / 8 = b2z b / 8.
Proof. destruct b; vm_compute; split; reflexivity. Qed.
Lemma byte_127 b : let c := z2b (Z.lor (b2z (z2b (Z.land (b2z b) 127))) 64) in
  64 <= b2z c < 128 /\ b2z c mod 64 = b2z b mod 64.
Proof. destruct b; vm_compute; repeat split; discriminate. Qed.

Lemma slice_nth l1 l2 off n : length l1 = length l2 ->
  (forall i, (off <= i < off + n)%nat -> nth i l1 x00 = nth i l2 x00) -> slice off n l1 = slice off n l2.
Proof.
  unfold slice. revert l1 l2 n. induction off as [|off IH]; intros l1 l2 n L H.
  - cbn [skipn]. revert l1 l2 L H. induction n as [|n IHn]; intros [|a l1] [|b l2] L H; cbn in L; try lia; try reflexivity.
    cbn [firstn]. f_equal; [exact (H 0%nat ltac:(lia))|]. apply IHn; [lia|].
    intros i Hi. exact (H (Datatypes.S i) ltac:(lia)).
  - destruct l1 as [|a l1], l2 as [|b l2]; cbn in L; try lia; [reflexivity|]. cbn [skipn].
    apply IH; [lia|]. intros i Hi. exact (H (Datatypes.S i) ltac:(lia)).
Qed.

Lemma nth_firstn {A} i n (l : list A) d : (i < n)%nat -> nth i (firstn n l) d = nth i l d.
Proof.
  revert n l. induction i as [|i IH]; intros [|n] [|x l] H; cbn; try lia; try reflexivity. apply IH. lia.
Qed.

Lemma clamp_spec d : length d = 64%nat -> clamp_of (firstn 32 d) (fit 32 (clamp d)).
Proof.
  intro L. unfold clamp. set (d1 := set_nth 0 _ d). set (d2 := set_nth 31 _ d1).
  assert (L1 : length d1 = 64%nat) by (unfold d1; rewrite length_set_nth; exact L).
  assert (L2 : length d2 = 64%nat) by (unfold d2; rewrite length_set_nth; exact L1).
  rewrite fit_long by (rewrite length_set_nth; lia).
  set (d3 := set_nth 31 _ d2). assert (L3 : length d3 = 64%nat) by (unfold d3; rewrite length_set_nth; exact L2).
  assert (N0 : nth 0 (firstn 32 d3) x00 = z2b (Z.land (b2z (nth 0 d x00)) 248)).
  { rewrite nth_firstn by lia. unfold d3, d2, d1. rewrite !nth_set_nth_neq by lia. apply nth_set_nth_eq. lia. }
  assert (N31 : nth 31 (firstn 32 d3) x00 = z2b (Z.lor (b2z (z2b (Z.land (b2z (nth 31 d x00)) 127))) 64)).
  { rewrite nth_firstn by lia. unfold d3. rewrite nth_set_nth_eq by lia. unfold d2. rewrite nth_set_nth_eq by lia.
    unfold d1. rewrite nth_set_nth_neq by lia. reflexivity. }
  destruct (byte_248 (nth 0 d x00)) as [B1 B2]. destruct (byte_127 (nth 31 d x00)) as [B3 B4]. cbv zeta in *.
  unfold clamp_of, clamped. rewrite N0, N31. rewrite !(nth_firstn _ _ d) by lia.
  repeat split; try assumption; try apply B3; try (rewrite firstn_length; lia).
  apply slice_nth; [rewrite !firstn_length; lia|]. intros i Hi.
  rewrite !nth_firstn by lia. unfold d3, d2, d1. rewrite !nth_set_nth_neq by lia. reflexivity.
Qed.

Lemma clamp_of_unique h k1 k2 : clamp_of h k1 -> clamp_of h k2 -> k1 = k2.
Proof.
  intros (L & (L1 & A1 & B1) & C1 & D1 & E1) (_ & (L2 & A2 & B2) & C2 & D2 & E2).
  assert (H0 : nth 0 k1 x00 = nth 0 k2 x00).
  { apply b2z_inj. rewrite (Z.div_mod (b2z (nth 0 k1 x00)) 8), (Z.div_mod (b2z (nth 0 k2 x00)) 8) by lia. congruence. }
  assert (H31 : nth 31 k1 x00 = nth 31 k2 x00).
  { apply b2z_inj. pose proof (Z.div_mod (b2z (nth 31 k1 x00)) 64). pose proof (Z.div_mod (b2z (nth 31 k2 x00)) 64).
    assert (b2z (nth 31 k1 x00) / 64 = 1) by (symmetry; apply Z.div_unique with (b2z (nth 31 k1 x00) - 64); lia).
    assert (b2z (nth 31 k2 x00) / 64 = 1) by (symmetry; apply Z.div_unique with (b2z (nth 31 k2 x00) - 64); lia). lia. }
  assert (S : slice 1 30 k1 = slice 1 30 k2) by congruence.
  destruct (cut_front 1 k1) as (a1 & r1 & -> & La1); [lia|]. destruct (cut_front 1 k2) as (a2 & r2 & -> & La2); [lia|].
  rewrite app_length in L1, L2.
  destruct a1 as [|x1 [|? ?]]; cbn in La1; try lia. destruct a2 as [|x2 [|? ?]]; cbn in La2; try lia.
  cbn [app nth] in H0. subst x2. cbn [app]. f_equal.
  cbn [app slice skipn] in S. unfold slice in S. cbn [skipn] in S. cbn [length] in *.
  cbn [app nth] in H31.
  rewrite <- (firstn_skipn 30 r1), <- (firstn_skipn 30 r2), S. f_equal.
  assert (Q : forall r, length r = 31%nat -> skipn 30 r = [nth 30 r x00]).
  { intros r Hr. do 32 (destruct r as [|? r]; cbn in Hr; try lia). reflexivity. }
  rewrite (Q r1), (Q r2) by lia. f_equal. exact H31.
Qed.

Lemma prompt_false w : PassphrasePrompt false w =
  match w_tty w with
  | [] => (Err ETty, emit w (EvOut (str "Password: ")))
  | r :: tl =>
      let w1 := set_tty (emit w (EvOut (str "Password: "))) tl in
      match r with
      | Ok b => (Ok (length (w_bufs w)), emit (set_bufs w1 (w_bufs w ++ [b])) (EvOut [x0a]))
      | Err e => (Err e, w1)
      | Panic => (Panic, w1)
      end
  end.
Proof.
  unfold PassphrasePrompt, bind, stdout, ReadPassword. cbn [w_tty emit].
  destruct (w_tty w) as [|[b|e|] tl]; reflexivity.
Qed.

Lemma nth_error_last {A} (l : list A) x : nth_error (l ++ [x]) (length l) = Some x.
Proof. rewrite nth_error_app2, Nat.sub_diag by lia. reflexivity. Qed.

Definition ask_world (w : world) (b : bytes) (tl : list (res bytes)) : world :=
  emit (set_bufs (set_tty (emit w (EvOut (str "Password: "))) tl) (w_bufs w ++ [b])) (EvOut [x0a]).

Definition box_secret (C : Crypto) (k : bytes) : bytes := fit 32 (clamp (sha512 C (firstn 32 k))).

Lemma ToBox_eq C p w : priv_wf p -> priv_ToBox C p w =
  match Check C p with
  | Ok _ => ((Ok (box_secret C (key p)), p), w)
  | _ =>
    match w_tty w with
    | [] => ((Err ETty, p), emit w (EvOut (str "Password: ")))
    | Ok b :: tl =>
        match decrypt C p b with
        | (Ok _, p') => ((Ok (box_secret C (key p')), p'), ask_world w b tl)
        | (Err e, p') => ((Err e, p'), ask_world w b tl)
        | (Panic, p') => ((Panic, p'), ask_world w b tl)
        end
    | Err e :: tl => ((Err e, p), set_tty (emit w (EvOut (str "Password: "))) tl)
    | Panic :: tl => ((Panic, p), set_tty (emit w (EvOut (str "Password: "))) tl)
    end
  end.
Proof.
  intro W. unfold priv_ToBox. rewrite prompt_false. destruct (Check C p) as [u0|e0|]; try reflexivity;
  (destruct (w_tty w) as [|[b|e|] tl]; [reflexivity| |reflexivity|reflexivity];
   cbv zeta; unfold buf_get; cbn [w_bufs emit set_bufs]; rewrite nth_error_last;
   destruct (decrypt C p b) as [[u|e|] p']; reflexivity).
Qed.

Lemma ToBox_clamped C p w b p' w' : LengthLaws C -> priv_wf p ->
  priv_ToBox C p w = ((Ok b, p'), w') ->
  clamp_of (firstn 32 (sha512 C (slice 0 32 (key p')))) b.
Proof.
  intros LL W H. assert (b = box_secret C (key p')).
  { rewrite ToBox_eq in H by exact W. destruct (Check C p) as [u0|e2|].
    - injection H as <- <- <-. reflexivity.
    - destruct (w_tty w) as [|[x|e0|] tl]; try discriminate. destruct (decrypt C p x) as [[u|e1|] q]; try discriminate.
      injection H as <- <- <-. reflexivity.
    - destruct (w_tty w) as [|[x|e0|] tl]; try discriminate. destruct (decrypt C p x) as [[u|e1|] q]; try discriminate.
      injection H as <- <- <-. reflexivity. }
  subst b. unfold box_secret, slice. cbn [skipn]. apply clamp_spec. apply len_sha512. exact LL.
Qed.

Lemma ToBox_encrypted C p w b p' w' : priv_wf p -> IsEncrypted p = true ->
  priv_ToBox C p w = ((Ok b, p'), w') -> checksum p' = firstn 8 (sha512 C (key p')).
Proof.
  intros W E H. apply Check_iff. rewrite ToBox_eq in H by exact W. destruct (Check_cases C p) as [Ec|Ec]; rewrite Ec in H.
  - injection H as _ <- _. exact Ec.
  - destruct (w_tty w) as [|[x|e0|] tl]; try discriminate.
    rewrite decrypt_enc in H by assumption. destruct (bytes_eqb _ _); [|discriminate].
    destruct x; [discriminate|]. cbv zeta in H.
    destruct (Check_cases C (set_key p (xor_bytes (key p) (pbkdf C (b0 :: x) (salt p) (kdfRounds p) 64)))) as [E2|E2];
      rewrite E2 in H; [|discriminate]. injection H as _ <- _. exact E2.
Qed.

Lemma ToBox_valid C p w : checksum p = firstn 8 (sha512 C (key p)) ->
  exists b, priv_ToBox C p w = ((Ok b, p), w).
Proof. intro H. apply Check_iff in H. unfold priv_ToBox. rewrite H. eexists. reflexivity. Qed.

Lemma ToBox_bad_plain C p w pass tl : priv_wf p -> IsEncrypted p = false ->
  checksum p <> firstn 8 (sha512 C (key p)) -> w_tty w = Ok pass :: tl ->
  exists b w', priv_ToBox C p w = ((Ok b, p), w') /\ w_tty w' = tl.
Proof.
  intros W E Hc Ht. rewrite ToBox_eq by exact W. destruct (Check_cases C p) as [Ec|Ec].
  - apply Check_iff in Ec. contradiction.
  - rewrite Ec, Ht, decrypt_plain by exact E. eexists. eexists. split; reflexivity.
Qed.

(* ---- instances and witnesses ---- *)
Definition seeded_world : world :=
  World (fun _ => None) [] (repeat x11 32 ++ repeat x22 16 ++ repeat x33 8 ++ repeat x44 40) [] [] [] [].

Definition tty_world (l : list (res bytes)) : world :=
  World (fun _ => None) [] [] l [] [] [].

Definition toy_bad : Private :=
  Priv (str "Ed") (str "BK") 0 (repeat x05 16) (repeat x00 8) (repeat x01 8) toy_plain.

Lemma only_104_refuted : exists data p,
  length data <> 104%nat /\ readPrivateKeyData data = Ok p.
Proof.
  exists (repeat x41 41). eexists. split; [vm_compute; discriminate|vm_compute; reflexivity].
Qed.

Lemma sig_file_crash_refuted : exists file, readSignatureFile file = Panic.
Proof. exists (str "RWQ=" ++ [x0a]). vm_compute. reflexivity. Qed.

Lemma ToBox_bad_refuted : exists C p w b p' w',
  LengthLaws C /\ priv_wf p /\ priv_ToBox C p w = ((Ok b, p'), w') /\
  checksum p' <> firstn 8 (sha512 C (key p')).
Proof.
  exists toy, toy_bad, (tty_world [Ok []]). do 3 eexists. split; [exact toy_lengths|].
  split; [vm_compute; repeat split; discriminate|]. split; [vm_compute; reflexivity|vm_compute; discriminate].
Qed.
