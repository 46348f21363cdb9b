(* Sealing followed by opening, truncation, suffixes, crash states of Open. *)
From Verif Require Import SealOpen GoBase64Facts.
From Verif Require Export OpenFacts GenFacts.

(* ---- the text of a sealed body is authentic ---- *)
Lemma no_lf_encoded body : no_lf (spec_encoded body) = StdEncode body.
Proof. rewrite no_lf_spec_encoded, StdEncode_spec. reflexivity. Qed.

Lemma StdEncode_length3 x k : length x = (3 * k)%nat -> length (StdEncode x) = (4 * k)%nat.
Proof.
  intro H. rewrite StdEncode_length, H. rewrite (Nat.mul_comm 3 k), Nat.div_add_l by lia.
  change (2 / 3)%nat with 0%nat. lia.
Qed.

Lemma mod3 k : (3 * k mod 3 = 0)%nat.
Proof. rewrite Nat.mul_comm. apply Nat.mod_mul. lia. Qed.

Lemma encode_cut x y k : length x = (3 * k)%nat ->
  firstn (4 * k) (StdEncode (x ++ y)) = StdEncode x /\ skipn (4 * k) (StdEncode (x ++ y)) = StdEncode y.
Proof.
  intro H. rewrite StdEncode_app by (rewrite H; apply mod3). pose proof (StdEncode_length3 x k H) as L.
  rewrite firstn_app, skipn_app, <- L, firstn_all, skipn_all, Nat.sub_diag. cbn [firstn skipn]. rewrite app_nil_r. auto.
Qed.

Lemma encode_cut_app x y z k : length x = (3 * k)%nat ->
  firstn (4 * k) (StdEncode (x ++ y) ++ z) = StdEncode x /\ skipn (4 * k) (StdEncode (x ++ y) ++ z) = StdEncode y ++ z.
Proof.
  intro H. rewrite StdEncode_app, <- app_assoc by (rewrite H; apply mod3). pose proof (StdEncode_length3 x k H) as L.
  rewrite firstn_app, skipn_app, <- L, firstn_all, skipn_all, Nat.sub_diag. cbn [firstn skipn]. rewrite app_nil_r. auto.
Qed.

Definition piece_groups : nat := Z.to_nat 5467.

Lemma full_box C m n k : LengthLaws C -> Z.of_nat (length m) = 16385 -> length (box_seal C m n k) = (3 * piece_groups)%nat.
Proof. intros LL H. rewrite len_box_seal by exact LL. unfold piece_groups. lia. Qed.

Lemma small_box C m n k : LengthLaws C -> Z.of_nat (length m) <= 16385 -> (length (StdEncode (box_seal C m n k)) <= piece_chars)%nat.
Proof.
  intros LL H. rewrite StdEncode_length, len_box_seal by exact LL.
  assert ((length m + 16 + 2) / 3 < S piece_groups)%nat by (apply Nat.div_lt_upper_bound; unfold piece_groups; lia).
  unfold piece_chars, piece_groups in *. lia.
Qed.

Definition all_full (ms : list bytes) : Prop := Forall (fun m => Z.of_nat (length m) = 16385) ms.

Lemma authentic_sealed C shared extra : LengthLaws C -> forall ms i, full_pieces ms -> extra = [] \/ all_full ms ->
  authentic C shared i (StdEncode (boxes C shared i ms) ++ extra) ms.
Proof.
  intro LL. induction ms as [|m ms IH]; intros i Hf Hx; [constructor|]. cbn [full_pieces] in Hf. destruct Hf as [Hm Hf].
  cbn [boxes].
  assert (Hc : Z.of_nat (length m) = 16385 \/ (ms = [] /\ extra = [])).
  { destruct Hx as [Hx|Hx]; [|inversion Hx; auto]. destruct ms; [right; auto|left; exact Hm]. }
  destruct Hc as [Hc|[-> ->]].
  - destruct (encode_cut_app (box_seal C m (nonce i) shared) (boxes C shared (i + 1) ms) extra piece_groups (full_box _ _ _ _ LL Hc)) as [E1 E2].
    assert (Ep : piece_chars = (4 * piece_groups)%nat) by (unfold piece_chars, piece_groups; lia).
    constructor; rewrite Ep; [rewrite E1; apply DecodeString_StdEncode|rewrite E2].
    apply IH; [exact Hf|]. destruct Hx as [Hx|Hx]; [left; exact Hx|right; inversion Hx; assumption].
  - cbn [boxes]. rewrite !app_nil_r. constructor; [|constructor].
    rewrite firstn_all2 by (apply small_box; [exact LL|lia]). apply DecodeString_StdEncode.
Qed.

Lemma sealed_header_length C shared epub n : LengthLaws C -> length epub = 32%nat -> length (sealed_header C shared epub n) = 72%nat.
Proof.
  intros LL H. unfold sealed_header. cbv zeta. rewrite !app_length, length_be_encode, H, len_auth by exact LL. reflexivity.
Qed.

Lemma firstn_exact {A} n (a b : list A) : length a = n -> firstn n (a ++ b) = a.
Proof. intros <-. rewrite firstn_app, firstn_all, Nat.sub_diag. apply app_nil_r. Qed.
Lemma skipn_exact {A} n (a b : list A) : length a = n -> skipn n (a ++ b) = b.
Proof. intros <-. rewrite skipn_app, skipn_all, Nat.sub_diag. reflexivity. Qed.

Lemma header_slices C shared epub n : LengthLaws C -> length epub = 32%nat ->
  let h := sealed_header C shared epub n in
  slice 0 8 h = be_encode 8 n /\ slice 8 32 h = epub /\ slice 0 40 h = be_encode 8 n ++ epub /\
  slice 40 32 h = auth_sum C (be_encode 8 n ++ epub) shared.
Proof.
  intros LL H h. unfold h, sealed_header. cbv zeta. pose proof (length_be_encode 8 n) as L8.
  pose proof (len_auth C LL (be_encode 8 n ++ epub) shared) as La.
  assert (L40 : length (be_encode 8 n ++ epub) = 40%nat) by (rewrite app_length, L8, H; reflexivity).
  set (a := auth_sum C _ shared) in *. unfold slice.
  split; [|split; [|split]].
  - cbn [skipn]. rewrite <- app_assoc. apply firstn_exact, L8.
  - rewrite <- app_assoc, skipn_exact by exact L8. apply firstn_exact, H.
  - cbn [skipn]. apply firstn_exact, L40.
  - rewrite skipn_exact by exact L40. rewrite <- La. apply firstn_all.
Qed.

Lemma count_of_header C shared epub n : LengthLaws C -> length epub = 32%nat -> 0 <= n < 2 ^ 64 ->
  count_of (sealed_header C shared epub n) = n.
Proof.
  intros LL H Hn. unfold count_of. destruct (header_slices C shared epub n LL H) as (-> & _). rewrite be_decode_encode.
  apply Z.mod_small. exact Hn.
Qed.

(* the text of a sealing, possibly followed by more characters *)
Lemma sealed_text C edpriv epub ms t extra : LengthLaws C -> length epub = 32%nat -> full_pieces ms ->
  extra = [] \/ all_full ms ->
  let shared := box_precompute C epub edpriv in
  no_lf t = StdEncode (sealed_body C shared epub ms) ++ extra ->
  let h := sealed_header C shared epub (Z.of_nat (length ms)) in
  authentic_header C edpriv t h /\ shared_of C edpriv h = shared /\
  authentic C shared 0 (body_text t) ms.
Proof.
  intros LL Le Hf Hx shared Ht h. pose proof (sealed_header_length C shared epub (Z.of_nat (length ms)) LL Le) as Lh. fold h in Lh.
  destruct (header_slices C shared epub (Z.of_nat (length ms)) LL Le) as (S1 & S2 & S3 & S4). fold h in S1, S2, S3, S4.
  unfold sealed_body in Ht. fold h in Ht.
  destruct (encode_cut_app h (boxes C shared 0 ms) extra 24 Lh) as [E1 E2].
  split; [|split].
  - split; [rewrite Ht, header_chars_4, E1; apply DecodeString_StdEncode|]. split; [exact Lh|].
    rewrite S2, S3, S4. reflexivity.
  - unfold shared_of. rewrite S2. reflexivity.
  - unfold body_text. rewrite Ht, header_chars_4, E2. apply authentic_sealed; assumption.
Qed.

(* ---- C31 ---- *)
(* the public half converts to the X25519 public key of the private half *)
Definition ToBoxAgree (C : Crypto) : Prop :=
  forall num seed, length seed = 32%nat ->
    pub_ToBox (Pub (str "Ed") num (ed_public C seed)) = Ok (x25519_base C (box_secret C (seed ++ ed_public C seed))).

Lemma comment_split : exists c, comment_text = c ++ [x0a] /\ lf_free c.
Proof. exists (str "untrusted comment: psignify encrypted file"). split; [reflexivity|]. intro H. vm_compute in H. intuition discriminate. Qed.

Lemma box_secret_length C k : length (box_secret C k) = 32%nat.
Proof. apply length_fit. Qed.


(* the checksum of the stored key does not accidentally match if the key is
   stored encrypted (a 64-bit coincidence) *)
Definition not_mistaken (C : Crypto) (pass : bytes) (opts : option Z) (rng : bytes) : Prop :=
  let edkey := slice 0 32 rng ++ ed_public C (slice 0 32 rng) in
  pass <> [] ->
  firstn 8 (sha512 C (xor_bytes edkey (pbkdf C pass (slice 32 16 rng) (rounds_of opts mod 2 ^ 32) 64))) <>
  firstn 8 (sha512 C edkey).

Lemma generated_unlock C pass opts w priv pub w0 tty : LengthLaws C -> GenerateKeypair C pass opts w = (Ok (priv, pub), w0) ->
  (pass <> [] -> exists tl, tty = Ok pass :: tl) -> not_mistaken C pass opts (w_rng w) ->
  exists p, unlocked C priv tty p /\ key p = slice 0 32 (w_rng w) ++ ed_public C (slice 0 32 (w_rng w)).
Proof.
  intros LL G Ht Hm.
  destruct (generate_rounds _ _ _ _ _ _ _ LL G) as [Rd1 Rd2].
  destruct (generate_pair _ _ _ _ _ _ _ LL G) as [[(A1 & A2 & A3) (N1 & N2) Sa P1 Sm K1 K2] _].
  destruct pass as [|c pass].
  - exists priv. specialize (K1 eq_refl). rewrite P1 in *. split; [|exact K1]. left. split; [|reflexivity]. rewrite K1. exact Sm.
  - destruct (decrypt_generated C (c :: pass) opts w priv pub w0 [] LL G) as (p & D & K & _).
    exists p. split; [|exact K]. right. destruct (Ht ltac:(discriminate)) as (tl & ->).
    split; [|exists (c :: pass), tl; auto]. rewrite (K2 ltac:(discriminate)), Sm, P1, Sa.
    destruct (Rd1 ltac:(discriminate)) as (_ & -> & _). intro E. apply Hm; [discriminate|]. symmetry. exact E.
Qed.

Lemma enc_path_ne mp ep : enc_path mp ep <> [].
Proof. unfold enc_path. destruct ep; cbn [bytes_eqb]; [destruct mp|]; discriminate. Qed.

Lemma seal_then_open_later C k pass opts w w1 v m mp ep :
  LengthLaws C -> BoxTidy C -> BoxCorrect C -> DHCorrect C -> ToBoxAgree C ->
  GenerateKey C k pass opts w = (Ok tt, w1) -> not_mistaken C pass opts (w_rng w) ->
  w_fs v (sec_path k) = w_fs w1 (sec_path k) -> w_fs v (pub_path k) = w_fs w1 (pub_path k) ->
  contents v mp m -> m <> [] -> Z.of_nat (length m) < 2 ^ 63 -> no_faults v -> (32 <= length (w_rng v))%nat ->
  let q := enc_path mp ep in
  q <> mp -> q <> sec_path k ->
  exists v1, Seal C (pub_path k) mp ep v = (Ok tt, v1) /\ no_faults v1 /\ w_tty v1 = w_tty v /\
    (forall x, x <> q -> w_fs v1 x = w_fs v x) /\
    forall v' out, w_fs v' (sec_path k) = w_fs v1 (sec_path k) -> w_fs v' q = w_fs v1 q -> no_faults v' ->
      (pass <> [] -> exists tl, w_tty v' = Ok pass :: tl) -> out <> [] -> out <> q ->
      exists v2, Open C (sec_path k) q out v' = (Ok tt, v2) /\ contents v2 out m /\
        (forall x, x <> out -> w_fs v2 x = w_fs v' x).
Proof.
  intros LL BT BC DH TB G Hm Fs Fp Cm Hne Hsz Hn Lr q Hq1 Hq2.
  destruct (GenerateKey_success _ _ _ _ _ _ LL G) as (priv & pub & w0 & GK & S1 & S2 & R1 & R2).
  destruct (generate_pair _ _ _ _ _ _ _ LL GK) as [[(A1 & A2 & A3) (N1 & N2) _ P1 _ _ _] _].
  pose proof (generate_inv _ _ _ _ _ _ LL GK) as [Lrng _].
  pose proof (generated_unlock C pass opts w priv pub w0) as GU.
  destruct (GU (repeat (Ok pass) 1) LL GK ltac:(intros _; exists []; reflexivity) Hm) as (p0 & _ & Kp0).
  set (seed := slice 0 32 (w_rng w)) in *.
  assert (Ls : length seed = 32%nat) by (unfold seed, slice; rewrite firstn_length, skipn_length; lia).
  assert (TBp : pub_ToBox pub = Ok (x25519_base C (box_secret C (key p0)))).
  { rewrite Kp0, <- (TB (p_keyNum pub) seed Ls). f_equal. destruct pub. cbn in *. congruence. }
  destruct (pieces_exist m) as (ms & Hfp & Hcat).
  assert (Cpk : contents v (pub_path k) (pub_file pub)) by (eexists; rewrite Fp; exact S2).
  destruct (Seal_runs C (pub_path k) mp ep v (pub_file pub) pub m _ ms Hn Cpk R2 TBp Cm Hne Hsz Hq1 Lr Hfp Hcat)
    as (v1 & Es & Nf1 & Rng1 & Fr1 & Tt1 & Bf1 & Fq).
  fold q in Fr1, Fq. set (epriv := firstn 32 (w_rng v)) in *. set (epub := x25519_base C epriv) in *.
  assert (Le : length epriv = 32%nat) by (unfold epriv; rewrite firstn_length; lia).
  rewrite (DH (box_secret C (key p0)) epriv (box_secret_length _ _) Le) in Fq. fold epub in Fq.
  destruct comment_split as (c & Ec & Hc).
  set (t := spec_encoded (sealed_body C (box_precompute C epub (box_secret C (key p0))) epub ms)) in *.
  exists v1. split; [exact Es|]. split; [exact Nf1|]. split; [exact Tt1|]. split; [exact Fr1|].
  intros v' out Fs' Fq' Nf' Ht Ho1 Ho2.
  destruct (GU (w_tty v') LL GK Ht Hm) as (p & U & Kp).
  assert (Kpp : key p = key p0) by congruence.
  assert (Cq : contents v' q (c ++ x0a :: t)).
  { eexists. rewrite Fq', Fq. unfold sealed_file. rewrite Ec, <- app_assoc. reflexivity. }
  assert (Csk : contents v' (sec_path k) (sec_file priv)).
  { eexists. rewrite Fs', Fr1, Fs by (intro X; apply Hq2; symmetry; exact X). exact S1. }
  assert (Lep : length epub = 32%nat) by (apply len_x25519; exact LL).
  destruct (sealed_text C (box_secret C (key p0)) epub ms t [] LL Lep Hfp (or_introl eq_refl)
     ltac:(unfold t; rewrite no_lf_encoded, app_nil_r; reflexivity)) as (T1 & T2 & T3).
  assert (Hlen : 0 <= Z.of_nat (length ms) < 2 ^ 64).
  { rewrite full_pieces_count, Hcat by exact Hfp. pose proof (ceil_bound (Z.of_nat (length m)) ltac:(lia)). lia. }
  rewrite <- T2 in T3. rewrite <- Kpp in T1, T3.
  destruct (Open_runs C (sec_path k) q out v' (sec_file priv) priv c t p _ ms ltac:(intro X; apply Ho2; symmetry; exact X) Ho1 BT BC Nf'
    Csk R1 Cq Hc U T1 T3 ltac:(symmetry; apply count_of_header; assumption)) as (v2 & Eo & _ & Fo & Fr2).
  exists v2. split; [exact Eo|]. split; [eexists; rewrite Fo, Hcat; reflexivity|exact Fr2].
Qed.

Lemma seal_then_open C k pass opts w w1 v m mp ep out :
  LengthLaws C -> BoxTidy C -> BoxCorrect C -> DHCorrect C -> ToBoxAgree C ->
  GenerateKey C k pass opts w = (Ok tt, w1) -> not_mistaken C pass opts (w_rng w) ->
  w_fs v (sec_path k) = w_fs w1 (sec_path k) -> w_fs v (pub_path k) = w_fs w1 (pub_path k) ->
  contents v mp m -> m <> [] -> Z.of_nat (length m) < 2 ^ 63 -> no_faults v -> (32 <= length (w_rng v))%nat ->
  (pass <> [] -> exists tl, w_tty v = Ok pass :: tl) ->
  let q := enc_path mp ep in
  q <> mp -> q <> sec_path k -> out <> [] -> out <> q ->
  exists v1 v2, Seal C (pub_path k) mp ep v = (Ok tt, v1) /\ Open C (sec_path k) q out v1 = (Ok tt, v2) /\
    contents v2 out m /\ (forall x, x <> q -> x <> out -> w_fs v2 x = w_fs v x).
Proof.
  intros LL BT BC DH TB G Hm Fs Fp Cm Hne Hsz Hn Lr Ht q Hq1 Hq2 Ho1 Ho2.
  destruct (seal_then_open_later C k pass opts w w1 v m mp ep LL BT BC DH TB G Hm Fs Fp Cm Hne Hsz Hn Lr Hq1 Hq2)
    as (v1 & Es & Nf1 & Tt & Fr & L).
  destruct (L v1 out eq_refl eq_refl Nf1 ltac:(rewrite Tt; exact Ht) Ho1 Ho2) as (v2 & Eo & Co & Fo).
  exists v1, v2. split; [exact Es|]. split; [exact Eo|]. split; [exact Co|]. intros x Hx1 Hx2. rewrite Fo, Fr by assumption. reflexivity.
Qed.

(* ---- C34: Open accepts exactly the authentic sealings ---- *)
Definition opens_to (C : Crypto) (priv : Private) (tty : list (res bytes)) (d : bytes) (m : bytes) : Prop :=
  exists c t p h ms, d = c ++ x0a :: t /\ lf_free c /\ unlocked C priv tty p /\
    authentic_header C (box_secret C (key p)) t h /\
    authentic C (shared_of C (box_secret C (key p)) h) 0 (body_text t) ms /\
    Z.of_nat (length ms) = count_of h /\ m = concat ms.

Lemma replay_open fs mp outs evs : Forall is_out outs ->
  replay fs (EvCreate mp 438 :: outs ++ evs) = replay (fs_create fs mp 438) evs.
Proof.
  intro H. change (EvCreate mp 438 :: outs ++ evs) with ([EvCreate mp 438] ++ outs ++ evs).
  rewrite !replay_app, (replay_outs _ outs) by exact H. reflexivity.
Qed.

Lemma Open_sound C sk ep mp w w' : BoxTidy C -> ep <> mp -> Open C sk ep mp w = (Ok tt, w') ->
  exists kf priv d m, contents w sk kf /\ readPrivateKeyFile kf = Ok priv /\ contents w ep d /\
    opens_to C priv (w_tty w) d m /\ contents w' mp m /\ (forall x, x <> mp -> w_fs w' x = w_fs w x).
Proof.
  intros BT Hne H. destruct (Open_spec _ _ _ _ _ _ _ H Hne BT) as (_ & evs & L & F & [(_ & e & X)|Cs]); [discriminate|].
  destruct Cs as (kf & priv & d & c & t & outs & evs2 & Ck & Rk & Cd & Ed & Hc & Hmp & -> & Ho & [(_ & X)|Cs]); [contradiction X; reflexivity|].
  destruct Cs as (p & h & ms & U & Ah & W & [(_ & Cn & E2)|(e & X & _)]); [|discriminate].
  rewrite replay_open in F by exact Ho. subst evs2.
  assert (A : authentic C (shared_of C (box_secret C (key p)) h) 0 (body_text t) ms).
  { inversion W as [ms' A E|ms' a b A E]; subst; [exact A|].
    apply authentic_app in A. apply A. }
  exists kf, priv, d, (concat ms). do 3 (split; [assumption|]). split; [|split].
  - exists c, t, p, h, ms. repeat (split; [assumption|]). reflexivity.
  - eexists. rewrite F, (replay_appends _ _ _ [] (file_mode (w_fs w) mp 438)); [reflexivity|]. rewrite fs_create_same. reflexivity.
  - intros x Hx. rewrite F, replay_appends_other by exact Hx. apply fs_create_other, Hx.
Qed.

Lemma Open_complete C sk ep mp w kf priv d m : BoxTidy C -> BoxCorrect C -> ep <> mp -> mp <> [] -> no_faults w ->
  contents w sk kf -> readPrivateKeyFile kf = Ok priv -> contents w ep d -> opens_to C priv (w_tty w) d m ->
  exists w', Open C sk ep mp w = (Ok tt, w') /\ contents w' mp m.
Proof.
  intros BT BC Hne Hmp Hn Ck Rk Cd (c & t & p & h & ms & -> & Hc & U & Ah & A & Cn & ->).
  destruct (Open_runs C sk ep mp w kf priv c t p h ms Hne Hmp BT BC Hn Ck Rk Cd Hc U Ah A Cn) as (w' & E & _ & F & _).
  exists w'. split; [exact E|]. eexists. exact F.
Qed.

(* ---- C35 ---- *)
Lemma prefix_decode x s u c : StdEncode x = s ++ u -> u <> [] -> DecodeString s = Ok c ->
  s = StdEncode c /\ exists y, x = c ++ y /\ y <> [].
Proof.
  intros E Hu D. assert (NL : nlfree s) by (pose proof (StdEncode_nlfree x) as N; rewrite E in N; apply nlfree_app in N; apply N).
  rewrite DecodeString_ref, (nlfree_nonl _ NL) in D. destruct (ref_decode s) as [b [|]] eqn:R; [discriminate|].
  apply Ok_inj in D. subst b. pose proof (ref_decode_length _ _ R) as [_ L4].
  apply Nat.mod_divides in L4; [|lia]. destruct L4 as (k & L4).
  assert (L : (4 * k < length (StdEncode x))%nat).
  { rewrite E, app_length, L4. destruct u; [contradiction Hu; reflexivity|cbn; lia]. }
  rewrite StdEncode_length in L.
  assert (Lx : (3 * k < length x)%nat).
  { destruct (Nat.le_gt_cases (length x) (3 * k)) as [H|H]; [|exact H]. exfalso.
    assert ((length x + 2) / 3 < k + 1)%nat by (apply Nat.div_lt_upper_bound; lia). lia. }
  assert (L3 : length (firstn (3 * k) x) = (3 * k)%nat) by (rewrite firstn_length; lia).
  destruct (encode_cut (firstn (3 * k) x) (skipn (3 * k) x) k L3) as [E1 _]. rewrite firstn_skipn, E in E1.
  rewrite firstn_app, <- L4, firstn_all, Nat.sub_diag in E1. cbn [firstn] in E1. rewrite app_nil_r in E1.
  rewrite E1, ref_decode_encode in R. injection R as <-. split; [exact E1|].
  exists (skipn (3 * k) x). split; [symmetry; apply firstn_skipn|].
  intro X. apply (f_equal (@length byte)) in X. rewrite skipn_length in X. cbn in X. lia.
Qed.

(* a box cut short that opens as another message *)
Definition truncated_box (C : Crypto) (shared : bytes) (i : Z) (piece c m' : bytes) : Prop :=
  c = box_seal C m' (nonce i) shared /\ exists y, box_seal C piece (nonce i) shared = c ++ y /\ y <> [].

Lemma truncated_loop C shared : LengthLaws C -> forall ms i s u ms', full_pieces ms ->
  StdEncode (boxes C shared i ms) = s ++ u -> u <> [] -> authentic C shared i s ms' -> length ms' = length ms ->
  exists j piece c m', nth_error ms j = Some piece /\ truncated_box C shared (i + Z.of_nat j) piece c m' /\
    s = StdEncode (boxes C shared i (firstn j ms) ++ c).
Proof.
  intro LL. induction ms as [|m ms IH]; intros i s u ms' Hf E Hu A Lm.
  { cbn in E. destruct s, u; try discriminate. contradiction Hu. }
  destruct ms' as [|m' ms']; [discriminate|]. inversion A as [|? ? ? ? D1 A1]; subst.
  cbn [full_pieces] in Hf. destruct Hf as [Hm Hf]. cbn [boxes] in E.
  assert (First : forall u', StdEncode (box_seal C m (nonce i) shared) = s ++ u' -> u' <> [] ->
     exists j piece c m', nth_error (m :: ms) j = Some piece /\ truncated_box C shared (i + Z.of_nat j) piece c m' /\
       s = StdEncode (boxes C shared i (firstn j (m :: ms)) ++ c)).
  { intros u' E' Hu'. assert (Ls : (length s <= piece_chars)%nat).
    { pose proof (small_box C m (nonce i) shared LL ltac:(destruct ms; lia)) as B. rewrite E', app_length in B. lia. }
    rewrite firstn_all2 in D1 by exact Ls. destruct (prefix_decode _ _ _ _ E' Hu' D1) as [E1 (y & E2 & Hy)].
    exists 0%nat, m, (box_seal C m' (nonce i) shared), m'. split; [reflexivity|]. rewrite Z.add_0_r.
    split; [split; [reflexivity|exists y; auto]|]. exact E1. }
  destruct ms as [|m2 ms].
  { cbn [boxes] in E. rewrite app_nil_r in E. exact (First u E Hu). }
  set (rest := boxes C shared (i + 1) (m2 :: ms)) in *.
  pose proof (full_box C m (nonce i) shared LL Hm) as Lb. pose proof (StdEncode_length3 _ _ Lb) as L4.
  assert (Ep : piece_chars = (4 * piece_groups)%nat) by (unfold piece_chars, piece_groups; lia). rewrite <- Ep in L4.
  rewrite StdEncode_app in E by (rewrite Lb; apply mod3).
  destruct (Nat.lt_ge_cases (length s) piece_chars) as [Ls|Ls].
  - assert (X : firstn (length s) (StdEncode (box_seal C m (nonce i) shared)) = s).
    { pose proof (f_equal (firstn (length s)) E) as X. rewrite !firstn_app, firstn_all, Nat.sub_diag in X.
      replace (length s - length (StdEncode (box_seal C m (nonce i) shared)))%nat with 0%nat in X by lia.
      cbn [firstn] in X. rewrite !app_nil_r in X. exact X. }
    apply (First (skipn (length s) (StdEncode (box_seal C m (nonce i) shared)))).
    + etransitivity; [symmetry; apply (firstn_skipn (length s))|]. rewrite X. reflexivity.
    + intro Y. apply (f_equal (@length byte)) in Y. rewrite skipn_length, L4 in Y. cbn [length] in Y. lia.
  - assert (X : s = StdEncode (box_seal C m (nonce i) shared) ++ skipn piece_chars s /\ StdEncode rest = skipn piece_chars s ++ u).
    { pose proof (f_equal (firstn piece_chars) E) as X. pose proof (f_equal (skipn piece_chars) E) as Y.
      rewrite !firstn_app, L4, Nat.sub_diag in X. rewrite !skipn_app, L4, Nat.sub_diag in Y.
      replace (piece_chars - length s)%nat with 0%nat in X, Y by lia. cbn [firstn skipn] in X, Y.
      rewrite <- L4, firstn_all, !app_nil_r, L4 in X. rewrite <- L4, skipn_all, L4 in Y. cbn [app] in Y.
      split; [rewrite X; symmetry; apply firstn_skipn|exact Y]. }
    destruct X as [Es Er]. cbn [length] in Lm.
    destruct (IH (i + 1) (skipn piece_chars s) u ms' Hf Er Hu A1 ltac:(cbn [length]; lia)) as (j & piece & c & m3 & N & T & E3).
    exists (S j), piece, c, m3. split; [exact N|]. replace (i + Z.of_nat (S j)) with (i + 1 + Z.of_nat j) by lia.
    split; [exact T|]. rewrite Es, E3. cbn [firstn boxes]. rewrite <- app_assoc. symmetry. apply StdEncode_app. rewrite Lb. apply mod3.
Qed.

Lemma truncated_text C edpriv epub ms t u h ms' : LengthLaws C -> length epub = 32%nat -> full_pieces ms ->
  Z.of_nat (length ms) < 2 ^ 64 ->
  let shared := box_precompute C epub edpriv in
  StdEncode (sealed_body C shared epub ms) = no_lf t ++ u -> u <> [] ->
  authentic_header C edpriv t h -> authentic C (shared_of C edpriv h) 0 (body_text t) ms' ->
  Z.of_nat (length ms') = count_of h ->
  exists j piece c m', nth_error ms j = Some piece /\ truncated_box C shared (Z.of_nat j) piece c m' /\
    no_lf t = StdEncode (sealed_header C shared epub (Z.of_nat (length ms)) ++ boxes C shared 0 (firstn j ms) ++ c).
Proof.
  intros LL Le Hf Hl shared E Hu (Hd & Lh & Ha) A Cn. unfold sealed_body in E.
  set (h0 := sealed_header C shared epub (Z.of_nat (length ms))) in *.
  pose proof (sealed_header_length C shared epub (Z.of_nat (length ms)) LL Le) as L0. fold h0 in L0.
  pose proof (StdEncode_length3 h0 24 L0) as L4. rewrite <- header_chars_4 in L4.
  rewrite StdEncode_app in E by (rewrite L0; reflexivity).
  destruct (Nat.lt_ge_cases (length (no_lf t)) header_chars) as [Ls|Ls].
  - exfalso. rewrite firstn_all2 in Hd by lia.
    assert (X : firstn (length (no_lf t)) (StdEncode h0) = no_lf t).
    { pose proof (f_equal (firstn (length (no_lf t))) E) as X. rewrite !firstn_app, firstn_all, Nat.sub_diag in X.
      replace (length (no_lf t) - length (StdEncode h0))%nat with 0%nat in X by lia.
      cbn [firstn] in X. rewrite !app_nil_r in X. exact X. }
    destruct (prefix_decode h0 (no_lf t) (skipn (length (no_lf t)) (StdEncode h0)) h) as [_ (y & Ey & Hy)].
    + etransitivity; [symmetry; apply (firstn_skipn (length (no_lf t)))|]. rewrite X. reflexivity.
    + intro Y. apply (f_equal (@length byte)) in Y. rewrite skipn_length, L4 in Y. cbn [length] in Y. lia.
    + exact Hd.
    + apply (f_equal (@length byte)) in Ey. rewrite app_length, L0, Lh in Ey. destruct y; [contradiction Hy; reflexivity|cbn in Ey; lia].
  - assert (X : firstn header_chars (no_lf t) = StdEncode h0 /\ StdEncode (boxes C shared 0 ms) = body_text t ++ u).
    { pose proof (f_equal (firstn header_chars) E) as X. pose proof (f_equal (skipn header_chars) E) as Y.
      rewrite !firstn_app, L4, Nat.sub_diag in X. rewrite !skipn_app, L4, Nat.sub_diag in Y.
      replace (header_chars - length (no_lf t))%nat with 0%nat in X, Y by lia. cbn [firstn] in X. rewrite !app_nil_r in X.
      cbn [skipn] in Y. rewrite <- L4, firstn_all, L4 in X. rewrite <- L4, skipn_all, L4 in Y. cbn [app] in Y. split; [symmetry; exact X|exact Y]. }
    destruct X as [X1 X2]. rewrite X1, DecodeString_StdEncode in Hd. apply Ok_inj in Hd. subst h.
    unfold h0 in Cn. rewrite count_of_header in Cn by (try assumption; lia).
    assert (Sh : shared_of C edpriv h0 = shared).
    { unfold shared_of, h0. destruct (header_slices C shared epub (Z.of_nat (length ms)) LL Le) as (_ & -> & _). reflexivity. }
    rewrite Sh in A.
    destruct (truncated_loop C shared LL ms 0 (body_text t) u ms' Hf X2 Hu A ltac:(lia)) as (j & piece & c & m' & N & T & E3).
    exists j, piece, c, m'. split; [exact N|]. split; [exact T|].
    rewrite <- (firstn_skipn header_chars (no_lf t)), X1. fold (body_text t). rewrite E3.
    symmetry. apply StdEncode_app. rewrite L0. reflexivity.
Qed.

Lemma unlocked_unique C priv tty p1 p2 : unlocked C priv tty p1 -> unlocked C priv tty p2 -> p1 = p2.
Proof.
  intros [[H1 ->]|[H1 (a & ta & E1 & D1)]] [[H2 ->]|[H2 (b & tb & E2 & D2)]]; try contradiction; [reflexivity|].
  rewrite E1 in E2. injection E2 as -> _. rewrite D1 in D2. injection D2 as ->. reflexivity.
Qed.

(* a key file and the key it unlocks to *)
Definition recipient (C : Crypto) (w : world) (sk : path) (p : Private) : Prop :=
  exists kf priv, contents w sk kf /\ readPrivateKeyFile kf = Ok priv /\ unlocked C priv (w_tty w) p.

Lemma recipient_unique C w sk p kf priv p2 : recipient C w sk p -> contents w sk kf -> readPrivateKeyFile kf = Ok priv ->
  unlocked C priv (w_tty w) p2 -> p2 = p.
Proof.
  intros (kf' & priv' & C1 & R1 & U1) C2 R2 U2. rewrite (contents_fun _ _ _ _ C2 C1) in R2. rewrite R1 in R2. injection R2 as <-.
  exact (unlocked_unique _ _ _ _ _ U2 U1).
Qed.

Lemma comment_unique t c t' : comment_text ++ t = c ++ x0a :: t' -> lf_free c -> t' = t.
Proof.
  intros E Hc. destruct comment_split as (c0 & E0 & H0). rewrite E0, <- app_assoc in E. cbn [app] in E.
  apply first_line_unique in E; [|assumption..]. symmetry. apply E.
Qed.

Lemma Open_truncated C sk ep mp w w' p epub ms t rest :
  LengthLaws C -> BoxTidy C -> ep <> mp -> recipient C w sk p ->
  let shared := box_precompute C epub (box_secret C (key p)) in
  length epub = 32%nat -> full_pieces ms -> Z.of_nat (length ms) < 2 ^ 64 ->
  spec_encoded (sealed_body C shared epub ms) = t ++ rest -> no_lf rest <> [] ->
  contents w ep (comment_text ++ t) ->
  Open C sk ep mp w = (Ok tt, w') ->
  exists j piece c m', nth_error ms j = Some piece /\ truncated_box C shared (Z.of_nat j) piece c m' /\
    no_lf t = StdEncode (sealed_header C shared epub (Z.of_nat (length ms)) ++ boxes C shared 0 (firstn j ms) ++ c).
Proof.
  intros LL BT Hne Hrec shared Le Hf Hl E Hr Cd H.
  destruct (Open_sound _ _ _ _ _ _ BT Hne H) as (kf & priv & d & m & Ck & Rk & Cd' & (c & t' & p' & h & ms' & Ed & Hc & U & Ah & A & Cn & _) & _).
  rewrite (contents_fun _ _ _ _ Cd' Cd) in Ed. pose proof (comment_unique _ _ _ Ed Hc) as ->.
  pose proof (recipient_unique _ _ _ _ _ _ _ Hrec Ck Rk U) as ->.
  apply (truncated_text C (box_secret C (key p)) epub ms t (no_lf rest) h ms' LL Le Hf Hl); try assumption.
  rewrite <- no_lf_app, <- E, no_lf_encoded. reflexivity.
Qed.

(* ---- C36 ---- *)
Lemma Open_suffix C sk ep mp w p epub ms ext :
  LengthLaws C -> BoxTidy C -> BoxCorrect C -> ep <> mp -> mp <> [] -> no_faults w -> recipient C w sk p ->
  let shared := box_precompute C epub (box_secret C (key p)) in
  length epub = 32%nat -> Z.of_nat (length ms) < 2 ^ 64 -> full_pieces ms -> ext = [] \/ all_full ms ->
  contents w ep (sealed_file (sealed_body C shared epub ms) ++ ext) ->
  exists w', Open C sk ep mp w = (Ok tt, w') /\ contents w' mp (concat ms).
Proof.
  intros LL BT BC Hne Hmp Hn (kf & priv & Ck & Rk & U) shared Le Hl Hf Hx Cd.
  apply (Open_complete C sk ep mp w kf priv _ _ BT BC Hne Hmp Hn Ck Rk Cd).
  destruct comment_split as (c0 & E0 & H0).
  set (t := spec_encoded (sealed_body C shared epub ms) ++ ext).
  assert (Hx' : no_lf ext = [] \/ all_full ms) by (destruct Hx as [->|Hx]; [left; reflexivity|right; exact Hx]).
  destruct (sealed_text C (box_secret C (key p)) epub ms t (no_lf ext) LL Le Hf Hx') as (T1 & T2 & T3).
  { unfold t. rewrite no_lf_app, no_lf_encoded. reflexivity. }
  exists c0, t, p, (sealed_header C shared epub (Z.of_nat (length ms))), ms.
  split; [unfold sealed_file, t; rewrite E0, <- !app_assoc; reflexivity|]. split; [exact H0|]. split; [exact U|].
  split; [exact T1|]. split; [fold shared in T2; rewrite T2; exact T3|]. split; [symmetry; apply count_of_header; try assumption; lia|reflexivity].
Qed.

(* ---- C37 ---- *)
Lemma filter_shorter {A} (g : A -> bool) l : (length (filter g l) <= length l)%nat.
Proof. induction l as [|x l IH]; [reflexivity|]. cbn. destruct (g x); cbn; lia. Qed.

Lemma authentic_length C shared : LengthLaws C -> forall ms i t, authentic C shared i t ms -> (22 * length ms <= length t)%nat.
Proof.
  intro LL. induction ms as [|m ms IH]; intros i t A; [cbn; lia|]. inversion A as [|? ? ? ? D A1]; subst.
  specialize (IH _ _ A1). rewrite skipn_length in IH. cbn [length].
  rewrite DecodeString_ref in D. destruct (ref_decode (nonl (firstn piece_chars t))) as [b [|]] eqn:R; [discriminate|].
  apply Ok_inj in D. subst b. apply ref_decode_length in R. destruct R as [L _].
  rewrite len_box_seal in L by exact LL.
  assert (Lc : (count_alpha (nonl (firstn piece_chars t)) <= length (firstn piece_chars t))%nat).
  { unfold count_alpha. etransitivity; [apply filter_shorter|]. apply nonl_length. }
  rewrite firstn_length in Lc. assert (22 <= count_alpha (nonl (firstn piece_chars t)))%nat.
  { destruct (Nat.le_gt_cases 22 (count_alpha (nonl (firstn piece_chars t)))) as [G|G]; [exact G|]. exfalso.
    assert (count_alpha (nonl (firstn piece_chars t)) * 3 / 4 < 16)%nat by (apply Nat.div_lt_upper_bound; lia). lia. }
  lia.
Qed.

Definition appends (evs : list event) : nat := length (filter (fun e => match e with EvAppend _ _ => true | _ => false end) evs).

Lemma appends_app a b : appends (a ++ b) = (appends a + appends b)%nat.
Proof. unfold appends. rewrite filter_app, app_length. reflexivity. Qed.
Lemma appends_map p ms : appends (map (EvAppend p) ms) = length ms.
Proof. unfold appends. induction ms; cbn; [reflexivity|]. f_equal. assumption. Qed.
Lemma appends_outs outs : Forall is_out outs -> appends outs = 0%nat.
Proof. induction 1 as [|e l He _ IH]; [reflexivity|]. destruct e; try contradiction. exact IH. Qed.

Lemma no_lf_length t : (length (no_lf t) <= length t)%nat.
Proof. apply filter_shorter. Qed.

Lemma Open_bounded C sk ep mp w r w' evs d : LengthLaws C -> BoxTidy C -> ep <> mp -> Open C sk ep mp w = (r, w') ->
  w_log w' = w_log w ++ evs -> contents w ep d -> (22 * (appends evs - 1) <= length d)%nat.
Proof.
  intros LL BT Hne H L Cd. destruct (Open_spec _ _ _ _ _ _ _ H Hne BT) as (_ & evs' & L' & F & Cs).
  rewrite L in L'. apply app_inv_head in L'. subst evs'. destruct Cs as [(-> & _)|Cs]; [cbn; lia|].
  destruct Cs as (kf & priv & d' & c & t & outs & evs2 & Ck & Rk & Cd' & Ed & Hc & Hmp & -> & Ho & Cs).
  rewrite (contents_fun _ _ _ _ Cd' Cd) in Ed. 
  assert (Ea : appends (EvCreate mp 438 :: outs ++ evs2) = appends evs2).
  { change (EvCreate mp 438 :: outs ++ evs2) with ([EvCreate mp 438] ++ outs ++ evs2). rewrite !appends_app, (appends_outs outs) by exact Ho. reflexivity. }
  rewrite Ea. destruct Cs as [(-> & _)|(p & h & ms & U & Ah & W & _)]; [cbn; lia|].
  assert (B : (22 * (appends evs2 - 1) <= 22 * length ms)%nat /\ (22 * length ms <= length (body_text t))%nat).
  { inversion W as [ms' A E|ms' a b A E]; subst.
    - rewrite appends_map. split; [lia|]. exact (authentic_length _ _ LL _ _ _ A).
    - rewrite appends_app, appends_map. change (appends [EvAppend mp a]) with 1%nat. split; [lia|].
      pose proof (authentic_length _ _ LL _ _ _ A) as X. rewrite app_length in X. etransitivity; [|exact X]. apply Nat.mul_le_mono_l, Nat.le_add_r. }
  unfold body_text in B. rewrite skipn_length in B. pose proof (no_lf_length t).
  rewrite Ed, app_length. cbn [length]. lia.
Qed.

(* ---- C38 ---- *)
(* the start of the concatenation of authenticated pieces *)
Definition authenticated_prefix (C : Crypto) (shared : bytes) (n : Z) (t out : bytes) : Prop :=
  exists ms, authentic C shared 0 t ms /\ Z.of_nat (length ms) <= n /\ is_prefix out (concat ms).

Lemma crash_written C shared mp t ms evs n fs m fs' : written C shared mp 0 t ms evs -> Z.of_nat (length ms) <= n ->
  (evs = map (EvAppend mp) ms \/ Z.of_nat (length ms) < n) ->
  fs mp = Some (File [] m) -> crash_state fs evs fs' ->
  exists out, fs' mp = Some (File out m) /\ authenticated_prefix C shared n t out.
Proof.
  intros W Hn Hp Hf Hc.
  assert (X : exists ms0, authentic C shared 0 t ms0 /\ Z.of_nat (length ms0) <= n /\
     exists ps, evs = map (EvAppend mp) ps /\ is_prefix (concat ps) (concat ms0)).
  { inversion W as [ms' A E|ms' a b A E]; subst.
    - exists ms. split; [exact A|]. split; [lia|]. exists ms. split; [reflexivity|]. exists []. rewrite app_nil_r. reflexivity.
    - destruct Hp as [Hp|Hp].
      { exfalso. apply (f_equal (@length event)) in Hp. rewrite app_length, !map_length in Hp. cbn in Hp. lia. }
      exists (ms ++ [a ++ b]). split; [exact A|]. split; [rewrite app_length; cbn [length]; lia|].
      exists (ms ++ [a]). split; [rewrite map_app; reflexivity|]. rewrite !concat_app. cbn [concat]. rewrite !app_nil_r.
      exists b. rewrite app_assoc. reflexivity. }
  destruct X as (ms0 & A & Hl & ps & -> & (z & Hz)).
  assert (Y : exists out, fs' mp = Some (File out m) /\ is_prefix out (concat ps)).
  { destruct Hc as (dn & rest & E & Cs). apply map_eq_app in E. destruct E as (p1 & p2 & -> & <- & E2).
    destruct Cs as [->|(p & b1 & b2 & rest' & -> & ->)].
    - exists (concat p1). split; [exact (replay_appends _ _ _ [] _ Hf)|]. exists (concat p2). apply concat_app.
    - destruct p2 as [|x p2]; [discriminate|]. injection E2 as <- -> _. exists (concat p1 ++ b1). split.
      + rewrite replay_app. change (replay ?f [EvAppend mp b1]) with (fs_append f mp b1).
        rewrite fs_append_same, (replay_appends _ _ _ [] _ Hf). reflexivity.
      + exists (b2 ++ concat p2). rewrite concat_app. cbn [concat]. rewrite <- !app_assoc. reflexivity. }
  destruct Y as (out & Fo & (y & Hy)). exists out. split; [exact Fo|]. exists ms0. split; [exact A|]. split; [exact Hl|].
  exists (y ++ z). rewrite Hz, Hy, app_assoc. reflexivity.
Qed.

Lemma crash_other fs mp evs fs' x : (forall q b, In (EvAppend q b) evs -> q = mp) -> (forall q b, In (EvCreate q b) evs -> q = mp) ->
  x <> mp -> crash_state fs evs fs' -> fs' x = fs x.
Proof.
  intros Ha Hc Hx Hcr.
  assert (X : forall l f, (forall q b, In (EvAppend q b) l -> q = mp) -> (forall q b, In (EvCreate q b) l -> q = mp) -> replay f l x = f x).
  { induction l as [|e l IH]; intros f H1 H2; [reflexivity|]. 
    change (replay f (e :: l)) with (replay (replay f [e]) l). rewrite IH; [|intros; eapply H1; right; eassumption|intros; eapply H2; right; eassumption].
    destruct e as [q b|q b|b|b]; cbn.
    - rewrite (H2 q b (or_introl eq_refl)). apply fs_create_other, Hx.
    - rewrite (H1 q b (or_introl eq_refl)). apply fs_append_other, Hx.
    - reflexivity.
    - reflexivity. }
  destruct Hcr as (dn & rest & -> & [->|(p & b1 & b2 & rest' & -> & ->)]).
  - apply X; intros; [eapply Ha|eapply Hc]; apply in_or_app; left; eassumption.
  - apply X; intros q b Hin; apply in_app_or in Hin; destruct Hin as [Hin|[Hin|[]]]; try discriminate.
    + eapply Ha. apply in_or_app. left. exact Hin.
    + injection Hin as <- <-. eapply Ha. apply in_or_app. right. left. reflexivity.
    + eapply Hc. apply in_or_app. left. exact Hin.
Qed.

Lemma written_in C shared mp t ms evs : written C shared mp 0 t ms evs -> exists ps, evs = map (EvAppend mp) ps.
Proof.
  intro W. inversion W as [ms' A E|ms' a b A E]; subst; [exists ms; reflexivity|].
  exists (ms ++ [a]). rewrite map_app. reflexivity.
Qed.

(* a crash during Open: before the create, or during what follows *)
Lemma crash_open fs mp outs evs fs' : Forall is_out outs ->
  crash_state fs (EvCreate mp 438 :: outs ++ evs) fs' ->
  fs' = fs \/ crash_state (fs_create fs mp 438) evs fs'.
Proof.
  intros Ho (dn & rest & E & Cs). destruct dn as [|e dn].
  { left. destruct Cs as [->|(p & b1 & b2 & rest' & -> & _)]; [reflexivity|discriminate]. }
  right. injection E as <- E.
  assert (X : forall dn rest outs, Forall is_out outs -> outs ++ evs = dn ++ rest ->
     (Forall is_out dn /\ exists o2, Forall is_out o2 /\ rest = o2 ++ evs) \/ exists o d2, dn = o ++ d2 /\ Forall is_out o /\ evs = d2 ++ rest).
  { clear. induction dn as [|x dn IH]; intros rest outs Ho E.
    - left. split; [constructor|]. exists outs. auto.
    - destruct outs as [|o outs].
      + right. exists [], (x :: dn). split; [reflexivity|]. split; [constructor|exact E].
      + injection E as -> E. inversion Ho; subst. destruct (IH rest outs ltac:(assumption) E) as [(A & o2 & B1 & B2)|(o & d2 & -> & B1 & B2)].
        * left. split; [constructor; assumption|]. exists o2. auto.
        * right. exists (x :: o), d2. split; [reflexivity|]. split; [constructor; assumption|exact B2]. }
  destruct (X dn rest outs Ho E) as [(A & o2 & B1 & ->)|(o & d2 & -> & B1 & ->)].
  - (* still in the output part *)
    destruct Cs as [->|(p & b1 & b2 & rest' & Er & ->)].
    + exists [], evs. split; [reflexivity|]. left. change (EvCreate mp 438 :: dn) with ([EvCreate mp 438] ++ dn).
      rewrite replay_app, (replay_outs _ dn) by exact A. reflexivity.
    + destruct o2 as [|x o2]; [|injection Er as -> _; inversion B1; contradiction]. cbn [app] in Er.
      exists [], evs. split; [reflexivity|]. right. exists p, b1, b2, rest'. split; [exact Er|].
      change ((EvCreate mp 438 :: dn) ++ [EvAppend p b1]) with ([EvCreate mp 438] ++ dn ++ [EvAppend p b1]).
      rewrite !replay_app, (replay_outs _ dn) by exact A. reflexivity.
  - exists d2, rest. split; [reflexivity|].
    destruct Cs as [->|(p & b1 & b2 & rest' & -> & ->)].
    + left. apply replay_open, B1.
    + right. exists p, b1, b2, rest'. split; [reflexivity|].
      change ((EvCreate mp 438 :: o ++ d2) ++ [EvAppend p b1]) with (EvCreate mp 438 :: (o ++ d2) ++ [EvAppend p b1]).
      rewrite <- app_assoc. apply replay_open, B1.
Qed.

Lemma Open_crash C sk ep mp w r w' evs fs' : BoxTidy C -> ep <> mp -> Open C sk ep mp w = (r, w') ->
  w_log w' = w_log w ++ evs -> crash_state (w_fs w) evs fs' ->
  (forall x, x <> mp -> fs' x = w_fs w x) /\
  (fs' mp = w_fs w mp \/
   exists out, fs' mp = Some (File out (file_mode (w_fs w) mp 438)) /\
     (out = [] \/ exists d c t p h, recipient C w sk p /\ contents w ep d /\ d = c ++ x0a :: t /\ lf_free c /\
        authentic_header C (box_secret C (key p)) t h /\
        authenticated_prefix C (shared_of C (box_secret C (key p)) h) (count_of h) (body_text t) out)).
Proof.
  intros BT Hne H L Hcr. destruct (Open_spec _ _ _ _ _ _ _ H Hne BT) as (_ & evs' & L' & F & Cs).
  rewrite L in L'. apply app_inv_head in L'. subst evs'.
  assert (Nil : forall fs, crash_state fs [] fs' -> fs' = fs).
  { intros fs (dn & rest & E & Cr). destruct dn; [|discriminate]. destruct rest; [|discriminate].
    destruct Cr as [->|(p & b1 & b2 & rest' & X & _)]; [reflexivity|discriminate]. }
  destruct Cs as [(-> & _)|Cs]; [rewrite (Nil _ Hcr); auto|].
  destruct Cs as (kf & priv & d & c & t & outs & evs2 & Ck & Rk & Cd & Ed & Hc & Hmp & -> & Ho & Cs).
  destruct (crash_open _ _ _ _ _ Ho Hcr) as [->|Hcr2]; [auto|].
  assert (Fc : fs_create (w_fs w) mp 438 mp = Some (File [] (file_mode (w_fs w) mp 438))) by (rewrite fs_create_same; reflexivity).
  destruct Cs as [(-> & _)|(p & h & ms & U & Ah & W & Cs)].
  - rewrite (Nil _ Hcr2). split; [intros x Hx; apply fs_create_other, Hx|]. right. exists []. split; [exact Fc|left; reflexivity].
  - split.
    + intros x Hx. destruct (written_in _ _ _ _ _ _ W) as (ps & ->).
      rewrite (crash_other (fs_create (w_fs w) mp 438) mp (map (EvAppend mp) ps) fs' x); [apply fs_create_other, Hx|..|exact Hx|exact Hcr2].
      * intros q b Hin. apply in_map_iff in Hin. destruct Hin as (y & E & _). injection E as <- _. reflexivity.
      * intros q b Hin. apply in_map_iff in Hin. destruct Hin as (y & E & _). discriminate.
    + right. destruct (fun X Y => crash_written C _ mp _ ms evs2 (count_of h) _ _ fs' W X Y Fc Hcr2) as (out & Fo & A).
      * destruct Cs as [(_ & Cn & _)|(e & _ & _ & Cn)]; lia.
      * destruct Cs as [(_ & _ & ->)|(e & _ & _ & Cn)]; [left; reflexivity|right; lia].
      * exists out. split; [exact Fo|]. right. exists d, c, t, p, h. split; [exists kf, priv; auto|]. auto.
Qed.

(* for an authentic file what is there is a prefix of the message *)
Lemma prefix_of_message C shared t n ms out : BoxCorrect C -> authentic C shared 0 t ms -> Z.of_nat (length ms) = n ->
  authenticated_prefix C shared n t out -> is_prefix out (concat ms).
Proof.
  intros BC A Hn (ms' & A' & Hl & (z & Hz)). destruct (authentic_unique C shared BC ms' ms 0 t A' A ltac:(lia)) as (r & ->).
  exists (z ++ concat r). rewrite concat_app, Hz, app_assoc. reflexivity.
Qed.

(* ---- C39 ---- *)
Lemma Open_early C sk ep mp w r w' : BoxTidy C -> ep <> mp -> Open C sk ep mp w = (r, w') ->
  (forall kf priv, contents w sk kf -> readPrivateKeyFile kf <> Ok priv) \/
  (forall d, contents w ep d -> lf_free d) ->
  w_fs w' = w_fs w /\ w_log w' = w_log w /\ exists e, r = Err e.
Proof.
  intros BT Hne H Hp. destruct (Open_spec _ _ _ _ _ _ _ H Hne BT) as (_ & evs & L & F & [(-> & e & ->)|Cs]).
  - rewrite app_nil_r in L. split; [exact F|]. split; [exact L|]. exists e. reflexivity.
  - exfalso. destruct Cs as (kf & priv & d & c & t & outs & evs2 & Ck & Rk & Cd & Ed & _).
    destruct Hp as [Hp|Hp]; [exact (Hp kf priv Ck Rk)|]. apply (Hp d Cd). rewrite Ed. apply in_or_app. right. left. reflexivity.
Qed.

Lemma Open_reach C sk ep mp w kf priv c t : mp <> [] -> no_faults w ->
  contents w sk kf -> readPrivateKeyFile kf = Ok priv -> contents w ep (c ++ x0a :: t) -> lf_free c ->
  exists fd off w4, Open C sk ep mp w = open_file C priv fd mp w4 /\ w_fs w4 = fs_create (w_fs w) mp 438 /\
    handle w4 fd ep off /\ skipn off (c ++ x0a :: t) = t /\ w_tty w4 = w_tty w /\ w_rng w4 = w_rng w /\ no_faults w4 /\
    w_log w4 = w_log w ++ [EvCreate mp 438].
Proof.
  intros Hmp Hn Ck Rk Cd Hc. rewrite Open_eq.
  rewrite LoadPrivateKey_eq, (ReadFile_contents sk w kf) by (try apply undisturbed_nil; assumption).
  rewrite Rk, next_id by exact Hn.
  destruct (open_read_spec ep w) as (r2 & w2 & E2 & O2 & N2 & D2). rewrite E2. specialize (N2 Hn).
  pose proof Cd as (mo & Fd). 
  destruct D2 as [(d & -> & Cd' & Hh)|(e & -> & D2)]; [|rewrite (D2 Hn) in Fd; discriminate].
  pose proof (contents_fun _ _ _ _ Cd' Cd) as ->. pose proof O2 as (F2f & F2r & F2t & F2b & F2l).
  assert (Fd2 : w_fs w2 ep = Some (File (c ++ x0a :: t) mo)) by (rewrite F2f; exact Fd).
  destruct (skipComment_file (length (w_fds w)) ep _ mo w2 Hh Fd2) as (r3 & w3 & E3 & O3 & N3 & C3). rewrite E3. specialize (N3 N2).
  destruct C3 as [(c' & t' & off & Ect & Hc' & -> & Hh3 & Hs3)|(e & -> & C3)].
  2:{ exfalso. apply (C3 N2). apply in_or_app. right. left. reflexivity. }
  destruct (first_line_unique _ _ _ _ Ect Hc Hc') as [<- <-]. clear Ect Hc'.
  assert (Fr3 : only_reads w w3) by (eapply only_reads_trans; [exact O2|exact O3]).
  pose proof Fr3 as (F3f & F3r & F3t & F3b & F3l).
  destruct (create_file_spec mp 438 w3) as (r4 & w4 & E4 & N4 & C4). rewrite E4. specialize (N4 N3).
  destruct C4 as [(-> & -> & _)|(e & -> & -> & C4)]; [|exfalso; apply Hmp, C4, N3].
  exists (length (w_fds w)), off, (do_create mp 438 (next w3)). split; [reflexivity|].
  split; [cbn; rewrite F3f; reflexivity|]. split; [exact Hh3|]. split; [exact Hs3|]. split; [exact F3t|]. split; [exact F3r|].
  split; [exact N4|]. cbn. rewrite F3l. reflexivity.
Qed.

(* whatever is in the encrypted file and whatever passphrase is given: if the key
   file parses and the encrypted file has a first line, the output is emptied *)
Lemma Open_empties C sk ep mp w kf priv c t r w' : BoxTidy C -> ep <> mp -> mp <> [] -> no_faults w ->
  contents w sk kf -> readPrivateKeyFile kf = Ok priv -> contents w ep (c ++ x0a :: t) -> lf_free c ->
  (forall p h, unlocked C priv (w_tty w) p -> ~ authentic_header C (box_secret C (key p)) t h) ->
  Open C sk ep mp w = (r, w') ->
  r <> Ok tt /\ w_fs w' mp = Some (File [] (file_mode (w_fs w) mp 438)).
Proof.
  intros BT Hne Hmp Hn Ck Rk Cd Hc Hno H.
  destruct (Open_reach C sk ep mp w kf priv c t Hmp Hn Ck Rk Cd Hc) as (fd & off & w4 & E & F4 & Hh & Hs & Tt & _ & N4 & L4).
  destruct (Open_spec _ _ _ _ _ _ _ H Hne BT) as (_ & evs & L & F & Cs).
  assert (Hev : exists e2, evs = EvCreate mp 438 :: e2).
  { destruct Cs as [(-> & _)|(kf' & priv' & d & c' & t' & outs & evs2 & _ & _ & _ & _ & _ & _ & -> & _)]; [|eexists; reflexivity].
    exfalso. rewrite E in H. unfold open_file in H. destruct (priv_ToBox C priv w4) as [[rb p] w5] eqn:Eb.
    destruct (ToBox_spec C priv w4 rb p w5 (readPrivateKeyFile_wf _ _ Rk) Eb) as (outs & B1 & B2 & B3 & B4 & B5 & B6 & B7).
    assert (Lo : exists z, w_log w' = w_log w5 ++ z).
    { destruct rb as [edpriv|e|]; [|injection H as _ <-; exists []; rewrite app_nil_r; reflexivity..].
      pose proof Cd as (mo & Fd).
      assert (Fd5 : w_fs w5 ep = Some (File (c ++ x0a :: t) mo)) by (rewrite B3, F4, fs_create_other by exact Hne; exact Fd).
      assert (Hh5 : handle w5 fd ep off) by (unfold handle; rewrite B4; exact Hh).
      destruct (open_body_spec C fd mp ep _ mo edpriv Hne BT off w5 r w' Hh5 Fd5 H) as (_ & _ & [(_ & -> & _)|(h & ms & ev & _ & _ & _ & -> & _)]).
      - exists []. rewrite app_nil_r. reflexivity.
      - exists ev. reflexivity. }
    destruct Lo as (z & Lo). rewrite Lo, B2, L4 in L. rewrite app_nil_r in L.
    apply (f_equal (@length event)) in L. rewrite !app_length in L. cbn [length] in L. lia. }
  destruct Hev as (e2 & ->). destruct Cs as [(X & _)|Cs]; [discriminate|].
  destruct Cs as (kf' & priv' & d & c' & t' & outs & evs2 & Ck' & Rk' & Cd' & Ed & Hc' & _ & E2 & Ho & Cs).
  rewrite (contents_fun _ _ _ _ Ck' Ck), Rk in Rk'. injection Rk' as <-.
  rewrite (contents_fun _ _ _ _ Cd' Cd) in Ed. destruct (first_line_unique _ _ _ _ Ed Hc Hc') as [<- <-].
  destruct Cs as [(-> & Hr)|(p & h & ms & U & Ah & _)]; [|exfalso; exact (Hno p h U Ah)].
  split; [exact Hr|]. rewrite F, E2, replay_open by exact Ho. cbn. rewrite fs_create_same. reflexivity.
Qed.

(* ---- C32 ---- *)
Lemma Seal_empty C pk mp ep w pf pub : no_faults w -> contents w pk pf -> readPublicKeyFile pf = Ok pub ->
  contents w mp [] -> enc_path mp ep <> mp ->
  exists w', Seal C pk mp ep w = (Ok tt, w') /\ no_faults w' /\ w_tty w' = w_tty w /\ w_rng w' = w_rng w /\
    (forall x, x <> enc_path mp ep -> w_fs w' x = w_fs w x) /\
    contents w' (enc_path mp ep) (comment_text ++ [x0a]).
Proof.
  intros Hn Cp Rp Cm Hq. rewrite Seal_eq, (LoadPublicKey_runs pk w pf pub Hn Cp Rp). set (q := enc_path mp ep) in *.
  destruct (open_read_spec mp w) as (r2 & w2 & E2 & O2 & N2 & D2). rewrite E2.
  pose proof Cm as (mm & Fm). destruct D2 as [(m' & -> & Cm' & Hh)|(e & -> & D2)]; [|rewrite (D2 Hn) in Fm; discriminate].
  pose proof O2 as (O2f & O2r & O2t & O2b & _). specialize (N2 Hn).
  assert (Fm2 : w_fs w2 mp = Some (File [] mm)) by (rewrite O2f; exact Fm).
  destruct (file_size_spec (length (w_fds w)) mp 0 [] mm w2 Hh Fm2) as (r3 & w3 & E3 & O3 & N3 & D3 & C3). rewrite E3.
  pose proof O3 as (O3f & O3r & O3t & O3b & _). 
  destruct C3 as [->|(e & -> & C3)]; [|contradiction]. specialize (N3 N2).
  destruct (create_file_spec q 438 w3) as (r4 & w4 & E4 & N4 & C4). rewrite E4.
  destruct C4 as [(-> & -> & _)|(e & -> & -> & C4)]; [|exfalso; apply (enc_path_ne mp ep), C4, N3].
  specialize (N4 N3). set (w4 := do_create q 438 (next w3)) in *.
  assert (Fq4 : w_fs w4 q = Some (File [] (file_mode (w_fs w) q 438))).
  { unfold w4. cbn [w_fs do_create emit set_fs next set_faults]. rewrite fs_create_same, O3f, O2f. reflexivity. }
  unfold seal_tail. change (Z.of_nat (length (@nil byte))) with 0.
  destruct (file_write q comment_text w4) as [[k er] w5] eqn:E5.
  destruct (file_write_frame _ _ _ _ _ _ E5) as (a & b & Eab & Hr & Hfs & _ & (Hs1 & Hs2 & Hs3 & Hs4) & Hn5).
  destruct (Hn5 N4) as [-> N5]. rewrite (Hr eq_refl), app_nil_r in Eab. subst a.
  unfold seal. change (0 =? 0) with true. cbn iota.
  assert (Hq5 : w_fs w5 q = Some (File comment_text (file_mode (w_fs w) q 438))) by (rewrite Hfs, fs_append_same, Fq4; reflexivity).
  destruct (enc_close (file_write q) (NewEncoder, w5)) as [er [e6 w6]] eqn:Ec.
  destruct (enc_close_file _ _ _ _ _ _ _ _ _ (fresh_inv _ _ _ Hq5) Ec) as ((a & b2 & A1 & A2 & A3 & A4) & C1 & (C2a & C2b & C2c & C2d) & C3).
  destruct (C3 N5) as [-> N6]. rewrite (A3 eq_refl), app_nil_r in A2.
  exists w6. split; [reflexivity|]. split; [exact N6|]. cbn [snd].
  split; [rewrite C2b, Hs2; transitivity (w_tty w3); [reflexivity|congruence]|].
  split; [rewrite C2a, Hs1; transitivity (w_rng w3); [reflexivity|congruence]|].
  split.
  - intros x Hx. rewrite C1, Hfs, fs_append_other by exact Hx. unfold w4. cbn [w_fs do_create emit set_fs next set_faults].
    rewrite fs_create_other, O3f, O2f by exact Hx. reflexivity.
  - eexists. rewrite A1, <- A2. reflexivity.
Qed.

Lemma empty_header C edpriv h : ~ authentic_header C edpriv [x0a] h.
Proof. intros (Hd & Lh & _). vm_compute in Hd. injection Hd as <-. discriminate. Qed.

Lemma Open_empty C sk ep mp w r w' : BoxTidy C -> ep <> mp -> contents w ep (comment_text ++ [x0a]) ->
  Open C sk ep mp w = (r, w') -> r <> Ok tt.
Proof.
  intros BT Hne Cd H ->. destruct (Open_sound _ _ _ _ _ _ BT Hne H) as (kf & priv & d & m & Ck & Rk & Cd' & (c & t & p & h & ms & Ed & Hc & U & Ah & _) & _).
  rewrite (contents_fun _ _ _ _ Cd' Cd) in Ed. rewrite (comment_unique _ _ _ Ed Hc) in Ah. exact (empty_header _ _ _ Ah).
Qed.

(* ---- C33 ---- *)
Lemma boxes_length C shared : LengthLaws C -> forall ms i, length (boxes C shared i ms) = (length (concat ms) + 16 * length ms)%nat.
Proof.
  intro LL. induction ms as [|m ms IH]; intro i; [reflexivity|]. cbn [boxes concat length].
  rewrite !app_length, IH, len_box_seal by exact LL. lia.
Qed.

Lemma Seal_format C pk mp ep w w' m : LengthLaws C -> no_faults w -> contents w mp m -> m <> [] -> Z.of_nat (length m) < 2 ^ 63 ->
  let q := enc_path mp ep in q <> mp -> Seal C pk mp ep w = (Ok tt, w') ->
  exists pf pub edpub ms, contents w pk pf /\ readPublicKeyFile pf = Ok pub /\ pub_ToBox pub = Ok edpub /\
    full_pieces ms /\ concat ms = m /\ Z.of_nat (length ms) = (Z.of_nat (length m) + 16384) / 16385 /\
    let body := sealed_body C (box_precompute C edpub (firstn 32 (w_rng w))) (x25519_base C (firstn 32 (w_rng w))) ms in
    contents w' q (sealed_file body) /\
    Z.of_nat (length body) = 72 + Z.of_nat (length m) + 16 * ((Z.of_nat (length m) + 16384) / 16385).
Proof.
  intros LL Hn Cm Hm Hsz q Hq H.
  destruct (Seal_spec C pk mp ep w (Ok tt) w' H Hq) as (_ & _ & _ & S).
  { intros m' Cm'. rewrite (contents_fun _ _ _ _ Cm' Cm). exact Hsz. }
  destruct (S eq_refl) as (pf & pub & m' & body & a & b & Cp & Rp & Cm' & Sp & Fq & Es & _ & Nb).
  rewrite (contents_fun _ _ _ _ Cm' Cm) in *. rewrite (Nb Hn), app_nil_r in Es. subst a.
  destruct Sp as [(X & _)|(_ & edpub & ms & TB & Lr & Ln & _ & _ & Full & ->)]; [contradiction|].
  destruct (Full (no_faults_short _ Hn)) as [Hf Hc].
  exists pf, pub, edpub, ms. do 6 (split; [assumption|]). split; [eexists; exact Fq|].
  unfold sealed_body. rewrite app_length, sealed_header_length, boxes_length, Hc by (try exact LL; apply len_x25519; exact LL). lia.
Qed.

(* ---- C42 ---- *)
Lemma Open_in_place C sk p w r w' : Open C sk p p w = (r, w') ->
  r <> Ok tt /\ (w_fs w' = w_fs w \/ w_fs w' = fs_create (w_fs w) p 438).
Proof.
  intro H. rewrite Open_eq in H.
  match goal with |- ?G => assert (Early : forall e w1, only_reads w w1 -> (Err e, w1) = (r, w') -> G) end.
  { intros e w1 (O1 & _) E. injection E as <- <-. split; [discriminate|]. left. exact O1. }
  destruct (LoadPrivateKey sk w) as [r1 w1] eqn:E1. destruct (LoadPrivateKey_inv _ _ _ _ E1) as (-> & NP1 & L1).
  destruct r1 as [priv|e|]; [| |contradiction].
  2:{ exact (Early e (next w) (only_reads_next w) H). }
  destruct (L1 priv eq_refl) as (kf & Ck & Rk).
  destruct (open_read_spec p (next w)) as (r2 & w2 & E2 & O2 & N2 & D2). rewrite E2 in H.
  assert (Fr2 : only_reads w w2) by (eapply only_reads_trans; [apply only_reads_next|exact O2]).
  destruct D2 as [(d & -> & Cd & Hh)|(e & -> & _)]; [|exact (Early e w2 Fr2 H)].
  pose proof Cd as (mo & Fd). pose proof Fr2 as (F2f & F2r & F2t & F2b & F2l).
  assert (Fd2 : w_fs w2 p = Some (File d mo)) by (rewrite F2f; exact Fd).
  destruct (skipComment_file (length (w_fds (next w))) p d mo w2 Hh Fd2) as (r3 & w3 & E3 & O3 & N3 & C3). rewrite E3 in H.
  assert (Fr3 : only_reads w w3) by (eapply only_reads_trans; [exact Fr2|exact O3]).
  destruct C3 as [(c & t & off & -> & Hc & -> & Hh3 & Hs3)|(e & -> & _)]; [|exact (Early e w3 Fr3 H)].
  pose proof Fr3 as (F3f & _).
  destruct (create_file_spec p 438 w3) as (r4 & w4 & E4 & N4 & C4). rewrite E4 in H.
  destruct C4 as [(-> & -> & Hmp)|(e & -> & -> & _)]; [|exact (Early e (next w3) Fr3 H)].
  clear Early. set (w4 := do_create p 438 (next w3)) in *. unfold open_file in H.
  assert (W4f : w_fs w4 = fs_create (w_fs w) p 438) by (unfold w4; cbn; rewrite F3f; reflexivity).
  destruct (priv_ToBox C priv w4) as [[rb pp] w5] eqn:Eb.
  destruct (ToBox_spec C priv w4 rb pp w5 (readPrivateKeyFile_wf _ _ Rk) Eb) as (outs & B1 & B2 & B3 & B4 & B5 & B6 & B7).
  destruct rb as [edpriv|e|].
  - assert (Fe : w_fs w5 p = Some (File [] (file_mode (w_fs w) p 438))) by (rewrite B3, W4f, fs_create_same; reflexivity).
    assert (Hh5 : handle w5 (length (w_fds (next w))) p off) by (unfold handle; rewrite B4; exact Hh3).
    unfold open_body in H. rewrite header_nat_3 in H.
    destruct (file_decoder_spec _ p [] _ off 24 w5 Hh5 Fe) as (rr & w6 & E6 & O6 & _ & Cs). rewrite E6 in H.
    destruct O6 as (O6f & _). rewrite skipn_nil in Cs. cbn [no_lf filter] in Cs. rewrite firstn_nil in Cs.
    assert (Hfs : w_fs w6 = fs_create (w_fs w) p 438) by (rewrite O6f, B3, W4f; reflexivity).
    destruct Cs as [(off' & _ & _ & [(b & -> & ED)|(b & at_ & -> & _)])|(b & -> & _)].
    + vm_compute in ED. injection ED as <-. cbn in H. injection H as <- <-. split; [discriminate|right; exact Hfs].
    + injection H as <- <-. split; [discriminate|right; exact Hfs].
    + injection H as <- <-. split; [discriminate|right; exact Hfs].
  - injection H as <- <-. split; [discriminate|]. right. rewrite B3. exact W4f.
  - injection H as <- <-. split; [discriminate|]. right. rewrite B3. exact W4f.
Qed.

(* ---- which error a bad header gives ---- *)
Definition short_header (n : nat) : error :=
  EMsg (str "signify/crypto: couldn't read the full header (read " ++ decimal (Z.of_nat n) ++ str ")").
Definition bad_header : error := EMsg (str "signify/crypto: failed to authenticate the message header").

Lemma Open_header_error C sk ep mp w kf priv c t p : ep <> mp -> mp <> [] -> no_faults w ->
  contents w sk kf -> readPrivateKeyFile kf = Ok priv -> contents w ep (c ++ x0a :: t) -> lf_free c ->
  unlocked C priv (w_tty w) p ->
  let text := firstn header_chars (no_lf t) in
  (forall e, DecodeString text = Err e -> fst (Open C sk ep mp w) = Err e) /\
  (forall h, DecodeString text = Ok h -> length h <> 72%nat -> fst (Open C sk ep mp w) = Err (short_header (length h))) /\
  (forall h, DecodeString text = Ok h -> length h = 72%nat -> ~ authentic_header C (box_secret C (key p)) t h ->
     fst (Open C sk ep mp w) = Err bad_header).
Proof.
  intros Hne Hmp Hn Ck Rk Cd Hc U text.
  destruct (Open_reach C sk ep mp w kf priv c t Hmp Hn Ck Rk Cd Hc) as (fd & off & w4 & E & F4 & Hh & Hs & Tt & _ & N4 & _).
  rewrite E. unfold open_file. rewrite <- Tt in U.
  destruct (ToBox_runs C priv w4 p (readPrivateKeyFile_wf _ _ Rk) U) as (w5 & Eb). rewrite Eb.
  destruct (ToBox_spec C priv w4 _ p w5 (readPrivateKeyFile_wf _ _ Rk) Eb) as (outs & B1 & B2 & B3 & B4 & B5 & B6 & B7).
  pose proof Cd as (mo & Fd).
  assert (Fd5 : w_fs w5 ep = Some (File (c ++ x0a :: t) mo)) by (rewrite B3, F4, fs_create_other by exact Hne; exact Fd).
  assert (Hh5 : handle w5 fd ep off) by (unfold handle; rewrite B4; exact Hh).
  assert (N5 : no_faults w5) by (unfold no_faults; rewrite B5; exact N4).
  unfold open_body. rewrite header_nat_3.
  destruct (file_decoder_spec fd ep _ mo off 24 w5 Hh5 Fd5) as (rr & w6 & E6 & O6 & _ & Cs). rewrite E6, Hs in *.
  change (4 * 24)%nat with header_chars in Cs. fold text in Cs.
  destruct Cs as [(off' & _ & _ & [(b & -> & ED)|(b & at_ & -> & ED)])|(b & -> & X)]; [| |contradiction (X N5)].
  - rewrite ED. split; [discriminate|]. split; intros h Eh; apply Ok_inj in Eh; subst h.
    + intro Lb. destruct (Nat.eqb_spec (length b) (3 * 24)) as [X|_]; [contradiction|]. reflexivity.
    + intros Lb Na. destruct (Nat.eqb_spec (length b) (3 * 24)) as [_|X]; [|contradiction]. cbn [negb].
      destruct (auth_Verify C (skipn 40 b) (firstn 40 b) (box_precompute C (firstn 32 (skipn 8 b)) (box_secret C (key p)))) eqn:Ev; [|reflexivity].
      exfalso. apply Na. split; [exact ED|]. split; [exact Lb|]. apply bytes_eqb_eq in Ev.
      unfold slice. rewrite skipn_O. rewrite (firstn_all2 (n := 32)) by (rewrite skipn_length, Lb; lia). exact Ev.
  - rewrite ED. split; [intros e Ee; injection Ee as <-; reflexivity|]. split; discriminate.
Qed.

Lemma Open_empty_error C sk ep mp w p : ep <> mp -> mp <> [] -> no_faults w -> recipient C w sk p ->
  contents w ep (comment_text ++ [x0a]) -> fst (Open C sk ep mp w) = Err (short_header 0).
Proof.
  intros Hne Hmp Hn (kf & priv & Ck & Rk & U) Cd. destruct comment_split as (c & E & Hc).
  rewrite E, <- app_assoc in Cd. cbn [app] in Cd.
  refine (proj1 (proj2 (Open_header_error C sk ep mp w kf priv c [x0a] p Hne Hmp Hn Ck Rk Cd Hc U)) [] _ _); [vm_compute; reflexivity|discriminate].
Qed.

Lemma firstn_nth {A} i (l : list A) x : nth_error l i = Some x -> firstn (Datatypes.S i) l = firstn i l ++ [x].
Proof. revert l. induction i as [|i IH]; intros [|y l] H; try discriminate; cbn in H |- *. { injection H as ->. reflexivity. } f_equal. apply IH, H. Qed.

(* dropping whole chunks, or cutting the header, never goes unnoticed *)
Lemma Open_boundary C sk ep mp w w' p epub ms t rest j :
  LengthLaws C -> BoxTidy C -> ep <> mp -> recipient C w sk p ->
  let shared := box_precompute C epub (box_secret C (key p)) in
  length epub = 32%nat -> full_pieces ms -> Z.of_nat (length ms) < 2 ^ 64 ->
  spec_encoded (sealed_body C shared epub ms) = t ++ rest -> no_lf rest <> [] ->
  no_lf t = StdEncode (sealed_header C shared epub (Z.of_nat (length ms)) ++ boxes C shared 0 (firstn j ms)) ->
  contents w ep (comment_text ++ t) ->
  Open C sk ep mp w <> (Ok tt, w').
Proof.
  intros LL BT Hne Hrec shared Le Hf Hl E Hr Et Cd H.
  destruct (Open_truncated C sk ep mp w w' p epub ms t rest LL BT Hne Hrec Le Hf Hl E Hr Cd H) as (i & piece & c & m' & Hi & (Hb & y & Ey & Hy) & E2).
  fold shared in Hb, Ey, E2. rewrite Et in E2. apply StdEncode_inj in E2. apply app_inv_head in E2.
  (* the boxes of j whole pieces = the boxes of i whole pieces and a proper part of the next *)
  pose proof (len_box_seal C LL m' (nonce (Z.of_nat i)) shared) as Lc. rewrite <- Hb in Lc.
  assert (Lp : length (c ++ y) = (length piece + 16)%nat) by (rewrite <- Ey; apply len_box_seal, LL). rewrite app_length in Lp.
  assert (Ly : (1 <= length y)%nat) by (destruct y; [contradiction|cbn; lia]).
  apply (f_equal (@length byte)) in E2. rewrite app_length, !boxes_length in E2 by exact LL.
  assert (Hij : (i < length ms)%nat) by (apply nth_error_Some; rewrite Hi; discriminate).
  assert (Mono : forall a b, (a <= b)%nat -> (length (concat (firstn a ms)) <= length (concat (firstn b ms)))%nat).
  { intros a b Hab. rewrite <- (firstn_skipn a (firstn b ms)), firstn_firstn, Nat.min_l, concat_app, app_length by exact Hab. lia. }
  assert (Next : length (concat (firstn (Datatypes.S i) ms)) = (length (concat (firstn i ms)) + length piece)%nat).
  { rewrite (firstn_nth i ms piece Hi), concat_app, app_length. cbn [concat]. rewrite app_nil_r. reflexivity. }
  rewrite !firstn_length in E2.
  destruct (Nat.le_gt_cases j i) as [X|X].
  - pose proof (Mono j i X). lia.
  - pose proof (Mono (Datatypes.S i) j X). lia.
Qed.

(* ---- C40, C41 ---- *)
Lemma Seal_filled C pk mp ep w w' : let q := enc_path mp ep in q <> mp ->
  (forall m, contents w mp m -> Z.of_nat (length m) < 2 ^ 63) -> no_short w ->
  Seal C pk mp ep w = (Ok tt, w') ->
  exists pf pub m, contents w pk pf /\ readPublicKeyFile pf = Ok pub /\ contents w mp m /\
   (m = [] \/
    exists edpub ms a b, pub_ToBox pub = Ok edpub /\ full_pieces ms /\ concat ms = m /\
      contents w' q (comment_text ++ a) /\
      spec_encoded (sealed_body C (box_precompute C edpub (firstn 32 (w_rng w))) (x25519_base C (firstn 32 (w_rng w))) ms) = a ++ b /\
      (length b <= 5)%nat).
Proof.
  intros q Hq Hsz Hs H. destruct (Seal_spec C pk mp ep w (Ok tt) w' H Hq Hsz) as (_ & _ & _ & S).
  destruct (S eq_refl) as (pf & pub & m & body & a & b & Cp & Rp & Cm & Sp & Fq & Es & Lb & _).
  exists pf, pub, m. do 3 (split; [assumption|]).
  destruct Sp as [(X & _)|(_ & edpub & ms & TB & Lr & Ln & _ & _ & Full & ->)]; [left; exact X|right].
  destruct (Full Hs) as [Hf Hc]. exists edpub, ms, a, b. do 3 (split; [assumption|]). split; [eexists; exact Fq|]. auto.
Qed.

Lemma Seal_written C pk mp ep w w' : let q := enc_path mp ep in q <> mp ->
  (forall m, contents w mp m -> Z.of_nat (length m) < 2 ^ 63) ->
  Seal C pk mp ep w = (Ok tt, w') ->
  (forall x, x <> q -> w_fs w' x = w_fs w x) /\
  exists body a b, contents w' q (comment_text ++ a) /\ spec_encoded body = a ++ b /\ (length b <= 5)%nat /\
    exists pf pub m, contents w pk pf /\ readPublicKeyFile pf = Ok pub /\ contents w mp m /\
      ((m = [] /\ body = []) \/
       exists edpub ms, pub_ToBox pub = Ok edpub /\ is_prefix (concat ms) m /\
         Z.of_nat (length ms) = (Z.of_nat (length m) + 16384) / 16385 /\
         body = sealed_body C (box_precompute C edpub (firstn 32 (w_rng w))) (x25519_base C (firstn 32 (w_rng w))) ms).
Proof.
  intros q Hq Hsz H. destruct (Seal_spec C pk mp ep w (Ok tt) w' H Hq Hsz) as (Hx & _ & _ & S). split; [exact Hx|].
  destruct (S eq_refl) as (pf & pub & m & body & a & b & Cp & Rp & Cm & Sp & Fq & Es & Lb & _).
  exists body, a, b. split; [eexists; exact Fq|]. split; [exact Es|]. split; [exact Lb|].
  exists pf, pub, m. do 3 (split; [assumption|]).
  destruct Sp as [X|(_ & edpub & ms & TB & Lr & Ln & _ & Pr & _ & ->)]; [left; exact X|right]. exists edpub, ms. auto.
Qed.
