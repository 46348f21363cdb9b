(* Two signatures under one nonce give the secret scalar. *)
From Verif Require Export SpecLeak EdSigFacts OrderPrime Torn.
Local Open Scope Z_scope.

Lemma rfc_scalar_unit s : ~ (ell | rfc_scalar s).
Proof.
  intro D. unfold rfc_scalar in D. set (y := le_val s mod 2 ^ 254 / 8) in *.
  assert (Y : 0 <= y < 2 ^ 251).
  { unfold y. pose proof (Z.mod_pos_bound (le_val s) (2 ^ 254) eq_refl) as M. split; [apply Z.div_pos; lia|].
    apply Z.div_lt_upper_bound; [lia|]. change (8 * 2 ^ 251) with (2 ^ 254). lia. }
  clearbody y. replace (8 * y + 2 ^ 254) with (8 * (y + 2 ^ 251)) in D by ring.
  apply Gauss in D.
  - apply Z.divide_pos_le in D; [|lia]. assert (2 ^ 252 < ell) by reflexivity. lia.
  - apply Zgcd_1_rel_prime. reflexivity.
Qed.

Lemma mod_eq_divide a b n : 0 < n -> (a mod n = b mod n <-> (n | a - b)).
Proof.
  intro H. split.
  - intro E. apply Z.mod_divide; [lia|]. rewrite Zminus_mod, E, Z.sub_diag. reflexivity.
  - intros (c & E). replace a with (b + c * n) by lia. apply Z.mod_add. lia.
Qed.

Lemma inverse_ell d : ~ (ell | d) -> (d * powm (d mod ell) (ell - 2) ell) mod ell = 1.
Proof.
  intro H. rewrite powm_ok by exact ell_pos.
  rewrite pow_mod_l by exact ell_pos. rewrite Z.mul_mod_idemp_r by discriminate.
  replace (d * d ^ (ell - 2)) with (d ^ (ell - 1)).
  - apply fermat; [exact prime_ell|exact H].
  - replace (ell - 1) with (Z.succ (ell - 2)) by lia. rewrite Z.pow_succ_r; [reflexivity|]. pose proof ell_pos. discriminate.
Qed.
Lemma quotient_mod n x d a i : 0 < n -> x mod n = (d * a) mod n -> (d * i) mod n = 1 -> (x * i) mod n = a mod n.
Proof.
  intros H E I. rewrite Z.mul_mod, E, <- Z.mul_mod by lia. replace (d * a * i) with (a * (d * i)) by ring.
  rewrite <- Z.mul_mod_idemp_r, I, Z.mul_1_r by lia. reflexivity.
Qed.

Lemma point_of_unique s P Q : point_of s P -> point_of s Q -> P = Q.
Proof.
  intros (_ & O1 & Y1 & S1) (_ & O2 & Y2 & S2). destruct P as [x1 y1], Q as [x2 y2]. cbn [fst snd] in *. subst. unfold on in O1, O2. cbn [fst snd] in O1, O2.
  destruct (same_y _ _ _ O1 O2) as [-> | E]; [reflexivity|].
  destruct (F_eq_dec x2 F0) as [Z0|NZ]; [rewrite E, Z0, F_opp_0; reflexivity|].
  assert (N1 : x1 <> F0) by (rewrite E; intro Q; apply NZ, F_opp_inj; exact Q).
  pose proof (S1 N1) as P1. rewrite E, (parity_opp _ NZ), (S2 NZ) in P1. pose proof (parity_01 x2) as P01. rewrite (S2 NZ) in P01. lia.
Qed.

Section leak.
  Variable hash : bytes -> bytes.
  Hypothesis hash64 : forall m, length (hash m) = 64%nat.

  Lemma lib_Sign_with seed X m : length seed = 32%nat -> lib_Sign hash (seed ++ X) m = Ed25519_sign_with hash seed X m.
  Proof.
    intro L. unfold lib_Sign, Ed25519_sign_with, challenge. cbv zeta.
    rewrite firstn_app, L, Nat.sub_diag, firstn_O, app_nil_r, firstn_all2 by lia.
    rewrite skipn_app, L, Nat.sub_diag, (skipn_all2 seed) by lia. cbn [app skipn].
    rewrite (mult_reduced hash hash64). f_equal. apply le_bytes_unique; [apply ScMulAdd_length|].
    destruct (expanded_value (hash seed) (hash64 seed)) as (L32 & V & _).
    rewrite ScMulAdd_ok by (try apply ScReduce_length; exact L32).
    rewrite !ScReduce_ok, V by apply hash64. rewrite Z.add_comm.
    rewrite Z.add_mod_idemp_l by discriminate. rewrite <- Z.add_mod_idemp_r by discriminate.
    rewrite Z.mul_mod_idemp_l by discriminate. rewrite Z.add_mod_idemp_r by discriminate. reflexivity.
  Qed.

  Lemma split_sig R z : length R = 32%nat -> 0 <= z < ell -> firstn 32 (R ++ le_bytes 32 z) = R /\ le_val (skipn 32 (R ++ le_bytes 32 z)) = z.
  Proof.
    intros L B. rewrite skipn_app, firstn_app, L, Nat.sub_diag, (skipn_all2 R), firstn_all2 by lia. cbn [app skipn firstn].
    split; [apply app_nil_r|]. apply le_val_bytes. pose proof ell_255. change (256 ^ Z.of_nat 32) with (2 ^ 256). lia.
  Qed.

  Lemma recovered_ok seed X X' m : let sg := Ed25519_sign_with hash seed X m in
    challenge hash (firstn 32 sg) X m mod ell <> challenge hash (firstn 32 sg) X' m mod ell ->
    recovered hash X X' m sg (Ed25519_sign_with hash seed X' m) = rfc_scalar (firstn 32 (hash seed)) mod ell.
  Proof.
    cbv zeta. unfold recovered, Ed25519_sign_with. cbv zeta. set (s := rfc_scalar _). set (r := le_val (hash (skipn 32 _ ++ m))). set (R := point_bytes _).
    assert (LR : length R = 32%nat) by apply point_bytes_length.
    set (h := challenge hash R X m). set (h' := challenge hash R X' m).
    destruct (split_sig R ((r + h * s) mod ell) LR (Z.mod_pos_bound _ _ ell_pos)) as [F V].
    destruct (split_sig R ((r + h' * s) mod ell) LR (Z.mod_pos_bound _ _ ell_pos)) as [_ V'].
    rewrite F, V, V'. fold h h'. intro N.
    apply (quotient_mod ell _ (h - h') s); [exact ell_pos| |].
    - rewrite Zminus_mod_idemp_l, Zminus_mod_idemp_r. f_equal. ring.
    - apply inverse_ell. intro D. apply N. apply mod_eq_divide; [exact ell_pos|exact D].
  Qed.

  Lemma equation r h s : zmul ((r + h * s) mod ell) pB = padd (zmul r pB) (zmul (h mod ell) (zmul s pB)).
  Proof.
    rewrite zmul_B_mod, zmul_add, zmul_mul by exact on_pB. f_equal. apply zmul_B_eq.
    rewrite Z.mul_mod_idemp_l by discriminate. reflexivity.
  Qed.

  Lemma forged_ok seed a r m : a mod ell = rfc_scalar (firstn 32 (hash seed)) mod ell ->
    Ed25519_accepts hash (Ed25519_public hash seed) m (forged hash (Ed25519_public hash seed) a r m).
  Proof.
    intro E. unfold forged. cbv zeta. set (A := Ed25519_public hash seed). set (R := point_bytes (zmul r pB)). set (h := challenge hash R A m).
    assert (LR : length R = 32%nat) by apply point_bytes_length.
    destruct (split_sig R ((r + h * a) mod ell) LR (Z.mod_pos_bound _ _ ell_pos)) as [F V].
    unfold Ed25519_accepts. rewrite F, V. split; [rewrite app_length, LR, length_le_bytes; reflexivity|].
    split; [apply Z.mod_pos_bound; exact ell_pos|].
    exists (zmul (rfc_scalar (firstn 32 (hash seed))) pB), (zmul r pB). split; [apply public_point|].
    split; [apply on_zmul; exact on_pB|]. split; [reflexivity|].
    rewrite equation. fold (challenge hash R A m). fold h. f_equal. f_equal. apply zmul_B_eq. exact E.
  Qed.

  (* with another second half the signature is worthless to the owner *)
  Lemma sign_with_accepted seed X m : let sg := Ed25519_sign_with hash seed X m in let A := Ed25519_public hash seed in
    Ed25519_accepts hash A m sg <-> challenge hash (firstn 32 sg) X m mod ell = challenge hash (firstn 32 sg) A m mod ell.
  Proof.
    cbv zeta. unfold Ed25519_sign_with. cbv zeta. set (A := Ed25519_public hash seed). set (s := rfc_scalar _). set (r := le_val (hash (skipn 32 _ ++ m))). set (R := point_bytes _).
    assert (LR : length R = 32%nat) by apply point_bytes_length.
    set (h := challenge hash R X m).
    destruct (split_sig R ((r + h * s) mod ell) LR (Z.mod_pos_bound _ _ ell_pos)) as [F V].
    unfold Ed25519_accepts. rewrite F, V. fold (challenge hash R A m). set (h' := challenge hash R A m). fold h.
    assert (OA : on (zmul s pB)) by (apply on_zmul; exact on_pB).
    assert (O1 : on (zmul r pB)) by (apply on_zmul; exact on_pB).
    pose proof (public_point hash seed) as PA. fold A s in PA. split.
    - intros (_ & _ & P & Q & PP & OQ & EQ & G).
      assert (Q = zmul r pB) as -> by (apply point_bytes_inj; [exact OQ|exact O1|symmetry; exact EQ]).
      assert (P = zmul s pB) as -> by (apply (point_of_unique A); assumption).
      rewrite equation in G.
      rewrite !zmul_mul, <- !zmul_add in G by exact on_pB. apply zmul_B_eq in G.
      apply mod_eq_divide; [exact ell_pos|]. apply mod_eq_divide in G; [|exact ell_pos].
      replace (r + h mod ell * s - (r + h' mod ell * s)) with (s * (h mod ell - h' mod ell)) in G by ring.
      apply Gauss in G.
      + apply mod_eq_divide in G; [|exact ell_pos]. apply mod_eq_divide; [exact ell_pos|]. rewrite !Z.mod_mod in G by discriminate. exact G.
      + apply prime_rel_prime; [exact prime_ell|apply rfc_scalar_unit].
    - intro E. split; [rewrite app_length, LR, length_le_bytes; reflexivity|]. split; [apply Z.mod_pos_bound; exact ell_pos|].
      exists (zmul s pB), (zmul r pB). split; [exact PA|]. split; [exact O1|]. split; [reflexivity|]. rewrite equation, E. reflexivity.
  Qed.
End leak.

(* ---- psignify with a library composed of the package's routines ---- *)
Definition composed (C : Crypto) : Prop :=
  (forall k m, ed_sign C k m = lib_Sign (sha512 C) k m) /\ (forall seed, ed_public C seed = lib_Public (sha512 C) seed).

Lemma signed_contents C k mp s v v1 kf p m sf sg : LengthLaws C -> plain_pub_name k -> Sign C k mp s v = (Ok tt, v1) ->
  contents v k kf -> readPrivateKeyFile kf = Ok p -> IsEncrypted p = false -> contents v mp m ->
  contents v1 (sigPathOf mp s) sf -> readSignatureFile sf = Ok sg -> sg = Sig (keyAlgo p) (keyNum p) (ed_sign C (key p) m).
Proof.
  intros LL (n & Hn & Hf & Hl) H Ck Rk E Cm Cs Rs.
  destruct (Sign_success C k mp s v v1 n LL Hn H) as (p' & m' & Hr & Fs).
  pose proof (sign_ready_wf _ _ _ _ _ _ Hr) as (B1 & B2 & B3 & B4 & B5 & B6 & B7).
  destruct Cs as (mo & Cs). rewrite Fs in Cs. injection Cs as <- _.
  rewrite signature_file_reads in Rs; try assumption; [|apply len_ed_sign; assumption]. injection Rs as <-.
  destruct Hr as (kf' & p0 & Ck' & Rk' & Cm' & D). rewrite (contents_fun _ _ _ _ Ck' Ck) in Rk'. rewrite Rk in Rk'. injection Rk' as <-.
  rewrite (contents_fun _ _ _ _ Cm' Cm). destruct D as [[_ ->]|[X _]]; [reflexivity|congruence].
Qed.

Lemma cut_key seed A n : length seed = 32%nat -> length A = 32%nat -> (32 <= n)%nat ->
  zero_extend 64 (firstn n (seed ++ A)) = seed ++ zero_extend 32 (firstn (n - 32) A).
Proof.
  intros L LA H. rewrite firstn_app, L, (firstn_all2 seed) by lia. unfold zero_extend.
  rewrite firstn_app, L, (firstn_all2 seed) by lia. rewrite app_length, L, <- app_assoc. f_equal; f_equal; lia.
Qed.

Section api.
  Variables (C : Crypto) (k : path) (opts : option Z) (w w1 v : world) (K mp s : path) (v1 v' : world) (K' mp' s' : path) (v1' : world)
    (m kf pf sf sf' : bytes) (pk : Public) (sg sg' : Signature) (j : nat).
  Hypothesis LL : LengthLaws C.
  Hypothesis CO : composed C.
  Hypothesis H64 : forall x, length (sha512 C x) = 64%nat.
  Hypothesis G : GenerateKey C k [] opts w = (Ok tt, w1).
  Hypothesis Ck : contents w1 (sec_path k) kf.
  Hypothesis Cp : contents w1 (pub_path k) pf.
  Hypothesis Rp : readPublicKeyFile pf = Ok pk.
  (* signed with the key *)
  Hypothesis NK : plain_pub_name K.
  Hypothesis C1 : contents v K kf.
  Hypothesis M1 : contents v mp m.
  Hypothesis S1 : Sign C K mp s v = (Ok tt, v1).
  Hypothesis F1 : contents v1 (sigPathOf mp s) sf.
  Hypothesis R1 : readSignatureFile sf = Ok sg.
  (* signed with what is left of it *)
  Hypothesis NK' : plain_pub_name K'.
  Hypothesis J : (24 <= j <= 34)%nat.
  Hypothesis C2 : contents v' K' (firstn (39 + 4 * j) kf).
  Hypothesis M2 : contents v' mp' m.
  Hypothesis S2 : Sign C K' mp' s' v' = (Ok tt, v1').
  Hypothesis F2 : contents v1' (sigPathOf mp' s') sf'.
  Hypothesis R2 : readSignatureFile sf' = Ok sg'.

  Lemma two_signatures : let seed := slice 0 32 (w_rng w) in length seed = 32%nat /\ p_key pk = Ed25519_public (sha512 C) seed /\ p_keyAlgo pk = str "Ed" /\ length (p_keyNum pk) = 8%nat /\
    sig sg = Ed25519_sign_with (sha512 C) seed (p_key pk) m /\ sig sg' = Ed25519_sign_with (sha512 C) seed (rest_of j (p_key pk)) m.
  Proof.
    destruct (GenerateKey_success _ _ _ _ _ _ LL G) as (priv & pub & w0 & GK & Fs & Fp & Rs & Rq).
    destruct (generate_rounds _ _ _ _ _ _ _ LL GK) as [_ Rd2]. destruct (Rd2 eq_refl) as [_ Rd].
    destruct (generate_pair _ _ _ _ _ _ _ LL GK) as [[(A1 & A2 & A3) (N1 & N2) _ P1 _ K1 _] _].
    destruct (generate_wf _ _ _ _ _ _ _ LL GK) as [Wp Wq].
    pose proof (generate_inv _ _ _ _ _ _ LL GK) as [Lrng _].
    assert (kf = sec_file priv) as -> by (destruct Ck as (mo & X); rewrite Fs in X; injection X as <- _; reflexivity).
    assert (pf = pub_file pub) as -> by (destruct Cp as (mo & X); rewrite Fp in X; injection X as <- _; reflexivity).
    assert (pk = pub) as -> by congruence. specialize (K1 eq_refl).
    intro seed. fold seed in P1, K1. assert (L : length seed = 32%nat) by (unfold seed, slice; rewrite firstn_length, skipn_length; lia).
    assert (LA : length (p_key pub) = 32%nat) by (rewrite P1; apply (len_ed_public C LL); exact L).
    split; [exact L|]. split; [rewrite P1, (proj2 CO); apply lib_Public_ok; exact H64|]. split; [exact A2|]. split; [rewrite N2; apply Wp|].
    assert (E0 : IsEncrypted priv = false) by exact Rd.
    pose proof (signed_contents C K mp s v v1 _ priv m sf sg LL NK S1 C1 Rs E0 M1 F1 R1) as X1.
    assert (T : readPrivateKeyFile (firstn (39 + 4 * j) (sec_file priv)) = Ok (cut_private priv (3 * j - 40))).
    { apply torn_secret; [exact Wp|]. exists j. split; [lia|]. split; [|reflexivity]. unfold groups_left. change ((104 + 2) / 3)%nat with 35%nat. split; [lia|]. left. lia. }
    pose proof (signed_contents C K' mp' s' v' v1' _ _ m sf' sg' LL NK' S2 C2 T E0 M2 F2 R2) as X2.
    rewrite X1, X2. cbn [sig cut_private key]. rewrite !(proj1 CO), K1. split; [apply lib_Sign_with; assumption|].
    rewrite cut_key by (assumption || lia). unfold rest_of. replace (3 * j - 40 - 32)%nat with (3 * j - 72)%nat by lia. apply lib_Sign_with; assumption.
  Qed.

  Lemma torn_forges r name m' a b c u :
    challenge (sha512 C) (firstn 32 (sig sg)) (p_key pk) m mod ell <> challenge (sha512 C) (firstn 32 (sig sg)) (rest_of j (p_key pk)) m mod ell ->
    conforms_signatures C -> lf_free name -> Z.of_nat (length name) <= 65000 ->
    contents u a pf -> contents u b m' ->
    contents u (sigPathOf b c) (signature_file name (str "Ed") (p_keyNum pk)
      (forged (sha512 C) (p_key pk) (recovered (sha512 C) (p_key pk) (rest_of j (p_key pk)) m (sig sg) (sig sg')) r m')) ->
    undisturbed 3 u -> exists u', Verify C a b c u = (Ok tt, u').
  Proof.
    intros N CS Hf Hl Ca Cb Cc U. pose (seed := slice 0 32 (w_rng w)). destruct two_signatures as (L & EA & EG & LN & ES & ES'). fold seed in L, EA, ES, ES'.
    pose proof (recovered_ok (sha512 C) seed (p_key pk) (rest_of j (p_key pk)) m) as RO. cbv zeta in RO. rewrite <- ES, <- ES' in RO. specialize (RO N).
    rewrite RO in Cc. apply Verify_rfc_iff; [exact CS|]. split; [exact U|].
    set (fg := forged _ _ _ _ _) in Cc.
    assert (AC : Ed25519_accepts (sha512 C) (p_key pk) m' fg).
    { unfold fg. rewrite EA. apply forged_ok. apply Z.mod_mod. discriminate. }
    exists pf, m', (signature_file name (str "Ed") (p_keyNum pk) fg), pk, (Sig (str "Ed") (p_keyNum pk) fg).
    split; [exact Ca|]. split; [exact Cb|]. split; [exact Cc|]. split; [exact Rp|].
    split; [apply signature_file_reads; try assumption; [reflexivity|apply AC]|]. cbn [pkAlgo s_keyNum sig]. auto 10.
  Qed.

  Lemma torn_worthless : Ed25519_accepts (sha512 C) (p_key pk) m (sig sg') <->
    challenge (sha512 C) (firstn 32 (sig sg')) (rest_of j (p_key pk)) m mod ell = challenge (sha512 C) (firstn 32 (sig sg')) (p_key pk) m mod ell.
  Proof.
    pose (seed := slice 0 32 (w_rng w)). destruct two_signatures as (L & EA & EG & LN & ES & ES'). fold seed in L, EA, ES, ES'. rewrite ES', EA. apply sign_with_accepted.
  Qed.
End api.

(* ---- a signature cut in its second half ---- *)
Lemma cut_accepted hash pub m sg n : Ed25519_accepts hash pub m sg -> (32 <= n)%nat ->
  Ed25519_accepts hash pub m (zero_extend 64 (firstn n sg)) -> zero_extend 64 (firstn n sg) = sg.
Proof.
  intros A Hn A'. pose proof (proj1 A) as L.
  assert (E : zero_extend 64 (firstn n sg) = firstn 32 sg ++ zero_extend 32 (firstn (n - 32) (skipn 32 sg))).
  { rewrite <- (firstn_skipn 32 sg) at 1. apply cut_key; [|rewrite skipn_length; lia|exact Hn]. apply firstn_length_le. lia. }
  rewrite E in A' |- *. rewrite <- (firstn_skipn 32 sg) in A at 1. rewrite <- (firstn_skipn 32 sg) at 3. f_equal.
  apply (accepted_unique hash pub m (firstn 32 sg)); [apply firstn_length_le; lia|exact A'|exact A].
Qed.
Lemma cut_acceptable C pk m sg j : conforms_signatures C -> length (p_key pk) = 32%nat -> (14 <= j)%nat ->
  acceptable C pk m sg -> acceptable C pk m (cut_signature sg (3 * j - 10)) -> cut_signature sg (3 * j - 10) = sg.
Proof.
  intros [_ CV] L J (A1 & A2 & A3 & A4) (_ & _ & _ & B4). destruct sg as [al nu sg]. unfold cut_signature in *. cbn [pkAlgo s_keyNum sig] in *.
  f_equal. apply CV in A4; [|exact L]. apply CV in B4; [|exact L]. refine (cut_accepted _ _ _ _ _ A4 _ B4). lia.
Qed.
