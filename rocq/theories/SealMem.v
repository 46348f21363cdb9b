(* seal and open between an arbitrary reader and a buffer: proofs. *)
From Verif Require Import SpecMem SealOpen SealFacts OpenFacts RoundTrip.
Local Open Scope Z_scope.

(* box.GenerateKey draws epriv *)
Definition drawing {S} (epriv : bytes) : nat -> MS S bytes := fun _ s => (Ok epriv, s).
(* seal (crypto.go:53-118) and the part of open after ToBox (crypto.go:165-207) from any reader to a bytes.Buffer *)
Definition mem_seal {A} (C : Crypto) (epriv : bytes) (pub : Public) (rd : Reader A) (len : Z) (a : A) (out : bytes) : res unit * (A * bytes) :=
  seal C (A * bytes) (drawing epriv) pub (on_left rd) len (on_right buffer_write) (a, out).
Definition mem_open {A} (C : Crypto) (edpriv : bytes) (rd : Reader A) (a : A) (out : bytes) : res unit * (A * bytes) :=
  open_body C (A * bytes) edpriv (on_left rd) (on_right buffer_write) (a, out).

(* how a reader stopped a run *)
Definition stopped {A} (rd : Reader A) (n : nat) (a : A) (r : res unit) (a' : A) : Prop :=
  (exists b e, rd n a = (RRet b (Some e), a') /\ r = Err e) \/ (rd n a = (RPanic, a') /\ r = Panic).

Section Any.
Variable A : Type.
Variable C : Crypto.
Variable rd : Reader A.

Lemma seal_iter shared k : forall i a out, 0 <= i -> i + Z.of_nat k < 2 ^ 192 ->
  exists ms a1, delivered rd chunk_nat a ms a1 /\
  ((length ms = k /\ exists n, iter_loop k (seal_step C (A * bytes) shared (on_left rd) (on_right buffer_write)) i (nonce i, (a, out)) =
      inl (n, (a1, out ++ boxes C shared i ms))) \/
   ((length ms < k)%nat /\ exists r a', stopped rd chunk_nat a1 r a' /\
     iter_loop k (seal_step C (A * bytes) shared (on_left rd) (on_right buffer_write)) i (nonce i, (a, out)) =
      inr (r, (a', out ++ boxes C shared i ms)))).
Proof.
  induction k as [|k IH]; intros i a out Hi Hk.
  - exists [], a. split; [constructor|]. left. split; [reflexivity|]. eexists. cbn [iter_loop boxes]. rewrite app_nil_r. reflexivity.
  - cbn [iter_loop]. unfold seal_step at 1 3. unfold on_left at 1 3. cbn [fst snd]. destruct (rd chunk_nat a) as [[p [e|]|] a1] eqn:E.
    + exists [], a. split; [constructor|]. right. split; [cbn; lia|]. exists (Err e), a1. split; [left; exists p, e; split; [exact E|reflexivity]|].
      cbn [boxes]. rewrite app_nil_r. reflexivity.
    + unfold on_right at 1 3. cbn [fst snd buffer_write]. rewrite incrementNonce_nonce by lia.
      destruct (IH (i + 1) a1 (out ++ box_seal C p (nonce i) shared) ltac:(lia) ltac:(lia)) as (ms & a2 & D & X).
      exists (p :: ms), a2. split; [econstructor; [exact E|exact D]|]. cbn [boxes length]. rewrite app_assoc.
      destruct X as [[L (n & X)]|[L X]]; [left; split; [lia|exists n; exact X]|right; split; [lia|exact X]].
    + exists [], a. split; [constructor|]. right. split; [cbn; lia|]. exists Panic, a1. split; [right; split; [exact E|reflexivity]|].
      cbn [boxes]. rewrite app_nil_r. reflexivity.
Qed.

Lemma seal_any epriv pub edpub len a out : pub_ToBox pub = Ok edpub -> 0 < len < 2 ^ 63 ->
  let shared := box_precompute C edpub epriv in let n := (len + 16384) / 16385 in
  exists ms a1 r a', delivered rd (Z.to_nat 16385) a ms a1 /\
    mem_seal C epriv pub rd len a out = (r, (a', out ++ sealed_header C shared (x25519_base C epriv) n ++ boxes C shared 0 ms)) /\
    ((r = Ok tt /\ Z.of_nat (length ms) = n /\ a' = a1) \/ (Z.of_nat (length ms) < n /\ stopped rd (Z.to_nat 16385) a1 r a')).
Proof.
  intros TB L shared n. unfold mem_seal, seal. destruct (Z.eqb_spec len 0) as [X|_]; [lia|]. rewrite TB. cbn [drawing]. cbv zeta. fold shared.
  unfold on_right at 1. cbn [fst snd buffer_write]. rewrite chunksFor_ceil by lia. fold n. rewrite for_loop_iter, zeroNonce_eq, sealHeader_eq.
  pose proof (ceil_bound len ltac:(lia)) as B. fold n in B.
  destruct (seal_iter shared (Z.to_nat n) 0 a (out ++ sealed_header C shared (x25519_base C epriv) n) ltac:(lia) ltac:(lia)) as (ms & a1 & D & X).
  destruct X as [[Lm (k & X)]|[Lm (r & a' & St & X)]]; rewrite X.
  - exists ms, a1, (Ok tt), a1. split; [exact D|]. split; [rewrite app_assoc; reflexivity|]. left. split; [reflexivity|]. split; [lia|reflexivity].
  - exists ms, a1, r, a'. split; [exact D|]. split; [rewrite app_assoc; reflexivity|]. right. split; [lia|exact St].
Qed.

Lemma delivered_fun n a ps1 b1 : delivered rd n a ps1 b1 -> forall ps2 b2, delivered rd n a ps2 b2 -> length ps1 = length ps2 -> ps1 = ps2 /\ b1 = b2.
Proof.
  induction 1 as [a|a p a1 ps a2 E D IH]; intros ps2 b2 D2 L; inversion D2 as [|? q c1 qs c2 E2 D3]; subst; try discriminate L; [split; reflexivity|].
  rewrite E in E2. injection E2 as <- <-. destruct (IH _ _ D3 ltac:(cbn in L; lia)) as [-> ->]. split; reflexivity.
Qed.

Lemma open_iter shared k : BoxTidy C -> BoxCorrect C -> forall i a out, 0 <= i -> i + Z.of_nat k < 2 ^ 192 ->
  exists cs ms a1, delivered rd sealed_nat a cs a1 /\ boxed C shared i cs ms /\
  ((length cs = k /\ exists n, iter_loop k (open_step C (A * bytes) shared (on_left rd) (on_right buffer_write)) i (nonce i, (a, out)) =
      inl (n, (a1, out ++ concat ms))) \/
   ((length cs < k)%nat /\ exists r a',
     (stopped rd sealed_nat a1 r a' \/
      exists c, rd sealed_nat a1 = (RRet c None, a') /\ (forall m, c <> box_seal C m (nonce (i + Z.of_nat (length cs))) shared) /\ r = Err (EChunk (i + Z.of_nat (length cs)))) /\
     iter_loop k (open_step C (A * bytes) shared (on_left rd) (on_right buffer_write)) i (nonce i, (a, out)) = inr (r, (a', out ++ concat ms)))).
Proof.
  intros BT BC. induction k as [|k IH]; intros i a out Hi Hk.
  - exists [], [], a. split; [constructor|]. split; [constructor|]. left. split; [reflexivity|]. eexists. cbn [iter_loop concat]. rewrite app_nil_r. reflexivity.
  - cbn [iter_loop]. unfold open_step at 1 3. unfold on_left at 1 3. cbn [fst snd]. destruct (rd sealed_nat a) as [[c [e|]|] a1] eqn:E.
    + exists [], [], a. split; [constructor|]. split; [constructor|]. right. split; [cbn; lia|]. exists (Err e), a1. split; [left; left; exists c, e; split; [exact E|reflexivity]|].
      cbn [concat]. rewrite app_nil_r. reflexivity.
    + destruct (box_open C c (nonce i) shared) as [m|] eqn:Eb.
      * apply BT in Eb. unfold on_right at 1 3. cbn [fst snd buffer_write]. rewrite incrementNonce_nonce by lia.
        destruct (IH (i + 1) a1 (out ++ m) ltac:(lia) ltac:(lia)) as (cs & ms & a2 & D & Bx & X).
        exists (c :: cs), (m :: ms), a2. split; [econstructor; [exact E|exact D]|]. split; [rewrite Eb; constructor; exact Bx|].
        cbn [concat length]. rewrite app_assoc. replace (i + Z.of_nat (S (length cs))) with (i + 1 + Z.of_nat (length cs)) by lia.
        destruct X as [[L (n & X)]|[L X]]; [left; split; [lia|exists n; exact X]|right; split; [lia|exact X]].
      * exists [], [], a. split; [constructor|]. split; [constructor|]. right. split; [cbn; lia|]. exists (Err (EChunk i)), a1.
        cbn [length concat Z.of_nat]. rewrite Z.add_0_r, app_nil_r. split; [|reflexivity]. right. exists c. split; [exact E|]. split; [|reflexivity].
        intros m ->. rewrite BC in Eb. discriminate.
    + exists [], [], a. split; [constructor|]. split; [constructor|]. right. split; [cbn; lia|]. exists Panic, a1. split; [left; right; split; [exact E|reflexivity]|].
      cbn [concat]. rewrite app_nil_r. reflexivity.
Qed.

Lemma open_any edpriv a out r a' out' : BoxTidy C -> BoxCorrect C -> mem_open C edpriv rd a out = (r, (a', out')) ->
  (out' = out /\ stopped rd 72 a r a') \/
  exists h a0, rd 72%nat a = (RRet h None, a0) /\
  ((length h <> 72%nat /\ r = Err (short_header (length h)) /\ a' = a0 /\ out' = out) \/
   (length h = 72%nat /\
    ((skipn 40 h <> auth_sum C (firstn 40 h) (shared_of C edpriv h) /\ r = Err bad_header /\ a' = a0 /\ out' = out) \/
     (skipn 40 h = auth_sum C (firstn 40 h) (shared_of C edpriv h) /\
      exists cs ms a1, delivered rd (Z.to_nat 16401) a0 cs a1 /\ boxed C (shared_of C edpriv h) 0 cs ms /\ out' = out ++ concat ms /\
      ((r = Ok tt /\ Z.of_nat (length cs) = count_of h /\ a' = a1) \/
       (Z.of_nat (length cs) < count_of h /\
        (stopped rd (Z.to_nat 16401) a1 r a' \/
         exists c, rd (Z.to_nat 16401) a1 = (RRet c None, a') /\ (forall m, c <> box_seal C m (nonce (Z.of_nat (length cs))) (shared_of C edpriv h)) /\
           r = Err (EChunk (Z.of_nat (length cs)))))))))).
Proof.
  intros BT BC H. unfold mem_open, open_body in H. unfold on_left at 1 in H. cbn [fst snd] in H. change header_nat with 72%nat in H.
  destruct (rd 72%nat a) as [[h [e|]|] a0] eqn:E.
  - injection H as <- <- <-. left. split; [reflexivity|]. left. exists h, e. split; [exact E|reflexivity].
  - right. exists h, a0. split; [reflexivity|]. destruct (Nat.eqb_spec (length h) 72) as [Lh|Lh]; cbn [negb] in H.
    + right. split; [exact Lh|]. cbv zeta in H. assert (Es : firstn 32 (skipn 8 h) = slice 8 32 h) by reflexivity. rewrite Es in H. fold (shared_of C edpriv h) in H.
      set (sh := shared_of C edpriv h) in *. unfold auth_Verify in H. destruct (bytes_eqb (skipn 40 h) (auth_sum C (firstn 40 h) sh)) eqn:Ea.
      * apply bytes_eqb_eq in Ea. right. split; [exact Ea|]. cbn [negb] in H. rewrite for_loop_iter, zeroNonce_eq in H.
        change (be_decode (firstn 8 h)) with (count_of h) in H. pose proof (count_range h) as B.
        destruct (open_iter sh (Z.to_nat (count_of h)) BT BC 0 a0 out ltac:(lia) ltac:(lia)) as (cs & ms & a1 & D & Bx & X).
        exists cs, ms, a1. split; [exact D|]. split; [exact Bx|]. destruct X as [[Lc (n & X)]|[Lc (r' & a2 & St & X)]]; rewrite X in H; injection H as <- <- <-.
        -- split; [reflexivity|]. left. split; [reflexivity|]. split; [lia|reflexivity].
        -- split; [reflexivity|]. right. split; [lia|]. rewrite !Z.add_0_l in St. exact St.
      * left. split; [intro X; rewrite X, bytes_eqb_refl in Ea; discriminate|]. cbn [negb] in H. injection H as <- <- <-. repeat split; reflexivity.
    + left. split; [exact Lh|]. injection H as <- <- <-. repeat split; reflexivity.
  - injection H as <- <- <-. left. split; [reflexivity|]. right. split; [exact E|reflexivity].
Qed.
End Any.

(* open (crypto.go:159-208): ToBox, then open_body *)
Definition mem_open_with {A} (C : Crypto) (priv : Private) (rd : Reader A) (a : A) (out : bytes) (w : world) : res unit * (A * bytes) * world :=
  match priv_ToBox C priv w with
  | ((Err e, _), w) => (Err e, (a, out), w)
  | ((Panic, _), w) => (Panic, (a, out), w)
  | ((Ok edpriv, _), w) => (mem_open C edpriv rd a out, w)
  end.

(* ---- a bytes.Buffer on both sides ---- *)
Lemma mem_read_app n p r : p <> [] -> (length p = n \/ (r = [] /\ (length p <= n)%nat)) -> mem_read n (p ++ r) = (RRet p None, r).
Proof.
  intros Hp H. assert (E : firstn n (p ++ r) = p /\ skipn n (p ++ r) = r).
  { destruct H as [<- | [-> H]]; [split; [apply firstn_exact|apply skipn_exact]; reflexivity|]. rewrite app_nil_r. split; [apply firstn_all2|apply skipn_all2]; exact H. }
  destruct E as [E1 E2]. destruct p as [|c p]; [contradiction Hp; reflexivity|]. unfold mem_read. cbn [app]. cbn [app] in E1, E2. rewrite E1, E2. reflexivity.
Qed.

Lemma mem_pieces ms : full_pieces ms -> delivered mem_read (Z.to_nat 16385) (concat ms) ms [].
Proof.
  induction ms as [|m ms IH]; intro H; [constructor|]. cbn [full_pieces] in H. destruct H as [H1 H2]. cbn [concat].
  apply (del_cons _ _ _ _ (concat ms)); [|apply IH; exact H2]. destruct ms as [|m2 ms].
  - apply mem_read_app; [intros ->; cbn in H1; lia|]. right. split; [reflexivity|lia].
  - apply mem_read_app; [intros ->; cbn in H1; lia|]. left. lia.
Qed.
Lemma mem_boxes C shared : LengthLaws C -> forall ms i, full_pieces ms ->
  exists cs, delivered mem_read (Z.to_nat 16401) (boxes C shared i ms) cs [] /\ boxed C shared i cs ms /\ length cs = length ms.
Proof.
  intro LL. induction ms as [|m ms IH]; intros i H; [exists []; split; [constructor|split; [constructor|reflexivity]]|].
  cbn [full_pieces] in H. destruct H as [H1 H2]. destruct (IH (i + 1) H2) as (cs & D & Bx & L).
  exists (box_seal C m (nonce i) shared :: cs). cbn [boxes length]. split; [|split; [constructor; exact Bx|lia]].
  pose proof (len_box_seal C LL m (nonce i) shared) as Lb.
  apply (del_cons _ _ _ _ (boxes C shared (i + 1) ms)); [|exact D].
  apply mem_read_app; [intro X; rewrite X in Lb; cbn in Lb; lia|]. destruct ms as [|m2 ms]; [right; split; [reflexivity|lia]|left; lia].
Qed.

Lemma boxed_fun C shared : BoxCorrect C -> forall i cs ms, boxed C shared i cs ms -> forall ms', boxed C shared i cs ms' -> ms = ms'.
Proof.
  intros BC i cs ms. induction 1 as [i|i m cs ms B IH]; intros ms' B'; inversion B' as [|j m' cs' ms2 B2]; subst; [reflexivity|].
  f_equal; [|apply IH; assumption]. pose proof (BC m (nonce i) shared) as X. pose proof (BC m' (nonce i) shared) as Y. congruence.
Qed.

(* a longer and a shorter run of reads from one state *)
Lemma delivered_more {A} (rd : Reader A) n a ps1 b1 : delivered rd n a ps1 b1 -> forall ps2 b2, delivered rd n a ps2 b2 ->
  (length ps1 < length ps2)%nat -> exists p c, rd n b1 = (RRet p None, c) /\ nth_error ps2 (length ps1) = Some p.
Proof.
  induction 1 as [a|a p a1 ps a2 E D IH]; intros ps2 b2 D2 L; inversion D2 as [|? q c1 qs c2 E2 D3]; subst; cbn [length] in L; try lia.
  - exists q, c1. split; [exact E2|reflexivity].
  - rewrite E in E2. injection E2 as <- <-. exact (IH _ _ D3 ltac:(lia)).
Qed.
Lemma stopped_not {A} (rd : Reader A) n a r a' p c : stopped rd n a r a' -> rd n a = (RRet p None, c) -> False.
Proof. intros [(b & e & E & _)|[E _]] E2; rewrite E in E2; discriminate. Qed.

(* any reader that delivers the pieces of the message at full length *)
Lemma seal_full {A} (rd : Reader A) C epriv pub edpub ms a a1 out : pub_ToBox pub = Ok edpub -> full_pieces ms -> ms <> [] ->
  Z.of_nat (length (concat ms)) < 2 ^ 63 -> delivered rd (Z.to_nat 16385) a ms a1 ->
  mem_seal C epriv pub rd (Z.of_nat (length (concat ms))) a out =
    (Ok tt, (a1, out ++ sealed_body C (box_precompute C edpub epriv) (x25519_base C epriv) ms)).
Proof.
  intros TB Fp Ne Lt D. pose proof (full_pieces_count ms Fp) as Cn.
  assert (Pos : 0 < Z.of_nat (length (concat ms))).
  { destruct ms as [|m ms]; [contradiction Ne; reflexivity|]. cbn [full_pieces] in Fp. cbn [concat]. rewrite app_length. destruct ms; lia. }
  destruct (seal_any A C rd epriv pub edpub (Z.of_nat (length (concat ms))) a out TB ltac:(lia)) as (ms' & a2 & r & a' & D' & E & X).
  rewrite E, <- Cn. rewrite <- Cn in X. destruct X as [(-> & L & ->)|[L St]].
  - destruct (delivered_fun A rd _ _ _ _ D' _ _ D ltac:(lia)) as [-> ->]. reflexivity.
  - exfalso. destruct (delivered_more rd _ _ _ _ D' _ _ D ltac:(lia)) as (p & c & R & _). exact (stopped_not _ _ _ _ _ _ _ St R).
Qed.

(* any reader that delivers the header and the boxes, each in one read *)
Lemma open_full {A} (rd : Reader A) C edpriv epub ms cs a a0 a1 out : LengthLaws C -> BoxTidy C -> BoxCorrect C -> length epub = 32%nat ->
  Z.of_nat (length ms) < 2 ^ 64 -> let shared := box_precompute C epub edpriv in
  rd 72%nat a = (RRet (sealed_header C shared epub (Z.of_nat (length ms))) None, a0) ->
  delivered rd (Z.to_nat 16401) a0 cs a1 -> boxed C shared 0 cs ms -> length cs = length ms ->
  mem_open C edpriv rd a out = (Ok tt, (a1, out ++ concat ms)).
Proof.
  intros LL BT BC Le Ln shared Eh D Bx Lc. destruct (mem_open C edpriv rd a out) as [r [a' out']] eqn:E.
  destruct (header_slices C shared epub (Z.of_nat (length ms)) LL Le) as (S1 & S2 & S3 & S4).
  pose proof (count_of_header C shared epub (Z.of_nat (length ms)) LL Le ltac:(lia)) as Cn.
  pose proof (sealed_header_length C shared epub (Z.of_nat (length ms)) LL Le) as Lh.
  destruct (open_any A C rd edpriv a out r a' out' BT BC E) as [[_ St]|(h & a2 & R & X)]; [destruct (stopped_not _ _ _ _ _ _ _ St Eh)|].
  rewrite Eh in R. injection R as <- <-. set (h := sealed_header C shared epub (Z.of_nat (length ms))) in *.
  assert (Sh : shared_of C edpriv h = shared) by (unfold shared_of; rewrite S2; reflexivity). rewrite Sh in X.
  assert (Ht : skipn 40 h = auth_sum C (firstn 40 h) shared).
  { transitivity (slice 40 32 h); [unfold slice; symmetry; apply firstn_all2; rewrite skipn_length; lia|].
    rewrite S4. f_equal. symmetry. exact S3. }
  destruct X as [(N & _)|(_ & [(N & _)|(_ & cs' & ms' & a3 & D' & Bx' & -> & X)])]; [contradiction|contradiction|].
  rewrite Cn in X. destruct X as [(-> & L & ->)|[L X]].
  - destruct (delivered_fun A rd _ _ _ _ D' _ _ D ltac:(lia)) as [-> ->]. rewrite (boxed_fun C shared BC 0 _ _ Bx _ Bx'). reflexivity.
  - exfalso. destruct (delivered_more rd _ _ _ _ D' _ _ D ltac:(lia)) as (p & c & R & Np).
    destruct X as [St|(c' & R' & N & _)]; [exact (stopped_not _ _ _ _ _ _ _ St R)|]. rewrite R in R'. injection R' as <- _.
    assert (G : forall i cs ms, boxed C shared i cs ms -> forall k q, nth_error cs k = Some q -> exists m, q = box_seal C m (nonce (i + Z.of_nat k)) shared).
    { clear. induction 1 as [i|i m cs ms B IH]; intros [|k] q Hk; cbn in Hk; try discriminate.
      - injection Hk as <-. exists m. rewrite Z.add_0_r. reflexivity.
      - destruct (IH k q Hk) as (m' & ->). exists m'. do 2 f_equal. lia. }
    destruct (G _ _ _ Bx _ _ Np) as (m & ->). exact (N m eq_refl).
Qed.

(* TestSealUnseal (crypto_test.go:18-54) *)
Lemma mem_round_trip C pass opts w priv pub w0 epriv m v : LengthLaws C -> BoxTidy C -> BoxCorrect C -> DHCorrect C -> ToBoxAgree C ->
  GenerateKeypair C pass opts w = (Ok (priv, pub), w0) -> not_mistaken C pass opts (w_rng w) -> length epriv = 32%nat ->
  m <> [] -> Z.of_nat (length m) < 2 ^ 63 -> (pass <> [] -> exists tl, w_tty v = Ok pass :: tl) ->
  exists sealed v', mem_seal C epriv pub mem_read (Z.of_nat (length m)) m [] = (Ok tt, ([], sealed)) /\
    mem_open_with C priv mem_read sealed [] v = (Ok tt, ([], m), v').
Proof.
  intros LL BT BC DH TB G Hm Le Ne Lt Ht.
  destruct (generate_pair _ _ _ _ _ _ _ LL G) as [[(A1 & A2 & A3) (N1 & N2) _ P1 _ _ _] _].
  pose proof (generate_inv _ _ _ _ _ _ LL G) as [Lrng _].
  destruct (generated_unlock C pass opts w priv pub w0 (w_tty v) LL G Ht Hm) as (p & U & Kp).
  set (seed := slice 0 32 (w_rng w)) in *.
  assert (Ls : length seed = 32%nat) by (unfold seed, slice; rewrite firstn_length, skipn_length; lia).
  assert (TBp : pub_ToBox pub = Ok (x25519_base C (box_secret C (key p)))).
  { rewrite Kp, <- (TB (p_keyNum pub) seed Ls). f_equal. destruct pub. cbn in *. congruence. }
  destruct (pieces_exist m) as (ms & Fp & Cat). assert (Nms : ms <> []) by (intros ->; apply Ne; symmetry; exact Cat).
  pose proof (seal_full mem_read C epriv pub _ ms (concat ms) [] [] TBp Fp Nms ltac:(rewrite Cat; exact Lt) (mem_pieces ms Fp)) as Es.
  rewrite Cat, (DH (box_secret C (key p)) epriv (box_secret_length _ _) Le) in Es. cbn [app] in Es.
  set (epub := x25519_base C epriv) in *. set (shared := box_precompute C epub (box_secret C (key p))) in *.
  assert (Lep : length epub = 32%nat) by (apply len_x25519; exact LL).
  destruct (ToBox_runs C priv v p (proj1 (generate_wf _ _ _ _ _ _ _ LL G)) U) as (v' & Eb).
  exists (sealed_body C shared epub ms), v'. split; [exact Es|]. unfold mem_open_with. rewrite Eb.
  assert (Ln : Z.of_nat (length ms) < 2 ^ 64).
  { rewrite full_pieces_count, Cat by exact Fp. pose proof (ceil_bound (Z.of_nat (length m)) ltac:(lia)). lia. }
  destruct (mem_boxes C shared LL ms 0 Fp) as (cs & D & Bx & Lc).
  pose proof (sealed_header_length C shared epub (Z.of_nat (length ms)) LL Lep) as Lh.
  rewrite (open_full mem_read C (box_secret C (key p)) epub ms cs (sealed_body C shared epub ms) (boxes C shared 0 ms) [] [] LL BT BC Lep Ln
    (mem_read_app 72 _ _ ltac:(intro X; fold shared in X; rewrite X in Lh; discriminate) (or_introl Lh)) D Bx Lc).
  rewrite Cat. reflexivity.
Qed.
