(* Open against an arbitrary operating system: proofs. *)
From Verif Require Import SealChain SealFacts OpenFacts TextFacts B64StreamFacts KeyOpsFacts SignFacts CallFacts CallKeys CallSeal.
From Verif Require Import SpecCalls.
Local Open Scope Z_scope.

Lemma no_crlf_no_lf t : no_crlf (no_lf t) = no_crlf t.
Proof.
  induction t as [|x t IH]; [reflexivity|]. rewrite no_lf_cons. cbn [no_crlf filter]. destruct (beqb x x0a) eqn:E; cbn [orb negb].
  - exact IH.
  - cbn [no_crlf filter]. rewrite E. cbn [orb]. destruct (beqb x x0d); cbn [negb]; [exact IH|]. f_equal. exact IH.
Qed.

Section Os.
Variable C : Crypto.
Variable O : os.
Hypothesis FR : file_rules O.

Definition is_read (fd : nat) (s : step) : Prop := exists n b r, s = SRead fd n b r.
Lemma is_read_works fd fds l : In fd fds -> Forall (is_read fd) l -> Forall (works fds) l.
Proof. intros I F. eapply Forall_impl; [|exact F]. intros s (n & b & r & ->). exact I. Qed.
Lemma is_read_written fd out l : Forall (is_read fd) l -> written out l = [].
Proof. induction 1 as [|s l (n & b & r & ->) F IH]; [reflexivity|exact IH]. Qed.
Lemma works_nil_written out l : Forall (works []) l -> written out l = [].
Proof. induction 1 as [|s l W F IH]; [reflexivity|]. destruct s; cbn [works In] in W; try contradiction; exact IH. Qed.
Lemma works_nil_pieces fd l : Forall (works []) l -> pieces fd l = [].
Proof. induction 1 as [|s l W F IH]; [reflexivity|]. destruct s; cbn [works In] in W; try contradiction; exact IH. Qed.

Lemma one_read h fd b r : o_read O h fd 1 = (b, r) -> match r with None => exists x, b = [x] | Some _ => b = [] end.
Proof.
  intro Q. pose proof (proj1 FR _ _ _ _ _ Q ltac:(lia)) as L. destruct r; [exact L|]. destruct b as [|x [|y b]]; cbn in L; try lia. exists x. reflexivity.
Qed.
Lemma eof_dec e : e = EOF \/ e <> EOF.
Proof. destruct e; (left; reflexivity) || (right; discriminate). Qed.

Lemma skip_calls fd : forall fuel c h x h', skip_loop fuel (h_read O fd) c h = (x, h') ->
  exists l, h' = h ++ l /\ Forall (is_read fd) l /\
  match x with
  | Some (Ok _) => clean nothing l /\ exists t, concat (pieces fd l) = t ++ [x0a] /\ lf_free t
  | Some (Err e) => ends nothing l (Err e)
  | Some Panic => False
  | None => clean nothing l
  end.
Proof.
  induction fuel as [|fuel IH]; intros c h x h' H; cbn [skip_loop] in H.
  - injection H as <- <-. exists []. rewrite app_nil_r. split; [reflexivity|]. split; [constructor|apply clean_nil].
  - unfold h_read at 1 in H. destruct (o_read O h fd 1) as [b r] eqn:Q. pose proof (one_read _ _ _ _ Q) as R. destruct r as [e|].
    + injection H as <- <-. exists [SRead fd 1 b (Some e)]. split; [reflexivity|]. split; [constructor; [eexists _, _, _; reflexivity|constructor]|].
      apply ends_one. reflexivity.
    + destruct R as [y ->]. destruct (beqb y x0a) eqn:Ey.
      * injection H as <- <-. apply beqb_eq in Ey. subst y. exists [SRead fd 1 [x0a] None]. split; [reflexivity|].
        split; [constructor; [eexists _, _, _; reflexivity|constructor]|]. split; [constructor; [left; reflexivity|constructor]|].
        exists []. cbn [pieces flat_map]. rewrite Nat.eqb_refl. split; [reflexivity|intros []].
      * apply beqb_neq in Ey. apply IH in H. destruct H as (l & -> & F & X). exists (SRead fd 1 [y] None :: l).
        split; [rewrite <- app_assoc; reflexivity|]. split; [constructor; [eexists _, _, _; reflexivity|exact F]|].
        assert (Cl : clean nothing [SRead fd 1 [y] None]) by (constructor; [left; reflexivity|constructor]).
        destruct x as [[u|e|]|].
        -- destruct X as (Cl2 & t & E & Lf). split; [constructor; [left; reflexivity|exact Cl2]|]. exists (y :: t). split.
           ++ cbn [pieces flat_map]. rewrite Nat.eqb_refl. cbn [app concat]. f_equal. exact E.
           ++ intros [X|X]; [congruence|exact (Lf X)].
        -- exact (ends_app _ _ l _ Cl X).
        -- exact X.
        -- constructor; [left; reflexivity|exact X].
Qed.

Lemma dec_loop_calls fd M : forall fuel c n buf h x h', dec_loop fuel (h_read O fd) (Z.of_nat M) c n buf h = (x, h') ->
  n <= Z.of_nat M -> Z.of_nat (length buf) = n ->
  exists l, h' = h ++ l /\ Forall (is_read fd) l /\
  match x with
  | Some (Ok b) => clean end_of_file l /\ b = buf ++ no_lf (concat (pieces fd l)) /\ (length b <= M)%nat
  | Some (Err e) => ends end_of_file l (Err e)
  | Some Panic => False
  | None => clean end_of_file l
  end.
Proof.
  induction fuel as [|fuel IH]; intros c n buf h x h' H Hn Hb; cbn [dec_loop] in H; (destruct (Z.eqb_spec n (Z.of_nat M)) as [En|En];
    [injection H as <- <-; exists []; rewrite app_nil_r; split; [reflexivity|]; split; [constructor|]; split; [apply clean_nil|];
     split; [cbn; rewrite app_nil_r; reflexivity|lia]|]).
  - injection H as <- <-. exists []. rewrite app_nil_r. split; [reflexivity|]. split; [constructor|apply clean_nil].
  - unfold h_read at 1 in H. destruct (o_read O h fd 1) as [b r] eqn:Q. pose proof (one_read _ _ _ _ Q) as R. destruct r as [e|].
    + subst b. destruct (eof_dec e) as [->|Ne].
      * injection H as <- <-. exists [SRead fd 1 [] (Some EOF)]. split; [reflexivity|]. split; [constructor; [eexists _, _, _; reflexivity|constructor]|].
        split; [constructor; [right; eexists _, _, _; reflexivity|constructor]|]. split; [cbn; rewrite app_nil_r; reflexivity|lia].
      * assert (H' : (Some (Err e) : option (res bytes), h ++ [SRead fd 1 [] (Some e)]) = (x, h')) by (destruct e; try exact H; contradiction).
        injection H' as <- <-. exists [SRead fd 1 [] (Some e)]. split; [reflexivity|]. split; [constructor; [eexists _, _, _; reflexivity|constructor]|].
        apply ends_one. reflexivity.
    + destruct R as [y ->].
      assert (Main : exists n' buf', dec_loop fuel (h_read O fd) (Z.of_nat M) y n' buf' (h ++ [SRead fd 1 [y] None]) = (x, h') /\
        n' <= Z.of_nat M /\ Z.of_nat (length buf') = n' /\ buf' = buf ++ no_lf [y]).
      { unfold no_lf. cbn [filter]. destruct (beqb y x0a); cbn [negb].
        - exists n, buf. rewrite app_nil_r. auto.
        - exists (n + 1), (buf ++ [y]). rewrite app_length. cbn [length]. repeat split; try lia. exact H. }
      destruct Main as (n' & buf' & H' & Hn' & Hb' & Eb). apply IH in H'; [|assumption..]. destruct H' as (l & -> & F & X).
      exists (SRead fd 1 [y] None :: l). split; [rewrite <- app_assoc; reflexivity|]. split; [constructor; [eexists _, _, _; reflexivity|exact F]|].
      assert (Cl : clean end_of_file [SRead fd 1 [y] None]) by (constructor; [left; reflexivity|constructor]).
      destruct x as [[b|e|]|].
      * destruct X as (Cl2 & E & L). split; [constructor; [left; reflexivity|exact Cl2]|]. split; [|exact L]. rewrite E, Eb, <- app_assoc. f_equal.
        cbn [pieces flat_map]. rewrite Nat.eqb_refl. cbn [app concat]. unfold no_lf. cbn [filter]. destruct (beqb y x0a); reflexivity.
      * exact (ends_app _ _ l _ Cl X).
      * exact X.
      * constructor; [left; reflexivity|exact X].
Qed.

Notation ord fuel fd := (dec_read (fun h (_ : Z) => fuel h) (h_read O fd)).

Lemma dec_calls fuel fd k h x h' : ord fuel fd (3 * k)%nat h = (x, h') ->
  exists l, h' = h ++ l /\ Forall (is_read fd) l /\
  match x with
  | RRet b None => clean end_of_file l /\ base64_of (no_crlf (concat (pieces fd l))) b
  | RRet b (Some e) => ends end_of_file l (Err e)
  | RPanic => clean end_of_file l
  end.
Proof.
  unfold dec_read. intro H. rewrite enclen_mult3 in H.
  destruct (dec_loop (fuel h) (h_read O fd) (Z.of_nat (4 * k)) x00 0 [] h) as [y h1] eqn:D.
  apply dec_loop_calls in D; [|lia|reflexivity]. destruct D as (l & -> & F & X). destruct y as [[b|e|]|].
  - destruct X as (Cl & -> & L). cbn [app] in *. rewrite StdDecode_String in H by exact L.
    destruct (DecodeString (no_lf (concat (pieces fd l)))) as [b|e|] eqn:Dc; injection H as <- <-; exists l; (split; [reflexivity|]); (split; [exact F|]).
    + split; [exact Cl|]. apply decode_iff in Dc. rewrite no_crlf_no_lf in Dc. exact Dc.
    + apply clean_ends, Cl.
    + exact Cl.
  - injection H as <- <-. exists l. split; [reflexivity|]. split; [exact F|exact X].
  - destruct X.
  - injection H as <- <-. exists l. split; [reflexivity|]. split; [exact F|exact X].
Qed.
Lemma dec_calls_72 fuel fd h x h' : ord fuel fd 72%nat h = (x, h') ->
  exists l, h' = h ++ l /\ Forall (is_read fd) l /\
  match x with
  | RRet b None => clean end_of_file l /\ base64_of (no_crlf (concat (pieces fd l))) b
  | RRet b (Some e) => ends end_of_file l (Err e)
  | RPanic => clean end_of_file l
  end.
Proof. exact (dec_calls fuel fd 24 h x h'). Qed.
Lemma dec_calls_sealed fuel fd h x h' : ord fuel fd sealed_nat h = (x, h') ->
  exists l, h' = h ++ l /\ Forall (is_read fd) l /\
  match x with
  | RRet b None => clean end_of_file l /\ base64_of (no_crlf (concat (pieces fd l))) b
  | RRet b (Some e) => ends end_of_file l (Err e)
  | RPanic => clean end_of_file l
  end.
Proof. rewrite sealed_nat_3. apply dec_calls. Qed.

Lemma boxed_app shared i ts ms : boxed_texts C shared i ts ms -> forall ts' ms',
  boxed_texts C shared (i + Z.of_nat (length ts)) ts' ms' -> boxed_texts C shared i (ts ++ ts') (ms ++ ms').
Proof.
  induction 1 as [i|i t m ts ms B D IH]; intros ts' ms' X.
  - cbn [length Z.of_nat] in X. rewrite Z.add_0_r in X. exact X.
  - cbn [app]. constructor; [exact B|]. apply IH. cbn [length] in X. replace (i + 1 + Z.of_nat (length ts)) with (i + Z.of_nat (S (length ts))) by lia. exact X.
Qed.

Lemma h_write_eq out m h n r h' : h_write O out m h = ((n, r), h') -> h' = h ++ [SWrite out m n r].
Proof. unfold h_write. destruct (o_write O h out m) as [n0 r0]. intro H. injection H as <- <- <-. reflexivity. Qed.

Lemma opening_calls fuel fd out shared i h cs ms h' : BoxTidy C ->
  opening C _ (ord fuel fd) (h_write O out) shared i h cs ms h' ->
  exists l ts, h' = h ++ l /\ Forall (works [out; fd]) l /\ clean end_of_file l /\ length ts = length cs /\
    concat (pieces fd l) = concat ts /\ boxed_texts C shared i ts ms /\ written out l = concat ms.
Proof.
  intro BT. induction 1 as [i s|i s c s1 m n s2 cs ms s3 R B W S IH].
  - exists [], []. rewrite app_nil_r. split; [reflexivity|]. split; [constructor|]. split; [apply clean_nil|]. split; [reflexivity|].
    split; [reflexivity|]. split; [constructor|reflexivity].
  - apply dec_calls_sealed in R. destruct R as (l1 & -> & F1 & Cl1 & T1). apply h_write_eq in W. subst s2.
    destruct IH as (l & ts & -> & W & Cl & L & P & Bx & Wr).
    exists (l1 ++ [SWrite out m n None] ++ l), (concat (pieces fd l1) :: ts). split; [rewrite <- !app_assoc; reflexivity|].
    split; [apply Forall_app; split; [eapply is_read_works; [|exact F1]; cbn; auto|constructor; [cbn; auto|exact W]]|].
    split; [apply clean_app; split; [exact Cl1|constructor; [left; reflexivity|exact Cl]]|].
    split; [cbn; lia|]. split; [rewrite !pieces_app, !concat_app; cbn [pieces flat_map concat]; f_equal; exact P|].
    split; [constructor; [|exact Bx]; rewrite <- (BT _ _ _ _ B); exact T1|].
    rewrite !written_app, (is_read_written fd out l1 F1). cbn [written flat_map app concat]. rewrite Nat.eqb_refl, app_nil_r. f_equal. exact Wr.
Qed.

Lemma open_end_calls fuel fd out shared i h cs ms r h' : BoxTidy C ->
  open_end C _ (ord fuel fd) (h_write O out) shared i h cs ms r h' ->
  exists l ts tl, h' = h ++ l /\ Forall (works [out; fd]) l /\ ends end_of_file l r /\ length ts = length cs /\
    concat (pieces fd l) = concat ts ++ tl /\ boxed_texts C shared i ts ms /\ written out l = concat ms /\ r <> Ok tt.
Proof.
  intros BT E. destruct E as [s' R|b e s' R|c s' R B|c m s1 n e s' R B W]; apply dec_calls_sealed in R; destruct R as (l1 & -> & F1 & X).
  - exists l1, [], (concat (pieces fd l1)). split; [reflexivity|]. split; [eapply is_read_works; [|exact F1]; cbn; auto|]. split; [apply clean_ends, X|].
    split; [reflexivity|]. split; [reflexivity|]. split; [constructor|]. split; [rewrite (is_read_written fd out l1 F1); reflexivity|discriminate].
  - exists l1, [], (concat (pieces fd l1)). split; [reflexivity|]. split; [eapply is_read_works; [|exact F1]; cbn; auto|]. split; [exact X|].
    split; [reflexivity|]. split; [reflexivity|]. split; [constructor|]. split; [rewrite (is_read_written fd out l1 F1); reflexivity|discriminate].
  - destruct X as [Cl _]. exists l1, [], (concat (pieces fd l1)). split; [reflexivity|]. split; [eapply is_read_works; [|exact F1]; cbn; auto|]. split; [apply clean_ends, Cl|].
    split; [reflexivity|]. split; [reflexivity|]. split; [constructor|]. split; [rewrite (is_read_written fd out l1 F1); reflexivity|discriminate].
  - destruct X as [Cl T]. apply h_write_eq in W. subst s'. exists (l1 ++ [SWrite out m n (Some e)]), [concat (pieces fd l1)], [].
    split; [rewrite <- app_assoc; reflexivity|]. split; [apply Forall_app; split; [eapply is_read_works; [|exact F1]; cbn; auto|constructor; [cbn; auto|constructor]]|].
    split; [apply ends_snoc; [exact Cl|reflexivity]|]. split; [reflexivity|].
    split; [rewrite pieces_app; cbn [pieces flat_map concat]; rewrite !app_nil_r; reflexivity|].
    split; [constructor; [|constructor]; rewrite <- (BT _ _ _ _ B); exact T|].
    split; [rewrite written_app, (is_read_written fd out l1 F1); cbn [written flat_map app concat]; rewrite Nat.eqb_refl; reflexivity|discriminate].
Qed.

(* what open_body has read from fd and written to out *)
Definition opened_text (edpriv t : bytes) (w : bytes) (r : res unit) : Prop :=
  (w = [] /\ r <> Ok tt) \/
  exists t0 ts tl header ms, t = t0 ++ concat ts ++ tl /\ base64_of (no_crlf t0) header /\ length header = 72%nat /\
    slice 40 32 header = auth_sum C (slice 0 40 header) (shared_of C edpriv header) /\
    boxed_texts C (shared_of C edpriv header) 0 ts ms /\ w = concat ms /\ Z.of_nat (length ms) <= count_of header /\
    (r = Ok tt -> tl = [] /\ Z.of_nat (length ms) = count_of header).

Lemma boxed_length shared i ts ms : boxed_texts C shared i ts ms -> length ms = length ts.
Proof. induction 1; cbn; congruence. Qed.
Lemma opening_length rd wr shared i (s s' : list step) cs ms : opening C _ rd wr shared i s cs ms s' -> length ms = length cs.
Proof. induction 1; cbn; congruence. Qed.
Lemma open_end_length rd wr shared i (s s' : list step) cs ms r : open_end C _ rd wr shared i s cs ms r s' -> (length cs <= 1)%nat /\ length ms = length cs.
Proof. destruct 1; cbn; split; lia. Qed.

Lemma slice_rest (h : bytes) : length h = 72%nat -> slice 40 32 h = skipn 40 h.
Proof. intro L. unfold slice. apply firstn_all2. rewrite skipn_length, L. lia. Qed.

Lemma open_body_calls fuel fd out edpriv h r h' : BoxTidy C ->
  open_body C _ edpriv (ord fuel fd) (h_write O out) h = (r, h') ->
  exists l, h' = h ++ l /\ Forall (works [out; fd]) l /\ ends end_of_file l r /\ opened_text edpriv (concat (pieces fd l)) (written out l) r.
Proof.
  intros BT H. apply open_cases in H.
  destruct H as [s' R|b e s' R|b t s' R|hd s1 cs ms s2 cs' ms' r s' R L Au Op Lc En|hd s1 cs ms s' R L Au Op Lc];
    apply dec_calls_72 in R; destruct R as (l1 & -> & F1 & X).
  - exists l1. split; [reflexivity|]. split; [eapply is_read_works; [|exact F1]; cbn; auto|]. split; [apply clean_ends, X|].
    left. split; [exact (is_read_written fd out l1 F1)|discriminate].
  - exists l1. split; [reflexivity|]. split; [eapply is_read_works; [|exact F1]; cbn; auto|]. split; [exact X|].
    left. split; [exact (is_read_written fd out l1 F1)|discriminate].
  - exists l1. split; [reflexivity|]. split; [eapply is_read_works; [|exact F1]; cbn; auto|]. split; [apply clean_ends, X|].
    left. split; [exact (is_read_written fd out l1 F1)|discriminate].
  - destruct X as [Cl1 T1]. pose proof (opening_length _ _ _ _ _ _ _ _ Op) as Lo. pose proof (open_end_length _ _ _ _ _ _ _ _ _ En) as [Le Lo'].
    apply opening_calls in Op; [|exact BT]. destruct Op as (l2 & ts & -> & W2 & Cl2 & Lt & P2 & B2 & Wr2).
    apply open_end_calls in En; [|exact BT]. destruct En as (l3 & ts' & tl & -> & W3 & X3 & Lt' & P3 & B3 & Wr3 & N3).
    exists (l1 ++ l2 ++ l3). split; [rewrite <- !app_assoc; reflexivity|].
    split; [repeat (apply Forall_app; split); [eapply is_read_works; [|exact F1]; cbn; auto|exact W2|exact W3]|].
    split; [apply ends_app; [exact Cl1|apply ends_app; [exact Cl2|exact X3]]|].
    right. exists (concat (pieces fd l1)), (ts ++ ts'), tl, hd, (ms ++ ms').
    rewrite !pieces_app, !written_app, !concat_app, P2, P3, Wr2, Wr3, (is_read_written fd out l1 F1).
    split; [rewrite <- !app_assoc; reflexivity|]. split; [exact T1|]. split; [exact L|].
    split; [rewrite (slice_rest hd L); exact Au|].
    split; [apply boxed_app; [exact B2|]; rewrite <- Lt in B3; exact B3|]. split; [reflexivity|].
    split; [rewrite app_length; lia|]. intro Hr. contradiction.
  - destruct X as [Cl1 T1]. pose proof (opening_length _ _ _ _ _ _ _ _ Op) as Lo.
    apply opening_calls in Op; [|exact BT]. destruct Op as (l2 & ts & -> & W2 & Cl2 & Lt & P2 & B2 & Wr2).
    exists (l1 ++ l2). split; [rewrite <- !app_assoc; reflexivity|].
    split; [repeat (apply Forall_app; split); [eapply is_read_works; [|exact F1]; cbn; auto|exact W2]|].
    split; [apply clean_ends, clean_app; split; assumption|].
    right. exists (concat (pieces fd l1)), ts, [], hd, ms.
    rewrite !pieces_app, !written_app, !concat_app, P2, Wr2, (is_read_written fd out l1 F1), app_nil_r.
    split; [reflexivity|]. split; [exact T1|]. split; [exact L|].
    split; [rewrite (slice_rest hd L); exact Au|].
    split; [exact B2|]. split; [reflexivity|]. split; [lia|]. intros _. split; [reflexivity|lia].
Qed.

(* the key *)
Lemma ToBox_calls priv h r h' : priv_wf priv -> ToBox_os C O priv h = (r, h') ->
  exists l, h' = h ++ l /\ Forall (works []) l /\
  match r with
  | Ok b => clean nothing l /\ exists p, box_key_by C priv l p /\ b = box_secret C (key p)
  | Err e => ends nothing l (Err e)
  | Panic => clean nothing l
  end.
Proof.
  intros Wf H. unfold ToBox_os in H. destruct (Check_cases C priv) as [Ec|Ec]; rewrite Ec in H.
  - unfold hbind, hret in H. injection H as <- <-. exists []. rewrite app_nil_r. split; [reflexivity|]. split; [constructor|].
    split; [apply clean_nil|]. exists priv. split; [left; split; [apply Check_iff, Ec|auto]|reflexivity].
  - unfold hbind in H. destruct (prompt_os O h) as [x h1] eqn:P. apply prompt_calls in P. destruct P as [(pass & -> & -> & _)|(e & -> & ->)].
    + exists (asked pass). assert (Cl : clean nothing (asked pass)) by (repeat (constructor; [left; reflexivity|]); constructor).
      assert (W : Forall (works []) (asked pass)) by (repeat (constructor; [first [exact I|left; reflexivity|right; reflexivity]|]); constructor).
      destruct (decrypt C priv pass) as [[[]|e|] p] eqn:D; injection H as <- <-; (split; [reflexivity|]); (split; [exact W|]).
      * split; [exact Cl|]. exists p. split; [|reflexivity]. right. split; [intro X; apply Check_iff in X; rewrite X in Ec; discriminate|].
        exists pass. split; [reflexivity|exact D].
      * apply clean_ends, Cl.
      * exact Cl.
    + injection H as <- <-. eexists. split; [reflexivity|]. split; [repeat (constructor; [first [exact I|left; reflexivity]|]); constructor|].
      apply (ends_app nothing [_] [_]); [constructor; [left; reflexivity|constructor]|apply ends_one; reflexivity].
Qed.

Definition not_created (mp : path) (h : list step) : Prop := forall out, ~ In (SCreate mp 438 (inl out)) h.
Definition early_open (sk ep mp : path) (r : res unit) (h : list step) : Prop :=
  in_use [] h = Some [] /\ Forall (touches [sk; ep] [mp]) h /\ opening_tail mp h r /\ r <> Ok tt /\ not_created mp h.

Lemma reads_not_created fd mp l : Forall (is_read fd) l -> not_created mp l.
Proof. intros F out H. rewrite Forall_forall in F. destruct (F _ H) as (n & b & r & E). discriminate E. Qed.
Lemma nil_noticed ex r : noticed ex [] r.
Proof. intros [|y l] s h2 e E; discriminate E. Qed.
Lemma close_all fd c2 h0 l : in_use [] h0 = Some [fd] -> Forall (works [fd]) l -> in_use [] (h0 ++ l ++ [SClose fd c2]) = Some [].
Proof. intros U W. rewrite in_use_app, U. apply works_then_close, W. Qed.

Lemma open_shape fuel sk ep mp r h : BoxTidy C -> Open_os C O fuel sk ep mp [] = (r, h) ->
  early_open sk ep mp r h \/
  exists kf priv fd l1 c out asks l2 c1 c2, readPrivateKeyFile kf = Ok priv /\
    h = [SReadFile sk (inl kf); SOpen ep (inl fd)] ++ l1 ++ [SCreate mp 438 (inl out)] ++ asks ++ l2 ++ [SClose out c1; SClose fd c2] /\
    Forall (is_read fd) l1 /\ clean nothing l1 /\ concat (pieces fd l1) = c ++ [x0a] /\ lf_free c /\
    Forall (works []) asks /\ Forall (works [out; fd]) l2 /\
    ((l2 = [] /\ r <> Ok tt /\ ends nothing asks r) \/
     (clean nothing asks /\ exists p, box_key_by C priv asks p /\ ends end_of_file l2 r /\
        opened_text (box_secret C (key p)) (concat (pieces fd l2)) (written out l2) r)).
Proof.
  intros BT H. unfold Open_os, LoadPrivateKey_os in H. unfold hbind at 1 2, hlift at 1, h_readfile at 1 in H. cbn [app] in H.
  destruct (o_readfile O [] sk) as [kf|e] eqn:Q1; cbn [got] in H.
  2:{ left. apply pair_equal_spec in H; destruct H as [<- <-]. split; [reflexivity|]. split; [constructor; [cbn; auto|constructor]|]. split; [|split; [discriminate|intros out [X|[]]; discriminate X]].
      exists [SReadFile sk (inr e)], [], []. split; [reflexivity|]. split; [left; reflexivity|]. split; [apply ends_noticed, ends_one; reflexivity|].
      split; [apply nil_noticed|constructor]. }
  destruct (readPrivateKeyFile kf) as [priv|e|] eqn:RP.
  2,3: left; apply pair_equal_spec in H; destruct H as [<- <-]; (split; [reflexivity|]); (split; [constructor; [cbn; auto|constructor]|]); (split; [|split; [discriminate|intros out [X|[]]; discriminate X]]);
      exists [SReadFile sk (inl kf)], [], []; (split; [reflexivity|]); (split; [left; reflexivity|]); (split; [apply ends_noticed, clean_ends; constructor; [left; reflexivity|constructor]|]);
      (split; [apply nil_noticed|constructor]).
  unfold hbind at 1, h_open at 1 in H. cbn [app] in H.
  destruct (o_open O [SReadFile sk (inl kf)] ep) as [fd|e] eqn:Q2; cbn [got] in H.
  2:{ left. apply pair_equal_spec in H; destruct H as [<- <-]. split; [reflexivity|]. split; [repeat (constructor; [cbn; auto|]); constructor|]. split; [|split; [discriminate|intros out [X|[X|[]]]; discriminate X]].
      exists [SReadFile sk (inl kf); SOpen ep (inr e)], [], []. split; [reflexivity|]. split; [left; reflexivity|].
      split; [apply ends_noticed, (ends_snoc nothing [SReadFile sk (inl kf)]); [constructor; [left; reflexivity|constructor]|reflexivity]|].
      split; [apply nil_noticed|constructor]. }
  set (h0 := [SReadFile sk (inl kf); SOpen ep (inl fd)]) in *.
  assert (U0 : in_use [] h0 = Some [fd]) by reflexivity.
  assert (T0 : Forall (touches [sk; ep] [mp]) h0) by (repeat (constructor; [cbn; auto|]); constructor).
  assert (C0 : clean nothing h0) by (repeat (constructor; [left; reflexivity|]); constructor).
  assert (N0 : not_created mp h0) by (intros out [X|[X|[]]]; discriminate X).
  assert (Early : forall r l c2, Forall (is_read fd) l -> ends nothing l r -> r <> Ok tt -> early_open sk ep mp r (h0 ++ l ++ [SClose fd c2])).
  { intros r0 l c2 F X N. split; [apply close_all; [exact U0|eapply is_read_works; [|exact F]; cbn; auto]|].
    split; [apply Forall_app; split; [exact T0|apply Forall_app; split; [eapply works_touches, (is_read_works fd [fd]); [cbn; auto|exact F]|constructor; [exact I|constructor]]]|].
    split; [|split; [exact N|]].
    - exists (h0 ++ l), [], [SClose fd c2]. split; [rewrite <- app_assoc; reflexivity|]. split; [left; reflexivity|].
      split; [apply ends_noticed, ends_app; assumption|]. split; [apply nil_noticed|]. constructor; [eexists _, _; reflexivity|constructor].
    - intros out X2. apply in_app_or in X2 as [X2|X2]; [exact (N0 out X2)|]. apply in_app_or in X2 as [X2|[X2|[]]]; [|discriminate X2].
      exact (reads_not_created fd mp l F out X2). }
  unfold hdefer at 1 in H. unfold hbind at 1 in H. unfold skipComment in H.
  destruct (skip_loop (fuel h0) (h_read O fd) x00 h0) as [x h1] eqn:SK. apply skip_calls in SK. destruct SK as (l1 & -> & F1 & X1).
  destruct x as [[u|e|]|].
  2:{ left. unfold h_close in H. match type of H with context [SClose fd ?x] => set (c2 := x) in H; clearbody c2 end. apply pair_equal_spec in H; destruct H as [<- <-].
      rewrite <- app_assoc. apply Early; [exact F1|exact X1|discriminate]. }
  2:{ destruct X1. }
  2:{ left. unfold h_close in H. match type of H with context [SClose fd ?x] => set (c2 := x) in H; clearbody c2 end. apply pair_equal_spec in H; destruct H as [<- <-].
      rewrite <- app_assoc. apply Early; [exact F1|apply clean_ends, X1|discriminate]. }
  destruct X1 as (Cl1 & c & P1 & Lf). unfold hbind at 1, h_create at 1 in H.
  destruct (o_create O (h0 ++ l1) mp 438) as [out|e] eqn:Q3; cbn [got] in H.
  2:{ left. unfold h_close in H. match type of H with context [SClose fd ?x] => set (c2 := x) in H; clearbody c2 end. apply pair_equal_spec in H; destruct H as [<- <-].
      assert (E : ((h0 ++ l1) ++ [SCreate mp 438 (inr e)]) ++ [SClose fd c2] = (h0 ++ l1) ++ [SCreate mp 438 (inr e); SClose fd c2]) by (rewrite <- !app_assoc; reflexivity).
      rewrite E. assert (W1 : Forall (works [fd]) l1) by (eapply is_read_works; [|exact F1]; cbn; auto).
      split; [rewrite !in_use_app, U0, (works_in_use _ _ W1); cbn; rewrite Nat.eqb_refl; reflexivity|].
      split; [repeat (apply Forall_app; split); [exact T0|eapply works_touches; exact W1|repeat (constructor; [cbn; auto|]); constructor]|].
      split; [|split; [discriminate|]].
      - exists (h0 ++ l1), [SCreate mp 438 (inr e)], [SClose fd c2]. split; [reflexivity|]. split; [right; eexists _, _; reflexivity|].
        split; [apply ends_noticed, clean_ends, clean_app; split; assumption|]. split; [apply ends_noticed, ends_one; reflexivity|].
        constructor; [eexists _, _; reflexivity|constructor].
      - intros out X2. apply in_app_or in X2 as [X2|[X2|[X2|[]]]]; [|discriminate X2..]. apply in_app_or in X2 as [X2|X2]; [exact (N0 out X2)|].
        exact (reads_not_created fd mp l1 F1 out X2). }
  right. exists kf, priv, fd, l1, c, out. unfold hdefer at 1 in H. unfold hbind at 1 in H.
  destruct (ToBox_os C O priv _) as [y h2] eqn:TB in H. apply ToBox_calls in TB; [|exact (readPrivateKeyFile_wf _ _ RP)].
  destruct TB as (asks & -> & Wa & X). destruct y as [edpriv|e|].
  - destruct X as (Cla & p & Kp & ->). destruct (open_body C _ _ _ _ _) as [r1 h3] eqn:OB in H. apply open_body_calls in OB; [|exact BT].
    destruct OB as (l2 & -> & W2 & E2 & O2). unfold h_close in H. match type of H with context [SClose fd ?x] => set (c2 := x) in H; clearbody c2 end.
    match type of H with context [SClose out ?x] => set (c1 := x) in H; clearbody c1 end. apply pair_equal_spec in H; destruct H as [<- <-].
    exists asks, l2, c1, c2. split; [exact RP|]. split; [rewrite <- !app_assoc; reflexivity|]. split; [exact F1|]. split; [exact Cl1|]. split; [exact P1|]. split; [exact Lf|].
    split; [exact Wa|]. split; [exact W2|]. right. split; [exact Cla|]. exists p. split; [exact Kp|]. split; [exact E2|exact O2].
  - unfold h_close in H. match type of H with context [SClose fd ?x] => set (c2 := x) in H; clearbody c2 end.
    match type of H with context [SClose out ?x] => set (c1 := x) in H; clearbody c1 end. apply pair_equal_spec in H; destruct H as [<- <-].
    exists asks, [], c1, c2. split; [exact RP|]. split; [rewrite <- !app_assoc; reflexivity|]. split; [exact F1|]. split; [exact Cl1|]. split; [exact P1|]. split; [exact Lf|].
    split; [exact Wa|]. split; [constructor|]. left. split; [reflexivity|]. split; [discriminate|exact X].
  - unfold h_close in H. match type of H with context [SClose fd ?x] => set (c2 := x) in H; clearbody c2 end.
    match type of H with context [SClose out ?x] => set (c1 := x) in H; clearbody c1 end. apply pair_equal_spec in H; destruct H as [<- <-].
    exists asks, [], c1, c2. split; [exact RP|]. split; [rewrite <- !app_assoc; reflexivity|]. split; [exact F1|]. split; [exact Cl1|]. split; [exact P1|]. split; [exact Lf|].
    split; [exact Wa|]. split; [constructor|]. left. split; [reflexivity|]. split; [discriminate|apply clean_ends, X].
Qed.

Lemma open_calls fuel sk ep mp r h : BoxTidy C -> Open_os C O fuel sk ep mp [] = (r, h) ->
  in_use [] h = Some [] /\ Forall (touches [sk; ep] [mp]) h /\ opening_tail mp h r.
Proof.
  intros BT H. destruct (open_shape _ _ _ _ _ _ BT H) as [(A & B & T & _)|(kf & priv & fd & l1 & c & out & asks & l2 & c1 & c2 & RP & E & F1 & Cl1 & P1 & Lf & Wa & W2 & X)]; [auto|].
  subst h. assert (W1 : Forall (works [fd]) l1) by (eapply is_read_works; [|exact F1]; cbn; auto).
  assert (Wa' : Forall (works [out; fd]) asks) by (eapply works_weaken; [|exact Wa]; intros z []).
  split; [|split].
  - cbn [app in_use]. rewrite in_use_app, (works_in_use _ _ W1). cbn [app in_use]. rewrite in_use_app, (works_in_use _ _ Wa').
    change ([SClose out c1; SClose fd c2]) with ([SClose out c1] ++ [SClose fd c2]).
    rewrite app_assoc, in_use_app, (works_then_close out [fd] _ c1 W2). cbn. rewrite Nat.eqb_refl. reflexivity.
  - repeat (apply Forall_app; split); [repeat (constructor; [cbn; auto|]); constructor|eapply works_touches; exact W1|repeat (constructor; [cbn; auto|]); constructor
      |eapply works_touches; exact Wa|eapply works_touches; exact W2|repeat (constructor; [exact I|]); constructor].
  - exists ([SReadFile sk (inl kf); SOpen ep (inl fd)] ++ l1), ([SCreate mp 438 (inl out)] ++ asks ++ l2), [SClose out c1; SClose fd c2].
    split; [rewrite <- !app_assoc; reflexivity|]. split; [right; eexists _, _; reflexivity|].
    split; [apply ends_noticed, clean_ends, clean_app; split; [repeat (constructor; [left; reflexivity|]); constructor|exact Cl1]|].
    split; [|repeat (constructor; [eexists _, _; reflexivity|]); constructor].
    apply ends_noticed, ends_app; [constructor; [left; reflexivity|constructor]|].
    destruct X as [(-> & _ & X)|(Cla & p & _ & X & _)].
    + rewrite app_nil_r. apply ends_weaken, X.
    + apply ends_app; [apply clean_weaken, Cla|exact X].
Qed.

Lemma open_content fuel sk ep mp r h : BoxTidy C -> Open_os C O fuel sk ep mp [] = (r, h) ->
  (r = Ok tt -> exists out, In (SCreate mp 438 (inl out)) h) /\
  forall out, In (SCreate mp 438 (inl out)) h ->
  (written out h = [] /\ r <> Ok tt) \/
  exists kf priv fd asks p c t0 ts tl header ms l1 l2, readPrivateKeyFile kf = Ok priv /\ box_key_by C priv asks p /\
    h = [SReadFile sk (inl kf); SOpen ep (inl fd)] ++ l1 ++ [SCreate mp 438 (inl out)] ++ asks ++ l2 /\
    concat (pieces fd h) = c ++ [x0a] ++ t0 ++ concat ts ++ tl /\ lf_free c /\
    base64_of (no_crlf t0) header /\ length header = 72%nat /\
    slice 40 32 header = auth_sum C (slice 0 40 header) (shared_of C (box_secret C (key p)) header) /\
    boxed_texts C (shared_of C (box_secret C (key p)) header) 0 ts ms /\
    written out h = concat ms /\ Z.of_nat (length ms) <= count_of header /\
    (r = Ok tt -> tl = [] /\ Z.of_nat (length ms) = count_of header).
Proof.
  intros BT H. destruct (open_shape _ _ _ _ _ _ BT H) as [(_ & _ & _ & N & NC)|(kf & priv & fd & l1 & c & out & asks & l2 & c1 & c2 & RP & E & F1 & Cl1 & P1 & Lf & Wa & W2 & X)].
  { split; [intro Hr; contradiction|]. intros out Hi. destruct (NC out Hi). }
  split; [intros _; exists out; rewrite E; apply in_or_app; right; apply in_or_app; right; left; reflexivity|].
  intros o Hi. assert (o = out).
  { rewrite E in Hi. repeat (apply in_app_or in Hi as [Hi|Hi]).
    - destruct Hi as [Hi|[Hi|[]]]; discriminate Hi.
    - destruct (reads_not_created fd mp l1 F1 o Hi).
    - destruct Hi as [Hi|[]]. injection Hi as ->. reflexivity.
    - rewrite Forall_forall in Wa. destruct (Wa _ Hi).
    - rewrite Forall_forall in W2. destruct (W2 _ Hi).
    - destruct Hi as [Hi|[Hi|[]]]; discriminate Hi. }
  subst o.
  assert (P : pieces fd h = pieces fd l1 ++ pieces fd l2).
  { rewrite E, !pieces_app, (works_nil_pieces fd asks Wa). cbn [pieces flat_map app]. rewrite app_nil_r. reflexivity. }
  assert (W : written out h = written out l2).
  { rewrite E, !written_app, (works_nil_written out asks Wa), (is_read_written fd out l1 F1). cbn [written flat_map app]. rewrite app_nil_r. reflexivity. }
  destruct X as [(-> & N & _)|(Cla & p & Kp & _ & [[Em N]|(t0 & ts & tl & header & ms & Et & B64 & L72 & Au & Bx & Ew & Lc & Okc)])].
  - left. rewrite W. split; [reflexivity|exact N].
  - left. rewrite W, Em. split; [reflexivity|exact N].
  - right. exists kf, priv, fd, asks, p, c, t0, ts, tl, header, ms, l1, (l2 ++ [SClose out c1; SClose fd c2]).
    rewrite W, P, concat_app, P1, Et. split; [exact RP|]. split; [exact Kp|]. split; [exact E|]. split; [rewrite <- !app_assoc; reflexivity|].
    repeat (split; [assumption|]). exact Okc.
Qed.
End Os.
