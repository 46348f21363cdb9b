(* The program as a whole: it crashes only on short signature payloads; what its
   exit status means; whole sessions on the command line. *)
From Verif Require Export SpecCmd FlagFacts OpenFacts RoundTrip.
Local Open Scope Z_scope.

(* ---- panics ---- *)
Definition present (w : world) (fd : nat) : Prop :=
  exists p off d mo, handle w fd p off /\ w_fs w p = Some (File d mo).
Definition keeps (w w' : world) : Prop :=
  w_fds w' = w_fds w /\ forall p, w_fs w p <> None -> w_fs w' p <> None.
Lemma keeps_refl w : keeps w w. Proof. split; auto. Qed.
Lemma keeps_trans a b c : keeps a b -> keeps b c -> keeps a c.
Proof. intros [A1 A2] [B1 B2]. split; [congruence|auto]. Qed.
Lemma keeps_present w w' fd : keeps w w' -> present w fd -> present w' fd.
Proof.
  intros [K1 K2] (p & off & d & mo & H & F). unfold present, handle in *. rewrite K1. exists p, off.
  destruct (w_fs w' p) as [[d' mo']|] eqn:E; [exists d', mo'; auto|]. exfalso. apply (K2 p); [rewrite F; discriminate|exact E].
Qed.
Lemma file_write_keeps p b w : keeps w (snd (file_write p b w)).
Proof.
  unfold file_write. rewrite pop_fault_eq.
  assert (A : forall x, keeps w (do_append p x (next w))).
  { intro x. split; [reflexivity|]. intros q Hq. cbn [do_append emit set_fs w_fs next set_faults]. unfold fs_append.
    destruct (bytes_eqb q p) eqn:E; [|exact Hq]. apply bytes_eqb_eq in E. subst q. destruct (w_fs w p); [discriminate|contradiction]. }
  destruct (hd FOk (w_faults w)); apply A.
Qed.
Lemma run_calls_keeps p cs : forall w, keeps w (snd (run_calls (file_write p) cs w)).
Proof.
  induction cs as [|c cs IH]; intro w; [apply keeps_refl|]. cbn [run_calls].
  pose proof (file_write_keeps p c w) as H. destruct (file_write p c w) as [[n [x|]] w1]; [exact H|].
  eapply keeps_trans; [exact H|apply IH].
Qed.
Lemma enc_write_keeps p b e w : keeps w (snd (snd (enc_write (file_write p) b (e, w)))).
Proof.
  unfold enc_write. cbn [fst snd]. destruct (enc_write_loop_plan (file_write p) b 0 e w) as (n1 & e1 & Hp). rewrite Hp.
  pose proof (run_calls_keeps p (fst (enc_plan e b)) w) as H.
  destruct (run_calls (file_write p) (fst (enc_plan e b)) w) as [[x|] w1]; exact H.
Qed.
Lemma create_keeps p m w : keeps w (snd (create_file p m w)).
Proof.
  unfold create_file. rewrite pop_fault_eq.
  assert (A : keeps w (do_create p m (next w))).
  { split; [reflexivity|]. intros q Hq. cbn [do_create emit set_fs w_fs next set_faults]. unfold fs_create.
    destruct (bytes_eqb q p); [discriminate|exact Hq]. }
  destruct (hd FOk (w_faults w)); [|split; auto|]; (destruct p; [split; auto|exact A]).
Qed.
Lemma create_no_panic p m w : fst (create_file p m w) <> Panic.
Proof. unfold create_file. rewrite pop_fault_eq. destruct (hd FOk (w_faults w)); [|discriminate|]; destruct p; discriminate. Qed.

(* a Read with room for something, on a handle of an existing file *)
Lemma file_read_present fd n w : (0 < n)%nat -> present w fd ->
  exists b e w', file_read fd n w = (RRet b e, w') /\ (e = None -> present w' fd).
Proof.
  intros Hn (p & off & d & mo & H & F). destruct (file_read_spec fd p off d mo n w H F Hn) as (r & w' & E & (O & _) & _ & Cs).
  destruct Cs as [(got & -> & _ & _ & Hh & _)|[(-> & _ & Hh)|(-> & _)]]; do 3 eexists; (split; [exact E|]); intro X; try discriminate X.
  exists p, (off + length got)%nat, d, mo. split; [exact Hh|]. rewrite O. exact F.
Qed.
Lemma decoder_present fd k w : present w fd ->
  exists b e w', file_decoder fd (3 * k)%nat w = (RRet b e, w') /\ (e = None -> present w' fd).
Proof.
  intros (p & off & d & mo & H & F). destruct (file_decoder_spec fd p d mo off k w H F) as (r & w' & E & (O & _) & _ & Cs).
  destruct Cs as [(off' & Hh & _ & [(b & -> & _)|(b & at_ & -> & _)])|(b & -> & _)]; do 3 eexists; (split; [exact E|]); intro X; try discriminate X.
  exists p, off', d, mo. split; [exact Hh|]. rewrite O. exact F.
Qed.

Section Loops.
  Variable C : Crypto.
  Lemma seal_step_present fd q shared i non e w : present w fd ->
    match seal_step C (enc * world) shared (lift_reader (file_read fd)) (enc_write (file_write q)) i (non, (e, w)) with
    | inl (_, (_, w')) => present w' fd
    | inr (r, _) => r <> Panic
    end.
  Proof.
    intro P. unfold seal_step, lift_reader. cbn [snd fst].
    destruct (file_read_present fd chunk_nat w chunk_nat_pos P) as (b & er & w1 & E & K). rewrite E.
    destruct er as [er|]; [discriminate|]. specialize (K eq_refl).
    pose proof (enc_write_keeps q (box_seal C b non shared) e w1) as KW.
    destruct (enc_write (file_write q) (box_seal C b non shared) (e, w1)) as [[n [er|]] [e2 w2]]; [discriminate|]. cbn [snd] in KW.
    destruct (incrementNonce non) as [n2 [er|]]; [discriminate|]. exact (keeps_present _ _ _ KW K).
  Qed.
  Lemma seal_loop_present fd q shared k : forall i non e w, present w fd ->
    match iter_loop k (seal_step C (enc * world) shared (lift_reader (file_read fd)) (enc_write (file_write q))) i (non, (e, w)) with
    | inl _ => True
    | inr (r, _) => r <> Panic
    end.
  Proof.
    induction k as [|k IH]; intros i non e w P; cbn [iter_loop]; [exact I|].
    pose proof (seal_step_present fd q shared i non e w P) as S.
    destruct (seal_step _ _ _ _ _ _ _) as [[n2 [e2 w2]]|[r s]]; [apply IH; exact S|exact S].
  Qed.
  Lemma seal_no_panic fd q pub L e w : present w fd ->
    fst (seal C (enc * world) lift_draw pub (lift_reader (file_read fd)) L (enc_write (file_write q)) (e, w)) <> Panic.
  Proof.
    intro P. unfold seal. destruct (L =? 0); [discriminate|].
    assert (NP : pub_ToBox pub <> Panic).
    { unfold pub_ToBox. destruct (e_from_bytes _); discriminate. }
    destruct (pub_ToBox pub) as [edpub|er|]; [|discriminate|contradiction].
    rewrite lift_draw_eq. destruct (_ <? _)%nat; [discriminate|].
    match goal with |- context [enc_write (file_write q) ?h (e, ?w0)] =>
      pose proof (enc_write_keeps q h e w0) as KW; assert (P0 : present w0 fd) by exact P;
      destruct (enc_write (file_write q) h (e, w0)) as [[n [er|]] [e2 w2]] end; [discriminate|]. cbn [snd] in KW.
    rewrite for_loop_iter.
    match goal with |- context [iter_loop ?k (seal_step C _ ?sh _ _) 0 _] =>
      pose proof (seal_loop_present fd q sh k 0 zeroNonce e2 w2 (keeps_present _ _ _ KW P0)) as S end.
    destruct (iter_loop _ _ _ _) as [[n2 s]|[r s]]; [discriminate|exact S].
  Qed.

  Lemma open_step_present fd q shared i non w : present w fd ->
    match open_step C world shared (file_decoder fd) (file_write q) i (non, w) with
    | inl (_, w') => present w' fd
    | inr (r, _) => r <> Panic
    end.
  Proof.
    intro P. unfold open_step. rewrite sealed_nat_3.
    destruct (decoder_present fd (Z.to_nat 5467) w P) as (b & er & w1 & E & K). rewrite E.
    destruct er as [er|]; [discriminate|]. specialize (K eq_refl).
    destruct (box_open C b non shared) as [m|]; [|discriminate].
    pose proof (file_write_keeps q m w1) as KW.
    destruct (file_write q m w1) as [[n [er|]] w2]; [discriminate|]. cbn [snd] in KW.
    destruct (incrementNonce non) as [n2 [er|]]; [discriminate|]. exact (keeps_present _ _ _ KW K).
  Qed.
  Lemma open_loop_present fd q shared k : forall i non w, present w fd ->
    match iter_loop k (open_step C world shared (file_decoder fd) (file_write q)) i (non, w) with
    | inl _ => True
    | inr (r, _) => r <> Panic
    end.
  Proof.
    induction k as [|k IH]; intros i non w P; cbn [iter_loop]; [exact I|].
    pose proof (open_step_present fd q shared i non w P) as S.
    destruct (open_step _ _ _ _ _ _ _) as [[n2 w2]|[r s]]; [apply IH; exact S|exact S].
  Qed.
  Lemma open_body_no_panic fd q edpriv w : present w fd -> fst (open_body C world edpriv (file_decoder fd) (file_write q) w) <> Panic.
  Proof.
    intro P. unfold open_body. rewrite header_nat_3.
    destruct (decoder_present fd 24 w P) as (b & er & w1 & E & K). rewrite E.
    destruct er as [er|]; [discriminate|]. specialize (K eq_refl).
    destruct (negb _); [discriminate|]. cbv zeta. destruct (negb _); [discriminate|]. rewrite for_loop_iter.
    match goal with |- context [iter_loop ?k (open_step C _ ?sh _ _) 0 _] =>
      pose proof (open_loop_present fd q sh k 0 zeroNonce w1 K) as S end.
    destruct (iter_loop _ _ _ _) as [[n2 s]|[r s]]; [discriminate|exact S].
  Qed.
End Loops.

Lemma open_read_present p w : fst (open_read p w) <> Panic /\
  forall fd w', open_read p w = (Ok fd, w') -> exists d mo, handle w' fd p 0 /\ w_fs w' p = Some (File d mo).
Proof.
  destruct (open_read_spec p w) as (r & w' & E & (O & _) & _ & D). rewrite E. destruct D as [(m & -> & (mo & Cm) & Hh)|(e & -> & _)].
  - split; [discriminate|]. intros fd w2 H. injection H as <- <-. exists m, mo. split; [exact Hh|]. rewrite O. exact Cm.
  - split; [discriminate|]. intros fd w2 H. discriminate H.
Qed.

Lemma Seal_no_panic C pk mp ep w : fst (Seal C pk mp ep w) <> Panic.
Proof.
  rewrite Seal_eq. destruct (LoadPublicKey pk w) as [r1 w1] eqn:E1. destruct (LoadPublicKey_inv _ _ _ _ E1) as (_ & N1 & _).
  destruct r1 as [pub|e|]; [|discriminate|contradiction].
  destruct (open_read_present mp w1) as [N2 P2]. destruct (open_read mp w1) as [[fd|e|] w2]; [|discriminate|contradiction N2; reflexivity].
  destruct (P2 fd w2 eq_refl) as (d & mo & Hh & Hf).
  destruct (file_size_spec fd mp 0 d mo w2 Hh Hf) as (r3 & w3 & E3 & (O3 & _) & _ & D3 & C3). rewrite E3.
  assert (P3 : present w3 fd).
  { exists mp, 0%nat, d, mo. unfold handle in *. rewrite D3, O3. auto. }
  destruct C3 as [->|(e & -> & _)]; [|discriminate].
  pose proof (create_keeps (enc_path mp ep) 438 w3) as K4. pose proof (create_no_panic (enc_path mp ep) 438 w3) as N4.
  destruct (create_file (enc_path mp ep) 438 w3) as [[u|e|] w4]; [|discriminate|contradiction N4; reflexivity]. cbn [snd] in K4.
  unfold seal_tail. pose proof (file_write_keeps (enc_path mp ep) comment_text w4) as K5.
  destruct (file_write (enc_path mp ep) comment_text w4) as [[n [e|]] w5]; [discriminate|]. cbn [snd] in K5.
  match goal with |- context [seal C _ _ pub ?rd ?L ?wr (?e0, w5)] =>
    pose proof (seal_no_panic C fd (enc_path mp ep) pub L e0 w5 (keeps_present _ _ _ K5 (keeps_present _ _ _ K4 P3))) as S;
    destruct (seal C (enc * world) lift_draw pub rd L wr (e0, w5)) as [r es] end.
  destruct (enc_close _ es) as [er es2]. exact S.
Qed.

Lemma Open_no_panic C sk ep mp w : ~ In Panic (w_tty w) -> fst (Open C sk ep mp w) <> Panic.
Proof.
  intro Ht. rewrite Open_eq. destruct (LoadPrivateKey sk w) as [r1 w1] eqn:E1. destruct (LoadPrivateKey_inv _ _ _ _ E1) as (-> & N1 & L1).
  destruct r1 as [priv|e|]; [|discriminate|contradiction].
  destruct (L1 priv eq_refl) as (kf & _ & Rk). pose proof (readPrivateKeyFile_wf _ _ Rk) as W.
  destruct (open_read_present ep (next w)) as [N2 P2]. destruct (open_read_spec ep (next w)) as (r2 & w2 & E2 & O2 & _). rewrite E2 in *.
  destruct r2 as [fd|e|]; [|discriminate|contradiction N2; reflexivity].
  destruct (P2 fd w2 eq_refl) as (d & mo & Hh & Hf).
  destruct (skipComment_file fd ep d mo w2 Hh Hf) as (r3 & w3 & E3 & O3 & _ & C3). rewrite E3.
  destruct C3 as [(c & t & off & _ & _ & -> & Hh3 & _)|(e & -> & _)]; [|discriminate].
  assert (P3 : present w3 fd).
  { exists ep, off, d, mo. split; [exact Hh3|]. destruct O3 as (-> & _). exact Hf. }
  pose proof (create_keeps mp 438 w3) as K4. pose proof (create_no_panic mp 438 w3) as N4.
  assert (T4 : w_tty (snd (create_file mp 438 w3)) = w_tty w).
  { destruct O2 as (_ & _ & T2 & _). destruct O3 as (_ & _ & T3 & _). transitivity (w_tty w3); [|rewrite T3, T2; reflexivity].
    unfold create_file. rewrite pop_fault_eq. destruct (hd FOk (w_faults w3)); [|reflexivity|]; destruct mp; reflexivity. }
  destruct (create_file mp 438 w3) as [[u|e|] w4]; [|discriminate|contradiction N4; reflexivity]. cbn [snd] in K4, T4.
  unfold open_file. destruct (priv_ToBox C priv w4) as [[r p] w5] eqn:E5.
  destruct (ToBox_spec _ _ _ _ _ _ W E5) as (outs & _ & _ & F5 & D5 & _ & _ & R5).
  destruct r as [ed|e|]; [|discriminate|rewrite T4 in R5; contradiction].
  apply open_body_no_panic. apply (keeps_present w4); [|exact (keeps_present _ _ _ K4 P3)].
  split; [exact D5|]. intros x Hx. rewrite F5. exact Hx.
Qed.

Lemma Sign_no_panic C k mp s w : ~ In Panic (w_tty w) -> fst (Sign C k mp s w) <> Panic.
Proof.
  intro Ht. rewrite Sign_eq. cbv zeta. destruct (LoadPrivateKey k w) as [r1 w1] eqn:E1.
  destruct (LoadPrivateKey_inv _ _ _ _ E1) as (-> & N1 & L1).
  destruct r1 as [p|e|]; [|discriminate|contradiction]. destruct (L1 p eq_refl) as (kf & _ & Rk). pose proof (readPrivateKeyFile_wf _ _ Rk) as W.
  assert (SF : forall p w, fst (signFinish C k mp (sigPathOf mp s) p w) <> Panic).
  { intros p0 w0. destruct (signFinish C k mp (sigPathOf mp s) p0 w0) as [r w'] eqn:E. exact (proj1 (signFinish_spec _ _ _ _ _ _ _ _ E)). }
  destruct (IsEncrypted p); [|apply SF]. change (w_tty (next w)) with (w_tty w).
  destruct (w_tty w) as [|[b|e|] tl]; [discriminate| |discriminate|exfalso; apply Ht; left; reflexivity].
  pose proof (decrypt_no_panic C p b W) as ND. destruct (decrypt C p b) as [[u|e|] p']; [|discriminate|contradiction ND; reflexivity].
  specialize (SF p' (ask_world (next w) b tl)). destruct (signFinish _ _ _ _ _ _) as [r w3]. exact SF.
Qed.

(* ---- exit statuses ---- *)
Lemma action_status m onErr onOk w n w' : action m onErr onOk w = (n, w') ->
  (n = 0 \/ n = 1 \/ n = 2) /\ (n = 2 <-> fst (m w) = Panic) /\ (n = 0 <-> fst (m w) = Ok tt).
Proof.
  unfold action. destruct (m w) as [[[]|e|] w1]; intro H; injection H as <- _; cbn [fst];
    (split; [lia|split; split; intro; try reflexivity; try discriminate; lia]).
Qed.
Lemma action_exact m onErr onOk w n w' : action m onErr onOk w = (n, w') ->
  (fst (m w) = Ok tt -> n = 0 /\ w' = match onOk with Some t => emit (snd (m w)) (EvOut t) | None => snd (m w) end) /\
  (forall e, fst (m w) = Err e -> n = 1 /\ w' = emit (snd (m w)) (EvErr (onErr e))) /\
  (fst (m w) = Panic -> n = 2 /\ w' = snd (m w)).
Proof.
  unfold action. destruct (m w) as [[[]|e|] w1]; intro H; injection H as <- <-; cbn [fst snd];
    (split; [|split]); intros; try discriminate; split; try reflexivity; congruence.
Qed.

Lemma main_status C arg0 u args w n w' : ~ In Panic (w_tty w) -> main C arg0 u args w = (n, w') ->
  (n = 0 \/ n = 1 \/ n = 2) /\
  (n = 2 <-> exists ss rest, command_line ss args rest /\ stops rest /\ verifies ss /\
     fst (Verify C (or_default (string_value x70 ss) (defaultKeyBase u) (str ".pub")) (string_value x6d ss) (string_value x78 ss) w) = Panic).
Proof.
  intros Ht H. destruct (every_command_line args) as (ss & rest & Hc & [Hs|Hm]).
  2: { destruct (main_malformed _ _ _ _ _ _ _ _ _ Hc Hm H) as [-> _]. split; [auto|]. split; [discriminate|].
       intros (ss2 & rest2 & Hc2 & Hs2 & _). exfalso.
       destruct (flagParse_stops _ _ _ Hc2 Hs2) as (r & E). destruct (flagParse_malformed _ _ _ Hc Hm) as (msg & E2). congruence. }
  assert (U : forall ss2 rest2, command_line ss2 args rest2 -> stops rest2 -> flags_of ss2 = flags_of ss).
  { intros ss2 rest2 Hc2 Hs2. destruct (flagParse_stops _ _ _ Hc2 Hs2) as (r & E). destruct (flagParse_stops _ _ _ Hc Hs) as (r2 & E2). congruence. }
  rewrite (main_dispatch _ _ _ _ _ _ _ Hc Hs) in H. unfold dispatch in H.
  assert (X : ~ verifies ss -> (n = 0 \/ n = 1) -> (n = 0 \/ n = 1 \/ n = 2) /\
    (n = 2 <-> exists ss rest, command_line ss args rest /\ stops rest /\ verifies ss /\
     fst (Verify C (or_default (string_value x70 ss) (defaultKeyBase u) (str ".pub")) (string_value x6d ss) (string_value x78 ss) w) = Panic)).
  { intros V N. split; [lia|]. split; [lia|]. intros (ss2 & rest2 & Hc2 & Hs2 & V2 & _). exfalso. apply V.
    specialize (U _ _ Hc2 Hs2). unfold verifies in *. change (bool_value x47 ss) with (f_G (flags_of ss)).
    change (bool_value x53 ss) with (f_S (flags_of ss)). change (bool_value x56 ss) with (f_V (flags_of ss)). rewrite <- U. exact V2. }
  cbn [flags_of f_s f_p f_G f_S f_V f_E f_D f_n f_m f_x f_c] in H. rewrite !or_default_eq in H.
  unfold verifies in X.
  destruct (bool_value x47 ss) eqn:HG in *.
  { apply X; [intuition congruence|]. unfold generateAction in H. destruct (isEmpty _); [injection H as <- _; auto|].
    assert (G : forall k pass w, fst (GenerateKey C k pass None w) <> Panic).
    { intros k pass w0. destruct (GenerateKey C k pass None w0) as [r w2] eqn:E. exact (proj1 (GenerateKey_spec _ _ _ _ _ _ _ E)). }
    destruct (bool_value x6e ss) in *.
    { destruct (action_status _ _ _ _ _ _ H) as (A & B & _). destruct A as [A|[A|A]]; auto. exfalso. apply B in A. exact (G _ _ _ A). }
    destruct (prompt_outcome w) as [(pass & tl & i & w1 & E1 & E2 & E3 & _)|(_ & r & w1 & E & Nr & _)].
    - rewrite E2, E3 in H. destruct (action_status _ _ _ _ _ _ H) as (A & B & _). destruct A as [A|[A|A]]; auto. exfalso. apply B in A. exact (G _ _ _ A).
    - rewrite E in H. destruct r as [i|e|]; [contradiction (Nr i eq_refl)|injection H as <- _; auto|].
      exfalso. rewrite prompt_true in E. destruct (w_tty w) as [|[a|e|] t]; cbv zeta in E; try discriminate E.
      + destruct t as [|[b|e|] t]; try discriminate E; [destruct (bytes_eqb a b); discriminate E|].
        apply Ht. right. left. reflexivity.
      + apply Ht. left. reflexivity. }
  destruct (bool_value x53 ss) eqn:HS in *.
  { apply X; [intuition congruence|]. destruct (_ || _); [injection H as <- _; auto|].
    destruct (action_status _ _ _ _ _ _ H) as (A & B & _). destruct A as [A|[A|A]]; auto. exfalso. apply B in A. exact (Sign_no_panic _ _ _ _ _ Ht A). }
  destruct (bool_value x56 ss) eqn:HV in *.
  { destruct (action_status _ _ _ _ _ _ H) as (A & B & _). split; [exact A|]. rewrite B. split.
    - intro P. exists ss, rest. unfold verifies. auto 10.
    - intros (ss2 & rest2 & Hc2 & Hs2 & V2 & P). specialize (U _ _ Hc2 Hs2).
      change (string_value x70 ss2) with (f_p (flags_of ss2)) in P. change (string_value x6d ss2) with (f_m (flags_of ss2)) in P.
      change (string_value x78 ss2) with (f_x (flags_of ss2)) in P. rewrite U in P. exact P. }
  destruct (bool_value x45 ss) eqn:HE in *.
  { apply X; [intuition congruence|].
    destruct (action_status _ _ _ _ _ _ H) as (A & B & _). destruct A as [A|[A|A]]; auto. exfalso. apply B in A. exact (Seal_no_panic _ _ _ _ _ A). }
  destruct (bool_value x44 ss) eqn:HD in *.
  { apply X; [intuition congruence|].
    destruct (action_status _ _ _ _ _ _ H) as (A & B & _). destruct A as [A|[A|A]]; auto. exfalso. apply B in A. exact (Open_no_panic _ _ _ _ _ Ht A). }
  apply X; [intuition congruence|]. injection H as <- _; auto.
Qed.


(* ---- the answers of -V ---- *)
Lemma main_status_exact C arg0 u args w n w' : ~ In Panic (w_tty w) -> main C arg0 u args w = (n, w') ->
  (n = 0 \/ n = 1 \/ n = 2) /\
  (n = 2 <-> exists ss rest, command_line ss args rest /\ stops rest /\ verifies ss /\
     too_short w (or_default (string_value x70 ss) (defaultKeyBase u) (str ".pub")) (string_value x6d ss)
       (sigPathOf (string_value x6d ss) (string_value x78 ss))).
Proof.
  intros Ht H. destruct (main_status _ _ _ _ _ _ _ Ht H) as [A B]. split; [exact A|]. rewrite B.
  split; intros (ss & rest & P1 & P2 & P3 & P4); exists ss, rest; (split; [exact P1|]; split; [exact P2|]; split; [exact P3|]).
  - apply (proj1 (Verify_panic_iff C _ _ _ w)) in P4. exact P4.
  - apply (proj2 (Verify_panic_iff C _ _ _ w)). exact P4.
Qed.

Lemma main_verify_exact C arg0 u ss args rest w n w' : command_line ss args rest -> stops rest -> verifies ss ->
  main C arg0 u args w = (n, w') ->
  let pp := or_default (string_value x70 ss) (defaultKeyBase u) (str ".pub") in
  let mp := string_value x6d ss in let sp := sigPathOf mp (string_value x78 ss) in
  w_fs w' = w_fs w /\ w_rng w' = w_rng w /\ w_tty w' = w_tty w /\
  (n = 0 /\ accepted C w pp mp sp /\ w_log w' = w_log w ++ [EvOut (mp ++ str ": OK" ++ [x0a])] \/
   n = 1 /\ ~ accepted C w pp mp sp /\ ~ too_short w pp mp sp /\ w_log w' = w_log w ++ [EvErr (mp ++ str ": invalid signature" ++ [x0a])] \/
   n = 2 /\ too_short w pp mp sp /\ w_log w' = w_log w).
Proof.
  intros Hc Hs (HG & HS & HV) H pp mp sp. rewrite (main_dispatch _ _ _ _ _ _ _ Hc Hs) in H. unfold dispatch in H.
  cbn [flags_of f_s f_p f_G f_S f_V f_m f_x] in H. rewrite HG, HS, HV, !or_default_eq in H. fold pp mp in H.
  assert (A : (exists w', Verify C pp mp (string_value x78 ss) w = (Ok tt, w')) <-> accepted C w pp mp sp) by exact (Verify_ok_iff C pp mp (string_value x78 ss) w).
  assert (B : fst (Verify C pp mp (string_value x78 ss) w) = Panic <-> too_short w pp mp sp) by exact (Verify_panic_iff C pp mp (string_value x78 ss) w).
  unfold action in H. destruct (Verify C pp mp (string_value x78 ss) w) as [r w1] eqn:E.
  destruct (Verify_world _ _ _ _ _ _ _ E) as (fl & ->). cbn [fst] in B.
  destruct r as [[]|e|]; injection H as <- <-; (split; [reflexivity|]); (split; [reflexivity|]); (split; [reflexivity|]).
  - left. split; [reflexivity|]. split; [apply A; eauto|reflexivity].
  - right. left. split; [reflexivity|]. split; [|split; [|reflexivity]].
    + intro X. apply A in X. destruct X as (? & X). discriminate X.
    + intro X. apply B in X. discriminate X.
  - right. right. split; [reflexivity|]. split; [apply B; reflexivity|reflexivity].
Qed.

(* ---- whole sessions ---- *)
Ltac line ss argss := apply (main_dispatch _ _ _ ss _ []); [exists argss; split; [|reflexivity]|constructor].
Ltac flag := first [apply (ren_next (str "-")); [left; reflexivity|cbv; tauto]|apply (ren_bool (str "-")); [left; reflexivity|cbv; tauto]].

Lemma line_generate C arg0 u np k w : main C arg0 u (generate_args np k) w =
  dispatch C arg0 u (flags_of (SetB x47 true :: (if np then [SetB x6e true] else []) ++ [SetS x70 k])) w.
Proof.
  destruct np.
  - line ([SetB x47 true; SetB x6e true; SetS x70 k]) ([[str "-G"]; [str "-n"]; [str "-p"; k]]). repeat constructor; flag.
  - line ([SetB x47 true; SetS x70 k]) ([[str "-G"]; [str "-p"; k]]). repeat constructor; flag.
Qed.
Lemma line_sign C arg0 u s m w : main C arg0 u [str "-S"; str "-s"; s; str "-m"; m] w =
  dispatch C arg0 u (flags_of [SetB x53 true; SetS x73 s; SetS x6d m]) w.
Proof. line ([SetB x53 true; SetS x73 s; SetS x6d m]) ([[str "-S"]; [str "-s"; s]; [str "-m"; m]]). repeat constructor; flag. Qed.
Lemma line_verify C arg0 u p m w : main C arg0 u [str "-V"; str "-p"; p; str "-m"; m] w =
  dispatch C arg0 u (flags_of [SetB x56 true; SetS x70 p; SetS x6d m]) w.
Proof. line ([SetB x56 true; SetS x70 p; SetS x6d m]) ([[str "-V"]; [str "-p"; p]; [str "-m"; m]]). repeat constructor; flag. Qed.
Lemma line_seal C arg0 u p m c w : main C arg0 u [str "-E"; str "-p"; p; str "-m"; m; str "-c"; c] w =
  dispatch C arg0 u (flags_of [SetB x45 true; SetS x70 p; SetS x6d m; SetS x63 c]) w.
Proof. line ([SetB x45 true; SetS x70 p; SetS x6d m; SetS x63 c]) ([[str "-E"]; [str "-p"; p]; [str "-m"; m]; [str "-c"; c]]). repeat constructor; flag. Qed.
Lemma line_open C arg0 u s c m w : main C arg0 u [str "-D"; str "-s"; s; str "-c"; c; str "-m"; m] w =
  dispatch C arg0 u (flags_of [SetB x44 true; SetS x73 s; SetS x63 c; SetS x6d m]) w.
Proof. line ([SetB x44 true; SetS x73 s; SetS x63 c; SetS x6d m]) ([[str "-D"]; [str "-s"; s]; [str "-c"; c]; [str "-m"; m]]). repeat constructor; flag. Qed.

Lemma isEmpty_false b : b <> [] -> isEmpty b = false.
Proof. destruct b; [contradiction|reflexivity]. Qed.

Lemma GenerateKey_leaves C k pass opts w w' : LengthLaws C -> GenerateKey C k pass opts w = (Ok tt, w') ->
  w_rng w' = skipn 56 (w_rng w) /\ w_tty w' = w_tty w.
Proof.
  intros LL. rewrite GenerateKey_eq. destruct (GenerateKeypair C pass opts w) as [[[priv pub]|e|] w1] eqn:E1; try discriminate.
  destruct (generate_pair _ _ _ _ _ _ _ LL E1) as [_ ->].
  destruct (WriteFile (sec_path k) (sec_file priv) 420 _) as [r2 w2] eqn:E2.
  apply WriteFile_spec in E2. destruct E2 as (N2 & evs1 & W1 & L1 & F1 & S1).
  destruct r2 as [[]|e|]; try discriminate. intro H. apply WriteFile_spec in H. destruct H as (N3 & evs2 & W2 & L2 & F2 & S2).
  destruct S1 as (A1 & A2 & _). destruct S2 as (B1 & B2 & _). rewrite B1, B2, A1, A2. split; reflexivity.
Qed.

Lemma session_generate C arg0 u np k pass t w : LengthLaws C -> k <> [] -> generate_typed np pass (w_tty w) t ->
  no_faults w -> (56 <= length (w_rng w))%nat ->
  exists v w1, main C arg0 u (generate_args np k) w = (0, w1) /\ GenerateKey C k pass None v = (Ok tt, w1) /\
    w_fs v = w_fs w /\ w_rng v = w_rng w /\ no_faults w1 /\ w_tty w1 = t /\ w_rng w1 = skipn 56 (w_rng w).
Proof.
  intros LL Hk Ht Hn Hr. rewrite line_generate. unfold dispatch.
  assert (X : exists v, w_fs v = w_fs w /\ w_rng v = w_rng w /\ w_faults v = w_faults w /\ w_tty v = t /\
    generateAction C k np w = action (GenerateKey C k pass None) (fun e => str "Failed to generate keypair: " ++ errText e ++ [x0a]) None v).
  { unfold generateAction. rewrite (isEmpty_false k Hk). destruct np; cbn [generate_typed] in Ht.
    - destruct Ht as [-> <-]. exists w. auto 10.
    - destruct (prompt_outcome w) as [(pass' & tl & i & w1 & E1 & E2 & E3 & F1 & F2 & F3 & F4)|(N & _)]; [|elim (N _ _ Ht)].
      assert (pass' = pass /\ tl = t) as [-> ->] by (split; congruence). exists w1. rewrite E2, E3. auto 10. }
  destruct X as (v & F1 & F2 & F3 & F4 & X).
  destruct (GenerateKey_runs C k pass None v LL) as (w1 & E & Nf).
  { rewrite F2. exact Hr. } { right. discriminate. } { rewrite F3. exact Hn. }
  destruct (GenerateKey_leaves _ _ _ _ _ _ LL E) as [L1 L2].
  exists v, w1. split; [|rewrite L1, L2, F2; auto 10].
  transitivity (generateAction C k np w).
  - destruct np; unfold dispatch; cbn [flags_of f_G f_n f_p f_s bool_value string_value app]; cbv [beqb]; cbn; rewrite (isEmpty_false k Hk); reflexivity.
  - rewrite X. unfold action. rewrite E. reflexivity.
Qed.

Lemma session_sign C arg0 u np k pass t mp m n w : LengthLaws C -> EdCorrect C -> k <> [] ->
  generate_typed np pass (w_tty w) t -> (pass <> [] -> exists t', t = Ok pass :: t') ->
  no_faults w -> (56 <= length (w_rng w))%nat ->
  contents w mp m -> mp <> [] -> mp <> k ++ str ".sec" -> mp <> k ++ str ".pub" -> mp ++ str ".sig" <> k ++ str ".pub" ->
  last_component (k ++ str ".pub") n -> lf_free n -> Z.of_nat (length n) <= 65000 ->
  exists w1 w2 w3,
    main C arg0 u (generate_args np k) w = (0, w1) /\
    main C arg0 u [str "-S"; str "-s"; k ++ str ".sec"; str "-m"; mp] w1 = (0, w2) /\
    main C arg0 u [str "-V"; str "-p"; k ++ str ".pub"; str "-m"; mp] w2 = (0, w3) /\
    w_log w3 = w_log w2 ++ [EvOut (mp ++ str ": OK" ++ [x0a])].
Proof.
  intros LL EC Hk Ht Hp Hn Hr Cm Hm M1 M2 M3 Lc Lf Ln.
  destruct (session_generate C arg0 u np k pass t w LL Hk Ht Hn Hr) as (v & w1 & E1 & G & F & R & N1 & T1 & _).
  assert (Cm1 : contents w1 mp m).
  { destruct Cm as (mo & Cm). exists mo. rewrite (GenerateKey_other _ _ _ _ _ _ _ mp G M1 M2), F. exact Cm. }
  destruct (sign_then_verify C k pass None v w1 w1 m mp [] n LL EC G eq_refl eq_refl Cm1 N1 ltac:(rewrite T1; exact Hp) Lc Lf Ln) as (w2 & w3 & S & _ & V).
  { cbn. destruct mp; discriminate. } { exact M3. } { intro X. apply (f_equal (@length byte)) in X. cbn [sigPathOf] in X. rewrite app_length in X. cbn in X. lia. }
  exists w1, w2, (emit w3 (EvOut (mp ++ str ": OK" ++ [x0a]))). split; [exact E1|]. 
  assert (P : forall p e, isEmpty (p ++ str e) = match e with EmptyString => isEmpty p | _ => false end).
  { intros [|? ?] [|? ?]; reflexivity. }
  split; [|split].
  - rewrite line_sign. unfold dispatch. cbn -[Sign str action defaultKeyBase]. rewrite !P, (isEmpty_false mp Hm). cbn -[Sign str action defaultKeyBase]. rewrite ?P. cbn [orb andb].
    unfold action. unfold sec_path in S. rewrite S. reflexivity.
  - rewrite line_verify. unfold dispatch. cbn -[Verify str action defaultKeyBase]. rewrite P. cbn -[Verify str action defaultKeyBase].
    unfold action. unfold pub_path in V. rewrite V. reflexivity.
  - destruct (Verify_world _ _ _ _ _ _ _ V) as (fl & ->). reflexivity.
Qed.

Lemma session_seal C arg0 u np k pass t mp m ep out w : LengthLaws C -> BoxTidy C -> BoxCorrect C -> DHCorrect C -> ToBoxAgree C ->
  k <> [] -> generate_typed np pass (w_tty w) t -> (pass <> [] -> exists t', t = Ok pass :: t') -> not_mistaken C pass None (w_rng w) ->
  no_faults w -> (88 <= length (w_rng w))%nat ->
  contents w mp m -> m <> [] -> Z.of_nat (length m) < 2 ^ 63 -> mp <> k ++ str ".sec" -> mp <> k ++ str ".pub" ->
  ep <> [] -> ep <> mp -> ep <> k ++ str ".sec" -> out <> [] -> out <> ep ->
  exists w1 w2 w3,
    main C arg0 u (generate_args np k) w = (0, w1) /\
    main C arg0 u [str "-E"; str "-p"; k ++ str ".pub"; str "-m"; mp; str "-c"; ep] w1 = (0, w2) /\
    main C arg0 u [str "-D"; str "-s"; k ++ str ".sec"; str "-c"; ep; str "-m"; out] w2 = (0, w3) /\
    contents w3 out m.
Proof.
  intros LL BT BC DH TB Hk Ht Hp NM Hn Hr Cm Hm Lm M1 M2 Q1 Q2 Q3 O1 O2.
  destruct (session_generate C arg0 u np k pass t w LL Hk Ht Hn ltac:(lia)) as (v & w1 & E1 & G & F & R & N1 & T1 & R1).
  assert (Cm1 : contents w1 mp m).
  { destruct Cm as (mo & Cm). exists mo. rewrite (GenerateKey_other _ _ _ _ _ _ _ mp G M1 M2), F. exact Cm. }
  assert (Q : enc_path mp ep = ep) by (destruct ep; [contradiction|reflexivity]).
  pose proof (seal_then_open_later C k pass None v w1 w1 m mp ep LL BT BC DH TB G ltac:(rewrite R; exact NM) eq_refl eq_refl Cm1 Hm Lm N1) as X.
  cbv zeta in X. rewrite Q in X. destruct X as (w2 & S & N2 & T2 & _ & L); [rewrite R1, skipn_length; lia|exact Q2|exact Q3|].
  destruct (L (emit w2 (EvOut (mp ++ str ": OK" ++ [x0a]))) out eq_refl eq_refl N2) as (w3 & O & Co & _).
  { intro X. cbn [emit w_tty]. rewrite T2, T1. exact (Hp X). } { exact O1. } { exact O2. }
  exists w1, (emit w2 (EvOut (mp ++ str ": OK" ++ [x0a]))), (emit w3 (EvOut (ep ++ str ": OK" ++ [x0a]))). split; [exact E1|]. 
  assert (P : forall p e, isEmpty (p ++ str e) = match e with EmptyString => isEmpty p | _ => false end).
  { intros [|? ?] [|? ?]; reflexivity. }
  split; [|split].
  - rewrite line_seal. unfold dispatch. cbn -[Seal str action defaultKeyBase]. rewrite P. cbn -[Seal str action defaultKeyBase].
    unfold action. unfold pub_path in S. rewrite S. reflexivity.
  - rewrite line_open. unfold dispatch. cbn -[Open str action defaultKeyBase]. rewrite P. cbn -[Open str action defaultKeyBase].
    unfold action. unfold sec_path in O. rewrite O. reflexivity.
  - exact Co.
Qed.

Lemma verify_line_example : command_line [SetB x56 true; SetS x6d (str "msg"); SetS x70 (str "k.pub")]
    [str "-V"; str "-m=msg"; str "-p"; str "k.pub"; str "x"; str "-G"] [str "x"; str "-G"] /\
  stops [str "x"; str "-G"] /\ verifies [SetB x56 true; SetS x6d (str "msg"); SetS x70 (str "k.pub")].
Proof.
  split; [|split; [apply stop_word; intros r X; discriminate X|repeat split]].
  exists [[str "-V"]; [str "-m=msg"]; [str "-p"; str "k.pub"]]. split; [|reflexivity].
  constructor; [flag|]. constructor; [apply (ren_eq (str "-")); [left; reflexivity|cbv; tauto]|]. constructor; [flag|constructor].
Qed.
