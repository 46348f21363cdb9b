(* Seal against an arbitrary operating system: proofs. *)
From Verif Require Import SealChain SealFacts B64StreamFacts CallFacts.
From Verif Require Import SpecCalls.
Local Open Scope Z_scope.

Section Os.
Variable C : Crypto.
Variable O : os.

Notation srd fd := (beside_reader (h_read O fd)).
Notation swr out := (enc_write (h_write O out)).

Lemma srd_eq fd n (e : enc) h : srd fd n (e, h) = (RRet (fst (o_read O h fd n)) (snd (o_read O h fd n)), (e, h ++ [SRead fd n (fst (o_read O h fd n)) (snd (o_read O h fd n))])).
Proof. unfold beside_reader, h_read. cbn [fst snd]. destruct (o_read O h fd n) as [b r]. reflexivity. Qed.

Lemma sealing_calls fd out shared i s ms s' : sealing C _ (srd fd) (swr out) shared i s ms s' ->
  forall body, enc_at body (fst s) ->
  exists l, snd s' = snd s ++ l /\ Forall (works [out; fd]) l /\ clean nothing l /\ pieces fd l = ms /\ drawn l = [] /\
    enc_at (body ++ boxes C shared i ms) (fst s') /\ text_so_far (body ++ boxes C shared i ms) = text_so_far body ++ written out l.
Proof.
  induction 1 as [i s|i s m s1 n s2 ms s3 R W S IH]; intros body A.
  - exists []. rewrite !app_nil_r. split; [reflexivity|]. split; [constructor|]. split; [apply clean_nil|]. split; [reflexivity|]. split; [reflexivity|]. split; [exact A|reflexivity].
  - destruct s as [e h]. rewrite srd_eq in R. destruct (o_read O h fd chunk_nat) as [b r] eqn:Q. cbn [fst snd] in *. injection R as -> -> <-.
    destruct s2 as [e2 h2]. apply enc_calls in W; [|exact (enc_at_index _ _ A)]. destruct W as (l2 & -> & W2 & _ & Cl2 & Wr2 & ->).
    destruct (enc_at_plan body e (box_seal C m (nonce i) shared) A) as [A2 T2].
    destruct (IH _ A2) as (l & E & W & Cl & P & D & A3 & T3). cbn [fst snd] in *.
    exists ([SRead fd chunk_nat m None] ++ l2 ++ l). split; [rewrite E, <- !app_assoc; reflexivity|].
    split; [apply Forall_app; split; [constructor; [cbn; auto|constructor]|apply Forall_app; split; [eapply is_write_works; [|exact W2]; cbn; auto|exact W]]|].
    split; [apply clean_app; split; [constructor; [left; reflexivity|constructor]|apply clean_app; split; assumption]|].
    split; [rewrite !pieces_app, (is_write_pieces out fd l2 W2), P; cbn [pieces flat_map]; rewrite Nat.eqb_refl; reflexivity|].
    split; [rewrite !drawn_app, (is_write_drawn out l2 W2), D; reflexivity|].
    cbn [boxes]. rewrite app_assoc. split; [exact A3|]. rewrite T3, T2, <- Wr2, !written_app, <- app_assoc. reflexivity.
Qed.

Lemma seal_end_calls fd out shared i s r s' : seal_end C _ (srd fd) (swr out) shared i s r s' -> (e_index (fst s) < 3)%nat ->
  exists l, snd s' = snd s ++ l /\ Forall (works [out; fd]) l /\ ends nothing l r /\ (e_index (fst s') < 3)%nat /\ r <> Ok tt /\ drawn l = [].
Proof.
  intros E L. destruct E as [s' R|b e s' R|m s1 n e s' R W]; destruct s as [e0 h]; rewrite srd_eq in R;
  destruct (o_read O h fd chunk_nat) as [b0 r0] eqn:Q; cbn [fst snd] in *.
  - discriminate.
  - injection R as -> -> <-. exists [SRead fd chunk_nat b (Some e)]. split; [reflexivity|]. split; [constructor; [cbn; auto|constructor]|].
    split; [apply ends_one; reflexivity|]. split; [exact L|]. split; [discriminate|reflexivity].
  - injection R as -> -> <-. destruct s' as [e2 h2]. apply enc_calls in W; [|exact L]. destruct W as (l2 & -> & W2 & L2 & X).
    exists ([SRead fd chunk_nat m None] ++ l2). split; [cbn [snd]; rewrite <- app_assoc; reflexivity|].
    split; [apply Forall_app; split; [constructor; [cbn; auto|constructor]|eapply is_write_works; [|exact W2]; cbn; auto]|].
    split; [apply ends_app; [constructor; [left; reflexivity|constructor]|exact X]|]. split; [exact L2|]. split; [discriminate|].
    rewrite drawn_app, (is_write_drawn out l2 W2). reflexivity.
Qed.

Definition sealed_here (pub : Public) (len : Z) (fd : nat) (l : list step) (body : bytes) : Prop :=
  (len = 0 /\ body = []) \/
  (0 < len /\ exists edpub epriv, pub_ToBox pub = Ok edpub /\ drawn l = [epriv] /\
     Z.of_nat (length (pieces fd l)) = (len + 16384) / 16385 /\
     body = sealed_body C (box_precompute C edpub epriv) (x25519_base C epriv) (pieces fd l)).

Lemma seal_run_calls pub len fd out h r s' :
  seal_run C _ (beside_rand O) (srd fd) (swr out) pub len (NewEncoder, h) r s' ->
  exists l, snd s' = h ++ l /\ Forall (works [out; fd]) l /\ ends nothing l r /\ (e_index (fst s') < 3)%nat /\
    (r = Ok tt -> exists body, sealed_here pub len fd l body /\ enc_at body (fst s') /\ text_so_far body = written out l).
Proof.
  intro R. pose proof (enc_at_index _ _ enc_at_new) as L0.
  destruct R as [Hl|e Hl TB|edpub e s' Hl TB D|edpub s' Hl TB D|edpub epriv s1 n e s' Hl TB D W|edpub epriv s1 n s2 ms s3 r s' Hl TB D W Sl Lm E
                |edpub epriv s1 n s2 ms s' Hl TB D W Sl Lm].
  - exists []. rewrite app_nil_r. split; [reflexivity|]. split; [constructor|]. split; [apply clean_ends; constructor|]. split; [exact L0|].
    intros _. exists []. split; [left; auto|]. split; [exact enc_at_new|reflexivity].
  - exists []. rewrite app_nil_r. split; [reflexivity|]. split; [constructor|]. split; [apply clean_ends; constructor|]. split; [exact L0|discriminate].
  - unfold beside_rand, h_rand in D. cbn [fst snd] in D. destruct (o_rand O h 32) as [b|e'] eqn:Q; cbn [got] in D; [discriminate|].
    injection D as -> <-. exists [SRand 32 (inr e)]. split; [reflexivity|]. split; [constructor; [exact I|constructor]|].
    split; [apply ends_one; reflexivity|]. split; [exact L0|discriminate].
  - unfold beside_rand, h_rand in D. cbn [fst snd] in D. destruct (o_rand O h 32) as [b|e'] eqn:Q; cbn [got] in D; discriminate.
  - unfold beside_rand, h_rand in D. cbn [fst snd] in D. destruct (o_rand O h 32) as [b|e'] eqn:Q; cbn [got] in D; [|discriminate].
    injection D as -> <-. destruct s' as [e2 h2]. apply enc_calls in W; [|exact L0]. destruct W as (l2 & -> & W2 & L2 & X).
    exists ([SRand 32 (inl epriv)] ++ l2). split; [cbn [snd]; rewrite <- app_assoc; reflexivity|].
    split; [apply Forall_app; split; [constructor; [exact I|constructor]|eapply is_write_works; [|exact W2]; cbn; auto]|].
    split; [apply ends_app; [constructor; [left; reflexivity|constructor]|exact X]|]. split; [exact L2|discriminate].
  - unfold beside_rand, h_rand in D. cbn [fst snd] in D. destruct (o_rand O h 32) as [b|e'] eqn:Q; cbn [got] in D; [|discriminate].
    injection D as -> <-. destruct s2 as [e2 h2]. apply enc_calls in W; [|exact L0]. destruct W as (l2 & -> & W2 & L2 & Cl2 & Wr2 & ->).
    destruct (enc_at_plan _ _ (sealed_header C (box_precompute C edpub epriv) (x25519_base C epriv) ((len + 16384) / 16385)) enc_at_new) as [A2 T2].
    destruct (sealing_calls _ _ _ _ _ _ _ Sl _ A2) as (l3 & E3 & W3 & Cl3 & _ & _ & A3 & _).
    destruct (seal_end_calls _ _ _ _ _ _ _ E (enc_at_index _ _ A3)) as (l4 & E4 & W4 & X4 & L4 & N4 & _). cbn [fst snd] in *.
    exists ([SRand 32 (inl epriv)] ++ l2 ++ l3 ++ l4). split; [rewrite E4, E3, <- !app_assoc; reflexivity|].
    split; [repeat (apply Forall_app; split); [constructor; [exact I|constructor]|eapply is_write_works; [|exact W2]; cbn; auto|exact W3|exact W4]|].
    split; [apply ends_app; [constructor; [left; reflexivity|constructor]|apply ends_app; [exact Cl2|apply ends_app; [exact Cl3|exact X4]]]|].
    split; [exact L4|]. intro Hr. contradiction.
  - unfold beside_rand, h_rand in D. cbn [fst snd] in D. destruct (o_rand O h 32) as [b|e'] eqn:Q; cbn [got] in D; [|discriminate].
    injection D as -> <-. destruct s2 as [e2 h2]. apply enc_calls in W; [|exact L0]. destruct W as (l2 & -> & W2 & L2 & Cl2 & Wr2 & ->).
    destruct (enc_at_plan _ _ (sealed_header C (box_precompute C edpub epriv) (x25519_base C epriv) ((len + 16384) / 16385)) enc_at_new) as [A2 T2].
    destruct (sealing_calls _ _ _ _ _ _ _ Sl _ A2) as (l3 & E3 & W3 & Cl3 & P3 & D3 & A3 & T3). cbn [fst snd] in *.
    exists ([SRand 32 (inl epriv)] ++ l2 ++ l3). split; [rewrite E3, <- !app_assoc; reflexivity|].
    split; [repeat (apply Forall_app; split); [constructor; [exact I|constructor]|eapply is_write_works; [|exact W2]; cbn; auto|exact W3]|].
    split; [apply clean_ends; repeat (apply clean_app; split); [constructor; [left; reflexivity|constructor]|exact Cl2|exact Cl3]|].
    split; [exact (enc_at_index _ _ A3)|]. intros _. eexists. split; [|split; [exact A3|]].
    + right. split; [exact Hl|]. exists edpub, epriv. split; [exact TB|]. rewrite !drawn_app, !pieces_app, (is_write_drawn out l2 W2), (is_write_pieces out fd l2 W2), D3, P3.
      split; [reflexivity|]. cbn [pieces flat_map app]. split; [exact Lm|]. rewrite <- Lm. reflexivity.
    + rewrite T3, T2, !written_app, Wr2. reflexivity.
Qed.

(* the whole of Seal *)
Lemma has_in2 a l : has a (a :: l) = true.
Proof. unfold has. cbn. rewrite Nat.eqb_refl. reflexivity. Qed.
Lemma drop_hd a l : drop_one a (a :: l) = l.
Proof. cbn. rewrite Nat.eqb_refl. reflexivity. Qed.
Lemma works_then_close out fds l c : Forall (works (out :: fds)) l -> in_use (out :: fds) (l ++ [SClose out c]) = Some fds.
Proof. intro W. rewrite in_use_app, (works_in_use _ _ W). cbn [in_use]. rewrite has_in2, drop_hd. reflexivity. Qed.

Definition early (rs ws : list path) (r : res unit) (h : list step) : Prop :=
  in_use [] h = Some [] /\ Forall (touches rs ws) h /\ sealing_tail h r /\ r <> Ok tt.
Definition opening_calls pk pf mp fd len q out : list step :=
  [SReadFile pk (inl pf); SOpen mp (inl fd); SStat fd (inl len); SCreate q 438 (inl out)].

Lemma seal_shape pk mp ep r h : file_rules O -> Seal_os C O pk mp ep [] = (r, h) ->
  early [pk; mp] [enc_path mp ep] r h \/
  exists pf pub fd len out l ws c1 c2, readPublicKeyFile pf = Ok pub /\
    h = opening_calls pk pf mp fd len (enc_path mp ep) out ++ (l ++ ws) ++ [SClose out c1; SClose fd c2] /\
    Forall (works [out; fd]) (l ++ ws) /\ ends nothing l r /\ Forall rest_of_text ws /\ (length ws <= 2)%nat /\
    (r = Ok tt -> exists body, (clean nothing ws -> written out (l ++ ws) = sealed_file body) /\
       sealed_here pub len fd (l ++ ws) body).
Proof.
  intros [_ FS] H. unfold Seal_os, LoadPublicKey_os, hbind, hlift, h_readfile, h_open in H. cbn [app] in H.
  destruct (o_readfile O [] pk) as [pf|e] eqn:Q1; cbn [got] in H.
  2:{ left. injection H as <- <-. split; [reflexivity|]. split; [constructor; [cbn; auto|constructor]|]. split; [|discriminate].
      exists [SReadFile pk (inr e)], [], []. split; [reflexivity|]. split; [apply ends_noticed, ends_one; reflexivity|].
      split; [constructor|split; [cbn; lia|constructor]]. }
  destruct (readPublicKeyFile pf) as [pub|e|] eqn:RP.
  2,3: left; injection H as <- <-; (split; [reflexivity|]); (split; [constructor; [cbn; auto|constructor]|]); (split; [|discriminate]);
      exists [SReadFile pk (inl pf)], [], []; (split; [reflexivity|]); (split; [apply ends_noticed, clean_ends; constructor; [left; reflexivity|constructor]|]);
      (split; [constructor|split; [cbn; lia|constructor]]).
  destruct (o_open O [SReadFile pk (inl pf)] mp) as [fd|e] eqn:Q2; cbn [got] in H.
  2:{ left. injection H as <- <-. split; [reflexivity|]. split; [repeat (constructor; [cbn; auto|]); constructor|]. split; [|discriminate].
      exists [SReadFile pk (inl pf); SOpen mp (inr e)], [], []. split; [reflexivity|].
      split; [apply ends_noticed, (ends_snoc nothing [SReadFile pk (inl pf)]); [constructor; [left; reflexivity|constructor]|reflexivity]|].
      split; [constructor|split; [cbn; lia|constructor]]. }
  unfold hdefer at 1 in H. unfold h_stat, h_close at 1 in H. cbn [app] in H.
  destruct (o_stat O [SReadFile pk (inl pf); SOpen mp (inl fd)] fd) as [len|e] eqn:Q3; cbn [got] in H.
  2:{ left. injection H as <- <-. split; [cbn; rewrite Nat.eqb_refl; reflexivity|].
      split; [repeat (constructor; [cbn; auto|]); constructor|]. split; [|discriminate].
      eexists [SReadFile pk (inl pf); SOpen mp (inl fd); SStat fd (inr e)], [], [_]. split; [reflexivity|].
      split; [apply ends_noticed, (ends_snoc nothing [SReadFile pk (inl pf); SOpen mp (inl fd)]); [repeat (constructor; [left; reflexivity|]); constructor|reflexivity]|].
      split; [constructor|]. split; [cbn; lia|]. constructor; [eexists _, _; reflexivity|constructor]. }
  unfold h_create in H. cbn [app] in H.
  match type of H with context [o_create O ?x ?q 438] => assert (Ep : q = enc_path mp ep) by (destruct ep; reflexivity); rewrite Ep in H end.
  destruct (o_create O [SReadFile pk (inl pf); SOpen mp (inl fd); SStat fd (inl len)] (enc_path mp ep) 438) as [out|e] eqn:Q4; cbn [got] in H.
  2:{ left. injection H as <- <-. split; [cbn; rewrite Nat.eqb_refl; reflexivity|].
      split; [repeat (constructor; [cbn; auto|]); constructor|]. split; [|discriminate].
      eexists [SReadFile pk (inl pf); SOpen mp (inl fd); SStat fd (inl len); SCreate (enc_path mp ep) 438 (inr e)], [], [_]. split; [reflexivity|].
      split; [apply ends_noticed, (ends_snoc nothing [SReadFile pk (inl pf); SOpen mp (inl fd); SStat fd (inl len)]); [repeat (constructor; [left; reflexivity|]); constructor|reflexivity]|].
      split; [constructor|]. split; [cbn; lia|]. constructor; [eexists _, _; reflexivity|constructor]. }
  right. exists pf, pub, fd, len, out. unfold hdefer in H. unfold h_write at 1 in H.
  change [SReadFile pk (inl pf); SOpen mp (inl fd); SStat fd (inl len); SCreate (enc_path mp ep) 438 (inl out)]
    with (opening_calls pk pf mp fd len (enc_path mp ep) out) in H.
  set (h0 := opening_calls pk pf mp fd len (enc_path mp ep) out) in *.
  set (line := str "untrusted comment: psignify encrypted file" ++ [x0a]) in *.
  destruct (o_write O h0 out line) as [n [e|]].
  - injection H as <- <-. eexists [SWrite out line n (Some e)], [], _, _. split; [exact RP|]. split; [unfold h_close; cbn [app]; rewrite <- ?app_assoc; reflexivity|].
    split; [constructor; [cbn; auto|constructor]|]. split; [apply ends_one; reflexivity|]. split; [constructor|]. split; [cbn; lia|discriminate].
  - destruct (seal C _ (beside_rand O) pub (srd fd) len (swr out) (NewEncoder, h0 ++ [SWrite out line n None])) as [r1 [e1 h1]] eqn:ES.
    apply seal_cases in ES; [|eapply FS; exact Q3]. apply seal_run_calls in ES. cbn [fst snd] in ES. destruct ES as (l & -> & W & X & L & Okc).
    destruct (enc_close (h_write O out) (e1, _)) as [x [e2 h2]] eqn:EC in H. apply close_calls in EC; [|exact L]. destruct EC as (ws & -> & W2 & RT & L2 & Wc).
    cbn [snd] in H. unfold h_close in H.
    match type of H with context [SClose fd ?x] => set (c2 := x) in H; clearbody c2 end.
    match type of H with context [SClose out ?x] => set (c1 := x) in H; clearbody c1 end.
    injection H as <- <-. exists (SWrite out line n None :: l), ws, c1, c2.
    split; [exact RP|]. split; [rewrite <- !app_assoc; cbn [app]; reflexivity|].
    split; [apply Forall_app; split; [constructor; [cbn; auto|exact W]|eapply is_write_works; [|exact W2]; cbn; auto]|].
    split; [apply (ends_app nothing [SWrite out line n None] l); [constructor; [left; reflexivity|constructor]|exact X]|]. split; [exact RT|]. split; [exact L2|].
    intro Hr. destruct (Okc Hr) as (body & Sh & A & T). exists body. split.
    + intro Cw. change (SWrite out line n None :: l) with ([SWrite out line n None] ++ l). rewrite !written_app, (Wc Cw), <- T, <- app_assoc, (enc_at_close _ _ A).
      cbn [written flat_map]. rewrite Nat.eqb_refl, app_nil_r. reflexivity.
    + assert (P : pieces fd ((SWrite out line n None :: l) ++ ws) = pieces fd l).
      { change (SWrite out line n None :: l) with ([SWrite out line n None] ++ l). rewrite !pieces_app, (is_write_pieces out fd ws W2), app_nil_r. reflexivity. }
      assert (Dr : drawn ((SWrite out line n None :: l) ++ ws) = drawn l).
      { change (SWrite out line n None :: l) with ([SWrite out line n None] ++ l). rewrite !drawn_app, (is_write_drawn out ws W2), app_nil_r. reflexivity. }
      unfold sealed_here in *. rewrite P, Dr. exact Sh.
Qed.

Lemma seal_calls pk mp ep r h : file_rules O -> Seal_os C O pk mp ep [] = (r, h) ->
  in_use [] h = Some [] /\ Forall (touches [pk; mp] [enc_path mp ep]) h /\ sealing_tail h r.
Proof.
  intros F H. destruct (seal_shape _ _ _ _ _ F H) as [(A & B & T & _)|(pf & pub & fd & len & out & l & ws & c1 & c2 & _ & -> & W & X & RT & L2 & _)]; [auto|].
  set (h0 := opening_calls pk pf mp fd len (enc_path mp ep) out) in *.
  assert (U0 : in_use [] h0 = Some [out; fd]) by (cbn; rewrite Nat.eqb_refl; reflexivity).
  assert (T0 : Forall (touches [pk; mp] [enc_path mp ep]) h0) by (repeat (constructor; [cbn; auto|]); constructor).
  assert (C0 : clean nothing h0) by (repeat (constructor; [left; reflexivity|]); constructor).
  split; [|split].
  - rewrite in_use_app, U0. change ([SClose out c1; SClose fd c2]) with ([SClose out c1] ++ [SClose fd c2]).
    rewrite app_assoc, in_use_app, (works_then_close out [fd] _ c1 W). cbn. rewrite Nat.eqb_refl. reflexivity.
  - apply Forall_app. split; [exact T0|]. apply Forall_app. split; [eapply works_touches; exact W|]. repeat (constructor; [exact I|]). constructor.
  - exists (h0 ++ l), ws, [SClose out c1; SClose fd c2]. split; [rewrite <- !app_assoc; reflexivity|].
    split; [apply ends_noticed, ends_app; assumption|]. split; [exact RT|]. split; [exact L2|]. repeat (constructor; [eexists _, _; reflexivity|]). constructor.
Qed.

Lemma seal_content pk mp ep h : file_rules O -> Seal_os C O pk mp ep [] = (Ok tt, h) -> sealed_calls C pk mp ep h.
Proof.
  intros F H. destruct (seal_shape _ _ _ _ _ F H) as [(_ & _ & _ & N)|(pf & pub & fd & len & out & l & ws & c1 & c2 & RP & E & W & _ & RT & _ & Okc)]; [contradiction|].
  destruct (Okc eq_refl) as (body & Wr & Sh). exists pf, pub, fd, len, out, ((l ++ ws) ++ [SClose out c1; SClose fd c2]), body.
  assert (P : pieces fd h = pieces fd (l ++ ws)) by (rewrite E, !pieces_app; cbn [pieces flat_map opening_calls app]; rewrite app_nil_r; reflexivity).
  assert (D : drawn h = drawn (l ++ ws)) by (rewrite E, !drawn_app; cbn [drawn flat_map opening_calls app]; rewrite app_nil_r; reflexivity).
  assert (W2 : written out h = written out (l ++ ws)) by (rewrite E, !written_app; cbn [written flat_map opening_calls app]; rewrite app_nil_r; reflexivity).
  rewrite P, D, W2. split; [exact RP|]. split; [exact E|]. split.
  - intro Q. apply Wr. rewrite E in Q. apply Forall_app in Q as [_ Q]. apply Forall_app in Q as [Q _]. apply Forall_app in Q as [_ Q].
    apply Forall_forall. intros s Hs. rewrite Forall_forall in Q, RT. destruct (Q s Hs) as [Z|(f & r & ->)]; [left; exact Z|].
    destruct (RT _ Hs) as (f' & b & n & r' & Z & _). discriminate Z.
  - exact Sh.
Qed.
End Os.
