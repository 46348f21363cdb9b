(* Verify, Sign and GenerateKey against an arbitrary operating system: proofs. *)
From Verif Require Import CallFacts TextKeys SignFacts GenFacts KeyOpsFacts RoundTrip.
From Verif Require Import SpecCalls.
Local Open Scope Z_scope.

Lemma last_or_nil {A} (l : list A) : l = [] \/ exists l' x, l = l' ++ [x].
Proof. destruct l as [|y l]; [left; reflexivity|]. right. destruct (@exists_last _ (y :: l)) as (l' & x & E); [discriminate|]. exists l', x. exact E. Qed.
Lemma answered_snoc O h s : answered O (h ++ [s]) <-> answered O h /\ agrees O h s.
Proof.
  split.
  - intro A. split.
    + intros h1 x h2 E. apply (A h1 x (h2 ++ [s])). rewrite E, <- app_assoc. reflexivity.
    + apply (A h s []). reflexivity.
  - intros [A G] h1 x h2 E. destruct (last_or_nil h2) as [->|(h3 & y & ->)].
    + apply app_inj_tail in E as [-> ->]. exact G.
    + rewrite app_comm_cons, app_assoc in E. apply app_inj_tail in E as [-> _]. exact (A h1 x h3 eq_refl).
Qed.
Lemma answered_nil O : answered O [].
Proof. intros [|y l] s h2 E; discriminate E. Qed.

Section Os.
Variable C : Crypto.
Variable O : os.

(* ---- all results ---- *)
Ltac names := repeat (constructor; [cbn; auto|]); constructor.
Ltac ended := first [solve [apply clean_ends; repeat (constructor; [left; reflexivity|]); constructor]
  | apply ends_one; reflexivity
  | match goal with |- ends _ (?a :: ?l) _ => apply (ends_app _ [a] l); [constructor; [left; reflexivity|constructor]|]; ended end].

Lemma verify_calls a b c r h : Verify_os C O a b c [] = (r, h) ->
  Forall (touches [a; b; sigPathOf b c] []) h /\ ends nothing h r /\ in_use [] h = Some [].
Proof.
  intro H. unfold Verify_os, LoadPublicKey_os, readSignaturePath_os, hbind, hlift, h_readfile in H. cbn [app] in H.
  destruct (o_readfile O [] a) as [pf|e]; cbn [got] in H.
  2:{ injection H as <- <-. split; [names|]. split; [ended|reflexivity]. }
  destruct (readPublicKeyFile pf) as [pub|e|].
  2,3: injection H as <- <-; (split; [names|]); (split; [ended|reflexivity]).
  destruct (o_readfile O _ b) as [m|e]; cbn [got app] in H.
  2:{ injection H as <- <-. split; [names|]. split; [ended|reflexivity]. }
  destruct (o_readfile O _ (sigPathOf b c)) as [sf|e]; cbn [got app] in H.
  2:{ injection H as <- <-. split; [names|]. split; [ended|reflexivity]. }
  destruct (readSignatureFile sf) as [sg|e|]; injection H as <- <-; (split; [names|]); (split; [ended|reflexivity]).
Qed.

Lemma verify_ok a b c h : Verify_os C O a b c [] = (Ok tt, h) <->
  answered O h /\ exists pf m sf, h = [SReadFile a (inl pf); SReadFile b (inl m); SReadFile (sigPathOf b c) (inl sf)] /\
    signature_text (fun k m s => ed_verify C k m s = true) pf m sf.
Proof.
  split.
  - intro H. unfold Verify_os, LoadPublicKey_os, readSignaturePath_os, hbind, hlift, h_readfile in H. cbn [app] in H.
    destruct (o_readfile O [] a) as [pf|e] eqn:Q1; cbn [got] in H; [|discriminate].
    destruct (readPublicKeyFile pf) as [pub|e|] eqn:RP; [|discriminate..].
    destruct (o_readfile O _ b) as [m|e] eqn:Q2; cbn [got app] in H; [|discriminate].
    destruct (o_readfile O _ (sigPathOf b c)) as [sf|e] eqn:Q3; cbn [got app] in H; [|discriminate].
    destruct (readSignatureFile sf) as [sg|e|] eqn:RS; [|discriminate..]. injection H as V <-. split.
    + apply (answered_snoc O [_; _] _). split; [|exact Q3]. apply (answered_snoc O [_] _). split; [|exact Q2].
      apply (answered_snoc O [] _). split; [apply answered_nil|exact Q1].
    + exists pf, m, sf. split; [reflexivity|]. apply acceptable_text. exists pub, sg. split; [exact RP|]. split; [exact RS|]. apply pub_verify_iff, V.
  - intros (A & pf & m & sf & -> & T). apply (answered_snoc O [_; _] _) in A as [A Q3]. apply (answered_snoc O [_] _) in A as [A Q2].
    apply (answered_snoc O [] _) in A as [_ Q1]. cbn [agrees] in *.
    apply acceptable_text in T. destruct T as (pub & sg & RP & RS & V). apply pub_verify_iff in V.
    unfold Verify_os, LoadPublicKey_os, readSignaturePath_os, hbind, hlift, h_readfile. cbn [app].
    rewrite Q1. cbn [got]. rewrite RP. cbn [app]. rewrite Q2. cbn [got app]. rewrite Q3. cbn [got app]. rewrite RS, V. reflexivity.
Qed.

(* the prompt *)
Lemma prompt_calls h r h' : prompt_os O h = (r, h') ->
  (exists pass, r = Ok pass /\ h' = h ++ asked pass /\ (answered O h -> answered O h')) \/
  (exists e, r = Err e /\ h' = h ++ [SOut (str "Password: "); SPass (inr e)]).
Proof.
  intro H. unfold prompt_os, hbind, h_out, h_pass, hret in H. destruct (o_pass O (h ++ [SOut (str "Password: ")])) as [pass|e] eqn:Q; cbn [got] in H;
  injection H as <- <-.
  - left. exists pass. split; [reflexivity|]. split; [rewrite <- !app_assoc; reflexivity|]. intro A. apply answered_snoc. split; [|exact I].
    apply answered_snoc. split; [|exact Q]. apply answered_snoc. split; [exact A|exact I].
  - right. exists e. split; [reflexivity|]. rewrite <- !app_assoc. reflexivity.
Qed.
Lemma prompt_asked h pass : answered O (h ++ asked pass) -> prompt_os O h = (Ok pass, h ++ asked pass).
Proof.
  intro A. change (asked pass) with ([SOut (str "Password: ")] ++ [SPass (inl pass)] ++ [SOut [x0a]]) in *. rewrite !app_assoc in A.
  apply answered_snoc in A as [A _]. apply answered_snoc in A as [_ Q]. cbn [agrees] in Q.
  unfold prompt_os, hbind, h_out, h_pass, hret. rewrite Q. cbn [got]. rewrite <- !app_assoc. reflexivity.
Qed.

Definition key_step (priv : Private) : H Private :=
  if IsEncrypted priv
  then hbind (prompt_os O) (fun pass =>
         match decrypt C priv pass with
         | (Ok _, priv) => hret priv
         | (Err e, _) => hlift (Err e)
         | (Panic, _) => hlift Panic
         end)
  else hret priv.
Lemma key_step_calls priv h r h' : key_step priv h = (r, h') ->
  exists l, h' = h ++ l /\ Forall (works []) l /\
  match r with
  | Ok p => unlocked_by C priv l p /\ clean nothing l /\ (answered O h -> answered O h')
  | Err e => ends nothing l (Err e)
  | Panic => clean nothing l
  end.
Proof.
  intro H. unfold key_step in H. destruct (IsEncrypted priv) eqn:E.
  - unfold hbind in H. destruct (prompt_os O h) as [x h1] eqn:P. apply prompt_calls in P. destruct P as [(pass & -> & -> & A)|(e & -> & ->)].
    + exists (asked pass). assert (Cl : clean nothing (asked pass)) by (repeat (constructor; [left; reflexivity|]); constructor).
      assert (W : Forall (works []) (asked pass)) by (repeat (constructor; [first [exact I|left; reflexivity|right; reflexivity]|]); constructor).
      destruct (decrypt C priv pass) as [[[]|e|] p] eqn:D; injection H as <- <-; (split; [reflexivity|]); (split; [exact W|]).
      * split; [right; split; [exact E|]; exists pass; split; [reflexivity|exact D]|]. split; [exact Cl|exact A].
      * apply clean_ends, Cl.
      * exact Cl.
    + injection H as <- <-. eexists. split; [reflexivity|]. split; [repeat (constructor; [first [exact I|left; reflexivity|right; reflexivity]|]); constructor|]. ended.
  - injection H as <- <-. exists []. rewrite app_nil_r. split; [reflexivity|]. split; [constructor|]. split; [left; auto|]. split; [apply clean_nil|auto].
Qed.
Lemma key_step_ok priv asks p h : unlocked_by C priv asks p -> answered O (h ++ asks) -> key_step priv h = (Ok p, h ++ asks).
Proof.
  intros [(E & -> & ->)|(E & pass & -> & D)] A; unfold key_step; rewrite E.
  - rewrite app_nil_r. reflexivity.
  - unfold hbind. rewrite (prompt_asked _ _ A), D. reflexivity.
Qed.

Lemma Sign_os_eq k mp s h : Sign_os C O k mp s h =
  match o_readfile O h k with
  | inr e => (Err e, h ++ [SReadFile k (inr e)])
  | inl kf =>
      match readPrivateKeyFile kf with
      | Err e => (Err e, h ++ [SReadFile k (inl kf)])
      | Panic => (Panic, h ++ [SReadFile k (inl kf)])
      | Ok priv =>
          match key_step priv (h ++ [SReadFile k (inl kf)]) with
          | (Ok p, h) =>
              match o_readfile O h mp with
              | inr e => (Err e, h ++ [SReadFile mp (inr e)])
              | inl m => let h := h ++ [SReadFile mp (inl m)] in
                         let x := o_writefile O h (sigPathOf mp s) (signed_file C k p m) 420 in
                         (gone x, h ++ [SWriteFile (sigPathOf mp s) (signed_file C k p m) 420 x])
              end
          | (Err e, h) => (Err e, h)
          | (Panic, h) => (Panic, h)
          end
      end
  end.
Proof.
  unfold Sign_os, LoadPrivateKey_os. unfold hbind at 1 2, hlift at 1, h_readfile at 1. destruct (o_readfile O h k) as [kf|e]; cbn [got]; [|reflexivity].
  destruct (readPrivateKeyFile kf) as [priv|e|]; [|reflexivity..]. unfold hbind at 1. fold (key_step priv).
  destruct (key_step priv _) as [[p|e|] h1]; [|reflexivity..]. unfold hbind at 1, h_readfile at 1.
  destruct (o_readfile O h1 mp) as [m|e]; cbn [got]; reflexivity.
Qed.

Lemma sign_calls k mp s r h : Sign_os C O k mp s [] = (r, h) ->
  Forall (touches [k; mp] [sigPathOf mp s]) h /\ ends nothing h r /\ in_use [] h = Some [].
Proof.
  intro H. rewrite Sign_os_eq in H. cbn [app] in H.
  destruct (o_readfile O [] k) as [kf|e].
  2:{ injection H as <- <-. split; [names|]. split; [ended|reflexivity]. }
  destruct (readPrivateKeyFile kf) as [priv|e|].
  2,3: injection H as <- <-; (split; [names|]); (split; [ended|reflexivity]).
  destruct (key_step priv _) as [x h1] eqn:K. apply key_step_calls in K. destruct K as (l & -> & W & K).
  assert (Main : exists t, h = (SReadFile k (inl kf) :: l) ++ t /\ Forall (touches [k; mp] [sigPathOf mp s]) t /\
     ends nothing (l ++ t) r /\ in_use [] t = Some []).
  { destruct x as [p|e|].
    - destruct K as (_ & Cl & _). destruct (o_readfile O _ mp) as [m|e] in H.
      + cbv zeta in H. destruct (o_writefile O _ _ _ _) as [e|] in H; injection H as <- <-; cbn [app]; rewrite <- app_assoc; cbn [app].
        * eexists. split; [reflexivity|]. split; [names|]. split; [apply ends_app; [exact Cl|ended]|reflexivity].
        * eexists. split; [reflexivity|]. split; [names|]. split; [apply ends_app; [exact Cl|ended]|reflexivity].
      + injection H as <- <-. cbn [app]. eexists. split; [reflexivity|]. split; [names|]. split; [apply ends_app; [exact Cl|ended]|reflexivity].
    - injection H as <- <-. exists []. rewrite !app_nil_r. split; [reflexivity|]. split; [constructor|]. split; [exact K|reflexivity].
    - injection H as <- <-. exists []. rewrite !app_nil_r. split; [reflexivity|]. split; [constructor|]. split; [apply clean_ends, K|reflexivity]. }
  destruct Main as (t & -> & T & X & U). split; [|split].
  - apply Forall_app. split; [constructor; [cbn; auto|eapply works_touches; exact W]|exact T].
  - apply (ends_app nothing [SReadFile k (inl kf)] (l ++ t)); [constructor; [left; reflexivity|constructor]|exact X].
  - rewrite in_use_app. cbn [in_use]. rewrite (works_in_use _ _ W). exact U.
Qed.

Lemma unlocked_by_wf priv asks p : priv_wf priv -> unlocked_by C priv asks p -> priv_wf p.
Proof.
  intros Wf [(E & -> & ->)|(E & pass & -> & D)]; [exact Wf|].
  pose proof (decrypt_enc C priv pass E Wf) as Q. rewrite D in Q. destruct (bytes_eqb _ _); [|discriminate]. destruct pass; [discriminate|]. cbv zeta in Q.
  apply pair_equal_spec in Q. destruct Q as [_ ->]. apply set_key_wf; [exact Wf|]. rewrite length_xor_bytes. apply Wf.
Qed.

Lemma sign_ok k mp s h n : LengthLaws C -> pub_name k n -> Sign_os C O k mp s [] = (Ok tt, h) <->
  answered O h /\ exists kf priv asks p m, readPrivateKeyFile kf = Ok priv /\ unlocked_by C priv asks p /\
    h = [SReadFile k (inl kf)] ++ asks ++
        [SReadFile mp (inl m); SWriteFile (sigPathOf mp s) (signature_file n (keyAlgo p) (keyNum p) (ed_sign C (key p) m)) 420 None].
Proof.
  intros LL Hn. rewrite Sign_os_eq. split.
  - intro H. cbn [app] in H. destruct (o_readfile O [] k) as [kf|e] eqn:Q1; [|discriminate].
    destruct (readPrivateKeyFile kf) as [priv|e|] eqn:RP; [|discriminate..].
    destruct (key_step priv _) as [x h1] eqn:K. apply key_step_calls in K. destruct K as (l & -> & W & K). destruct x as [p|e|]; [|discriminate..].
    destruct K as (U & _ & A). destruct (o_readfile O _ mp) as [m|e] eqn:Q2 in H; [|discriminate]. cbv zeta in H.
    destruct (o_writefile O _ _ _ _) as [e|] eqn:Q3 in H; [discriminate|]. apply (f_equal snd) in H. cbn [snd] in H. subst h.
    pose proof (unlocked_by_wf _ _ _ (readPrivateKeyFile_wf _ _ RP) U) as Wf.
    rewrite (signed_file_eq C k p m LL Wf n Hn) in *. split.
    + apply answered_snoc. split; [|exact Q3]. apply answered_snoc. split; [|exact Q2]. apply A. apply (answered_snoc O [] _). split; [apply answered_nil|exact Q1].
    + exists kf, priv, l, p, m. split; [exact RP|]. split; [exact U|]. rewrite <- !app_assoc. reflexivity.
  - intros (A & kf & priv & asks & p & m & RP & U & ->).
    pose proof (unlocked_by_wf _ _ _ (readPrivateKeyFile_wf _ _ RP) U) as Wf.
    rewrite <- (signed_file_eq C k p m LL Wf n Hn) in *.
    set (f := signed_file C k p m) in *.
    change [SReadFile mp (inl m); SWriteFile (sigPathOf mp s) f 420 None] with ([SReadFile mp (inl m)] ++ [SWriteFile (sigPathOf mp s) f 420 None]) in *.
    rewrite !app_assoc in *. apply answered_snoc in A as [A Q3]. apply answered_snoc in A as [A Q2]. cbn [agrees] in Q3, Q2.
    assert (Q1 : o_readfile O [] k = inl kf) by (apply (A [] (SReadFile k (inl kf)) asks); reflexivity).
    rewrite Q1, RP. change ([] ++ [SReadFile k (inl kf)]) with [SReadFile k (inl kf)]. rewrite (key_step_ok priv asks p _ U A). rewrite Q2. cbv zeta. fold f. rewrite Q3. reflexivity.
Qed.

(* ---- generation ---- *)
Definition pair_of (pass : bytes) (opts : option Z) (seed slt num : bytes) : res (Private * Public) :=
  let rounds := match opts with None => defaultRounds | Some r => r end in
  let kdfRounds := match pass with [] => 0 | _ => rounds mod 4294967296 end in
  let plain := fit 64 (ed_private C seed) in
  match (match pass with
         | [] => Ok plain
         | _ => match bcrypt_Key C pass slt kdfRounds secretKeyLength with
                | Ok xorkey => Ok (xor_bytes plain xorkey)
                | Err e => Err e
                | Panic => Panic
                end
         end) with
  | Ok kbytes => Ok (Priv (str "Ed") (str "BK") kdfRounds slt (fit 8 (sha512 C (ed_private C seed))) num kbytes,
                     Pub (str "Ed") num (fit 32 (ed_public C seed)))
  | Err e => Err e
  | Panic => Panic
  end.
Lemma GenerateKeypair_os_eq pass opts h : GenerateKeypair_os C O pass opts h =
  match o_rand O h 32 with
  | inr e => (Err e, h ++ [SRand 32 (inr e)])
  | inl seed => let h := h ++ [SRand 32 (inl seed)] in
    match o_rand O h 16 with
    | inr e => (Err e, h ++ [SRand 16 (inr e)])
    | inl slt => let h := h ++ [SRand 16 (inl slt)] in
      match o_rand O h 8 with
      | inr e => (Err e, h ++ [SRand 8 (inr e)])
      | inl num => (pair_of pass opts seed slt num, h ++ [SRand 8 (inl num)])
      end
    end
  end.
Proof.
  unfold GenerateKeypair_os. unfold hbind at 1, h_rand at 1. destruct (o_rand O h 32) as [seed|e]; cbn [got]; [|reflexivity]. cbv zeta.
  unfold hbind at 1, h_rand at 1. change saltLength with 16%nat. change keyNumLength with 8%nat. destruct (o_rand O _ 16) as [slt|e]; cbn [got]; [|reflexivity].
  unfold hbind at 1, h_rand at 1. destruct (o_rand O _ 8) as [num|e]; cbn [got]; [|reflexivity].
  unfold hbind, hlift, hret, pair_of. cbv zeta. destruct pass as [|x pass]; [reflexivity|]. destruct (bcrypt_Key C _ _ _ _); reflexivity.
Qed.
Lemma pair_of_world pass opts seed slt num w : length seed = 32%nat -> length slt = 16%nat -> length num = 8%nat ->
  w_rng w = seed ++ slt ++ num -> fst (GenerateKeypair C pass opts w) = pair_of pass opts seed slt num.
Proof.
  intros L1 L2 L3 R. unfold GenerateKeypair. unfold bind at 1, rand_read at 1. rewrite R.
  destruct (Nat.ltb_spec (length (seed ++ slt ++ num)) 32) as [X|_]; [rewrite app_length in X; lia|].
  unfold bind at 1, rand_read at 1. change saltLength with 16%nat. change keyNumLength with 8%nat. cbn [set_rng w_rng].
  assert (E1 : firstn 32 (seed ++ slt ++ num) = seed) by (apply firstn_exact, L1). rewrite E1.
  assert (E2 : skipn 32 (seed ++ slt ++ num) = slt ++ num) by (apply skipn_exact, L1). rewrite E2.
  destruct (Nat.ltb_spec (length (slt ++ num)) 16) as [X|_]; [rewrite app_length in X; lia|].
  unfold bind at 1, rand_read at 1. cbn [set_rng w_rng].
  assert (E3 : firstn 16 (slt ++ num) = slt) by (apply firstn_exact, L2). rewrite E3.
  assert (E4 : skipn 16 (slt ++ num) = num) by (apply skipn_exact, L2). rewrite E4.
  destruct (Nat.ltb_spec (length num) 8) as [X|_]; [lia|].
  assert (E5 : firstn 8 num = num) by (rewrite <- L3; apply firstn_all). rewrite E5.
  unfold pair_of, bind, lift, ret. cbv zeta. destruct pass as [|x pass]; [reflexivity|]. destruct (bcrypt_Key C _ _ _ _); reflexivity.
Qed.
Lemma pair_of_consistent pass opts seed slt num priv pub : LengthLaws C -> length seed = 32%nat -> length slt = 16%nat -> length num = 8%nat ->
  pair_of pass opts seed slt num = Ok (priv, pub) -> consistent_pair C pass opts (seed ++ slt ++ num) priv pub.
Proof.
  intros LL L1 L2 L3 E. set (w := World (fun _ => None) [] (seed ++ slt ++ num) [] [] [] []).
  rewrite <- (pair_of_world pass opts seed slt num w L1 L2 L3 eq_refl) in E.
  destruct (GenerateKeypair C pass opts w) as [x w'] eqn:G. cbn [fst] in E. subst x.
  exact (proj1 (generate_pair C pass opts w priv pub w' LL G)).
Qed.

Lemma GenerateKey_os_eq k pass opts h : GenerateKey_os C O k pass opts h =
  match GenerateKeypair_os C O pass opts h with
  | (Ok (priv, pub), h) =>
      let x := o_writefile O h (sec_path k) (sec_file priv) 420 in
      let h1 := h ++ [SWriteFile (sec_path k) (sec_file priv) 420 x] in
      match x with
      | Some e => (Err e, h1)
      | None => let y := o_writefile O h1 (pub_path k) (pub_file pub) 420 in
                (gone y, h1 ++ [SWriteFile (pub_path k) (pub_file pub) 420 y])
      end
  | (Err e, h) => (Err e, h)
  | (Panic, h) => (Panic, h)
  end.
Proof.
  unfold GenerateKey_os. unfold hbind at 1. destruct (GenerateKeypair_os C O pass opts h) as [[[priv pub]|e|] h1]; [|reflexivity..].
  unfold writeDataFile_os, hbind, h_writefile. cbn [fst snd].
  change (dataFileBytes (str "untrusted comment: signify private key") (priv_encode priv)) with (sec_file priv).
  change (dataFileBytes (str "untrusted comment: signify public key") (pub_encode pub)) with (pub_file pub).
  fold (sec_path k) (pub_path k). cbv zeta. destruct (o_writefile O h1 (sec_path k) (sec_file priv) 420) as [e|]; reflexivity.
Qed.

Lemma generate_calls k pass opts r h : GenerateKey_os C O k pass opts [] = (r, h) ->
  Forall (touches [] [sec_path k; pub_path k]) h /\ ends nothing h r /\ in_use [] h = Some [].
Proof.
  intro H. rewrite GenerateKey_os_eq, GenerateKeypair_os_eq in H. cbv zeta in H. cbn [app] in H.
  destruct (o_rand O [] 32) as [seed|e].
  2:{ injection H as <- <-. split; [names|]. split; [ended|reflexivity]. }
  destruct (o_rand O _ 16) as [slt|e] in H.
  2:{ injection H as <- <-. split; [names|]. split; [ended|reflexivity]. }
  destruct (o_rand O _ 8) as [num|e] in H.
  2:{ injection H as <- <-. split; [names|]. split; [ended|reflexivity]. }
  destruct (pair_of pass opts seed slt num) as [[priv pub]|e|].
  2,3: injection H as <- <-; (split; [names|]); (split; [ended|reflexivity]).
  destruct (o_writefile O _ (sec_path k) _ _) as [e|] in H; cbn [app] in H.
  1:{ injection H as <- <-. split; [names|]. split; [ended|reflexivity]. }
  destruct (o_writefile O _ (pub_path k) _ _) as [e|] in H; cbn [app gone] in H; injection H as <- <-;
    (split; [names|]); (split; [ended|reflexivity]).
Qed.

Lemma generate_ok k pass opts h : LengthLaws C -> rand_rules O -> GenerateKey_os C O k pass opts [] = (Ok tt, h) ->
  answered O h /\ exists seed slt num priv pub, consistent_pair C pass opts (seed ++ slt ++ num) priv pub /\
    length seed = 32%nat /\ length slt = 16%nat /\ length num = 8%nat /\
    h = [SRand 32 (inl seed); SRand 16 (inl slt); SRand 8 (inl num);
         SWriteFile (sec_path k) (sec_file priv) 420 None; SWriteFile (pub_path k) (pub_file pub) 420 None].
Proof.
  intros LL RR H. rewrite GenerateKey_os_eq, GenerateKeypair_os_eq in H. cbv zeta in H. cbn [app] in H.
  destruct (o_rand O [] 32) as [seed|e] eqn:Q1; [|discriminate].
  destruct (o_rand O _ 16) as [slt|e] eqn:Q2 in H; [|discriminate].
  destruct (o_rand O _ 8) as [num|e] eqn:Q3 in H; [|discriminate].
  destruct (pair_of pass opts seed slt num) as [[priv pub]|e|] eqn:P; [|discriminate..].
  destruct (o_writefile O _ (sec_path k) _ _) as [e|] eqn:Q4 in H; [discriminate|]. cbn [app] in H.
  destruct (o_writefile O _ (pub_path k) _ _) as [e|] eqn:Q5 in H; [discriminate|]. cbn [app] in H. injection H as <-.
  pose proof (RR _ _ _ Q1) as L1. pose proof (RR _ _ _ Q2) as L2. pose proof (RR _ _ _ Q3) as L3. split.
  - apply (answered_snoc O [_; _; _; _] _). split; [|exact Q5]. apply (answered_snoc O [_; _; _] _). split; [|exact Q4].
    apply (answered_snoc O [_; _] _). split; [|exact Q3]. apply (answered_snoc O [_] _). split; [|exact Q2].
    apply (answered_snoc O [] _). split; [apply answered_nil|exact Q1].
  - exists seed, slt, num, priv, pub. split; [apply pair_of_consistent; assumption|]. auto.
Qed.
End Os.
