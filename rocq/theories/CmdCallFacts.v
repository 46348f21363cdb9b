(* psignify over an arbitrary operating system: proofs. *)
From Verif Require Import CallFacts CallKeys CallSeal CallOpen CallExample FlagFacts PrintFacts.
From Verif Require Import SpecCmdCalls.
Local Open Scope Z_scope.

(* the operating system after the calls h0 *)
Definition after (O : os) (h0 : list step) : os := {|
  o_readfile := fun h => o_readfile O (h0 ++ h);
  o_writefile := fun h => o_writefile O (h0 ++ h);
  o_open := fun h => o_open O (h0 ++ h);
  o_create := fun h => o_create O (h0 ++ h);
  o_stat := fun h => o_stat O (h0 ++ h);
  o_read := fun h => o_read O (h0 ++ h);
  o_write := fun h => o_write O (h0 ++ h);
  o_close := fun h => o_close O (h0 ++ h);
  o_rand := fun h => o_rand O (h0 ++ h);
  o_pass := fun h => o_pass O (h0 ++ h) |}.
Lemma agrees_after O h0 h s : agrees (after O h0) h s <-> agrees O (h0 ++ h) s.
Proof. destruct s; reflexivity. Qed.
Lemma answered_after O h0 h : answered O h0 -> answered (after O h0) h -> answered O (h0 ++ h).
Proof.
  intros A B. induction h as [|s h IH] using rev_ind; [rewrite app_nil_r; exact A|].
  apply answered_snoc in B as [B B']. rewrite app_assoc. apply answered_snoc. split; [exact (IH B)|]. apply agrees_after, B'.
Qed.

Section Os.
Variable C : Crypto.
Variable O : os.
Variable fuel : list step -> nat.

Lemma generate_after k pass opts h0 : GenerateKey_os C O k pass opts h0 =
  let '(r, h) := GenerateKey_os C (after O h0) k pass opts [] in (r, h0 ++ h).
Proof.
  rewrite !GenerateKey_os_eq, !GenerateKeypair_os_eq. cbv zeta. cbn [after o_rand o_writefile app]. rewrite app_nil_r.
  destruct (o_rand O h0 32) as [seed|e]; [|reflexivity]. cbn [app].
  destruct (o_rand O (h0 ++ [SRand 32 (inl seed)]) 16) as [slt|e]; cbn [app]; [|rewrite <- ?app_assoc; reflexivity].
  rewrite <- ?app_assoc. cbn [app].
  destruct (o_rand O (h0 ++ [SRand 32 (inl seed); SRand 16 (inl slt)]) 8) as [num|e]; cbn [app]; [|rewrite <- ?app_assoc; reflexivity].
  destruct (pair_of C pass opts seed slt num) as [[priv pub]|e|]; [|rewrite <- ?app_assoc; reflexivity..].
  rewrite <- ?app_assoc. cbn [app].
  destruct (o_writefile O _ (sec_path k) _ _) as [e|]; cbn [app]; [rewrite <- ?app_assoc; reflexivity|].
  rewrite <- ?app_assoc. cbn [app]. destruct (o_writefile O _ (pub_path k) _ _) as [e|]; reflexivity.
Qed.

Lemma generates_run k pass h0 : LengthLaws C -> rand_rules O -> answered O h0 ->
  exists r h, GenerateKey_os C O k pass None h0 = (r, h0 ++ h) /\ generates C O h0 k pass r h.
Proof.
  intros LL RR A. destruct (GenerateKey_os C (after O h0) k pass None []) as [r h] eqn:E. exists r, h.
  split; [rewrite generate_after, E; reflexivity|].
  destruct (generate_noticed _ _ _ _ _ _ _ E) as (T & N & I). split; [exact T|]. split; [exact N|]. split; [exact I|].
  intros ->. apply generate_ok in E; [|exact LL|intros h' n b; apply RR].
  destruct E as (B & seed & slt & num & priv & pub & P & L1 & L2 & L3 & H).
  exists seed, slt, num, priv, pub. repeat (split; [assumption|]). split; [apply answered_after; assumption|exact H].
Qed.

Lemma concluded_run (failure : bytes -> bytes) onOk (m : H unit) h r h' : m h = (r, h') ->
  exists n e t, action_os m (fun x => failure (errText x) ++ [x0a]) onOk h = (n, e, h' ++ t) /\
    concluded failure (match onOk with Some x => [SOut x] | None => [] end) r n e t.
Proof.
  intro E. unfold action_os. rewrite E. destruct r as [[]|x|].
  - exists 0, [], (match onOk with Some x => [SOut x] | None => [] end). split; [|constructor]. destruct onOk; [reflexivity|now rewrite app_nil_r].
  - exists 1, (line (failure (errText x))), []. split; [now rewrite app_nil_r|]. constructor. apply shown_errText.
  - exists 2, [], []. split; [now rewrite app_nil_r|constructor].
Qed.

Lemma confirm_run : exists h, answered O h /\
  ((exists pass, confirm_os O [] = (Ok pass, h) /\ h = typed_twice pass pass) \/
   (exists x, confirm_os O [] = (Err x, h) /\ no_pass O x h)).
Proof.
  unfold confirm_os, hbind, h_out, h_pass, hlift, hret. cbv beta iota zeta. cbn [app].
  assert (A0 : answered O [SOut (str "Password: ")]) by (apply (answered_snoc O [] _); split; [apply answered_nil|exact I]).
  destruct (o_pass O [SOut (str "Password: ")]) as [a|e] eqn:Q1; cbn [got app]; cbv beta iota zeta; cbn [app].
  2:{ exists [SOut (str "Password: "); SPass (inr e)]. split; [apply (answered_snoc O [_] _); split; [exact A0|exact Q1]|].
      right. exists e. split; [reflexivity|]. constructor. exact Q1. }
  assert (A1 : answered O (asked a ++ [SOut (str "Confirm password: ")])).
  { unfold asked. cbn [app]. apply (answered_snoc O [_; _; _] _). split; [|exact I]. apply (answered_snoc O [_; _] _). split; [|exact I].
    apply (answered_snoc O [_] _). split; [exact A0|exact Q1]. }
  destruct (o_pass O [SOut (str "Password: "); SPass (inl a); SOut [x0a]; SOut (str "Confirm password: ")]) as [b|e] eqn:Q2; cbn [got app].
  2:{ assert (A2 : answered O (asked a ++ [SOut (str "Confirm password: "); SPass (inr e)])).
      { apply (answered_snoc O [_; _; _; _] _). split; [exact A1|exact Q2]. }
      exists (asked a ++ [SOut (str "Confirm password: "); SPass (inr e)]). split; [exact A2|]. right. exists e. split; [reflexivity|]. constructor. exact A2. }
  assert (A2 : answered O (typed_twice a b)).
  { apply (answered_snoc O [_; _; _; _; _] _). split; [|exact I]. apply (answered_snoc O [_; _; _; _] _). split; [exact A1|exact Q2]. }
  exists (typed_twice a b). split; [exact A2|]. destruct (bytes_eqb a b) eqn:E.
  - apply bytes_eqb_eq in E. subst b. left. exists a. split; reflexivity.
  - right. eexists. split; [reflexivity|]. constructor; [exact A2|]. intros ->. rewrite bytes_eqb_refl in E. discriminate.
Qed.

Theorem main_runs arg0 u ss args rest n e h : LengthLaws C -> BoxTidy C -> rand_rules O -> file_rules O ->
  command_line ss args rest -> stops rest -> main_os C O fuel arg0 u args = (n, e, h) -> run_of C O arg0 u ss n e h.
Proof.
  intros LL BT RR FR Hc Hs M. unfold main_os in M. destruct (flagParse_stops _ _ _ Hc Hs) as [rr P]. rewrite P in M. clear P rr.
  unfold dispatch_os in M. cbn [flags_of f_s f_p f_G f_S f_V f_E f_D f_m f_x f_c f_n] in M. rewrite !or_default_eq in M. cbv zeta in M.
  destruct (bool_value x47 ss) eqn:G.
  { pose proof (mode_G ss G) as Mo. unfold generateAction_os in M. set (kp := or_default (string_value x70 ss) (defaultKeyBase u) (str ".pub")) in *.
    destruct (isEmpty kp) eqn:Ek.
    { injection M as <- <- <-. apply RGUnnamed; [exact Mo|]. fold kp. destruct kp; [reflexivity|discriminate]. }
    assert (Nk : kp <> []) by (destruct kp; discriminate). clear Ek.
    destruct (bool_value x6e ss) eqn:N.
    - destruct (generates_run kp [] [] LL RR (answered_nil O)) as (r & h1 & E1 & Ge). cbn [app] in E1.
      destruct (concluded_run (fun s => str "Failed to generate keypair: " ++ s) None _ _ _ _ E1) as (n1 & e1 & t & A & K).
      assert (X : (n, e, h) = (n1, e1, h1 ++ t)).
      { rewrite <- M, <- A. unfold action_os. rewrite E1. destruct r as [[]|x|]; [reflexivity| |reflexivity]. now rewrite <- app_assoc. }
      injection X as -> -> ->. exact (RGOpen C O arg0 u ss r n1 e1 h1 t Mo Nk N Ge K).
    - destruct confirm_run as (hc & Ac & [(pass & Ec & ->)|(x & Ec & Np)]); rewrite Ec in M.
      + destruct (generates_run kp pass (typed_twice pass pass) LL RR Ac) as (r & h1 & E1 & Ge).
        destruct (concluded_run (fun s => str "Failed to generate keypair: " ++ s) None _ _ _ _ E1) as (n1 & e1 & t & A & K).
        assert (X : (n, e, h) = (n1, e1, (typed_twice pass pass ++ h1) ++ t)).
        { rewrite <- M, <- A. unfold action_os. rewrite E1. destruct r as [[]|x|]; [reflexivity| |reflexivity]. now rewrite <- app_assoc. }
        rewrite <- app_assoc in X. apply pair_equal_spec in X as [X ->]. injection X as -> ->.
        exact (RGLocked C O arg0 u ss pass r n1 e1 h1 t Mo Nk N Ac Ge K).
      + injection M as <- <- <-. exact (RGNoPass C O arg0 u ss x (errText x) hc Mo Nk N Np (shown_errText x)). }
  destruct (bool_value x53 ss) eqn:Sb.
  { pose proof (mode_S ss G Sb) as Mo. set (kp := or_default (string_value x73 ss) (defaultKeyBase u) (str ".sec")) in *. set (mp := string_value x6d ss) in *.
    destruct (isEmpty kp || isEmpty mp) eqn:Ek.
    { injection M as <- <- <-. apply RSMissing; [exact Mo|]. fold kp mp. destruct kp; [left; reflexivity|]. destruct mp; [right; reflexivity|discriminate]. }
    assert (Nk : kp <> []) by (destruct kp; discriminate). assert (Nm : mp <> []) by (destruct kp, mp; discriminate).
    destruct (Sign_os C O kp mp (string_value x78 ss) []) as [r h1] eqn:E1.
    destruct (concluded_run (fun s => str "Signing " ++ mp ++ str " failed: " ++ s) None _ _ _ _ E1) as (n1 & e1 & t & A & K).
    assert (X : (n, e, h) = (n1, e1, h1 ++ t)).
    { rewrite <- M, <- A. unfold action_os. rewrite E1. destruct r as [[]|x|]; [reflexivity| |reflexivity]. now rewrite <- !app_assoc. }
    apply pair_equal_spec in X as [X ->]. injection X as -> ->.
    apply (RSign C O arg0 u ss r n1 e1 h1 t Mo Nk Nm); [|exact K]. fold kp mp.
    destruct (sign_noticed _ _ _ _ _ _ _ E1) as (T & Nn & I). split; [exact T|]. split; [exact Nn|]. split; [exact I|].
    intros nm Hn. split.
    - intros ->. apply (sign_ok C O kp mp (string_value x78 ss) h1 nm LL Hn), E1.
    - intro Q. apply (sign_ok C O kp mp (string_value x78 ss) h1 nm LL Hn) in Q. rewrite Q in E1. injection E1 as <-. reflexivity. }
  destruct (bool_value x56 ss) eqn:V.
  { pose proof (mode_V ss G Sb V) as Mo. set (kp := or_default (string_value x70 ss) (defaultKeyBase u) (str ".pub")) in *. set (mp := string_value x6d ss) in *.
    destruct (Verify_os C O kp mp (string_value x78 ss) []) as [r h1] eqn:E1.
    destruct (concluded_run (fun _ => mp ++ str ": invalid signature") (Some (line (mp ++ str ": OK"))) _ _ _ _ E1) as (n1 & e1 & t & A & K).
    assert (X : (n, e, h) = (n1, e1, h1 ++ t)).
    { rewrite <- M, <- A. unfold action_os, line. rewrite E1. destruct r as [[]|x|]; [|now rewrite <- !app_assoc|reflexivity]. now rewrite <- !app_assoc. }
    apply pair_equal_spec in X as [X ->]. injection X as -> ->.
    apply (RVerify C O arg0 u ss r n1 e1 h1 t Mo); [|exact K]. fold kp mp.
    destruct (verify_noticed _ _ _ _ _ _ _ E1) as (T & Nn & I). split; [exact T|]. split; [exact Nn|]. split; [exact I|]. split.
    - intros ->. apply verify_ok, E1.
    - intro Q. apply (verify_ok C O kp mp (string_value x78 ss) h1) in Q. rewrite Q in E1. injection E1 as <-. reflexivity. }
  destruct (bool_value x45 ss) eqn:Eb.
  { pose proof (mode_E ss G Sb V Eb) as Mo. set (kp := or_default (string_value x70 ss) (defaultKeyBase u) (str ".pub")) in *. set (mp := string_value x6d ss) in *.
    destruct (Seal_os C O kp mp (string_value x63 ss) []) as [r h1] eqn:E1.
    destruct (concluded_run (fun s => s) (Some (line (mp ++ str ": OK"))) _ _ _ _ E1) as (n1 & e1 & t & A & K).
    assert (X : (n, e, h) = (n1, e1, h1 ++ t)).
    { rewrite <- M, <- A. unfold action_os, line. rewrite E1. destruct r as [[]|x|]; [|reflexivity..]. now rewrite <- !app_assoc. }
    apply pair_equal_spec in X as [X ->]. injection X as -> ->.
    apply (RSeal C O arg0 u ss r n1 e1 h1 t Mo); [|exact K]. fold kp mp.
    destruct (seal_calls C O kp mp (string_value x63 ss) r h1 FR E1) as (I & T & S). split; [exact I|]. split; [exact T|]. split; [exact S|].
    intros ->. exact (seal_content C O kp mp (string_value x63 ss) h1 FR E1). }
  destruct (bool_value x44 ss) eqn:D.
  { pose proof (mode_D ss G Sb V Eb D) as Mo. set (kp := or_default (string_value x73 ss) (defaultKeyBase u) (str ".sec")) in *. set (mp := string_value x6d ss) in *.
    destruct (Open_os C O fuel kp (string_value x63 ss) mp []) as [r h1] eqn:E1.
    destruct (concluded_run (fun s => s) (Some (line (string_value x63 ss ++ str ": OK"))) _ _ _ _ E1) as (n1 & e1 & t & A & K).
    assert (X : (n, e, h) = (n1, e1, h1 ++ t)).
    { rewrite <- M, <- A. unfold action_os, line. rewrite E1. destruct r as [[]|x|]; [|reflexivity..]. now rewrite <- !app_assoc. }
    apply pair_equal_spec in X as [X ->]. injection X as -> ->.
    apply (ROpen C O arg0 u ss r n1 e1 h1 t Mo); [|exact K]. fold mp kp.
    destruct (open_calls C O FR fuel kp (string_value x63 ss) mp r h1 BT E1) as (I & T & S). split; [exact I|]. split; [exact T|]. split; [exact S|].
    exact (open_content C O FR fuel kp (string_value x63 ss) mp r h1 BT E1). }
  injection M as <- <- <-. rewrite usage_text. apply RNothing. intros c [<-|[<-|[<-|[<-|[<-|[]]]]]]; assumption.
Qed.
End Os.
