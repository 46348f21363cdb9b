(* psignify over an arbitrary operating system: what follows from main_runs, and examples. *)
From Verif Require Import SealWitness MemWitness CallFacts CallExample FlagFacts PrintFacts PrintExample CmdCallFacts.
From Verif Require Import SpecCmdCalls.
Local Open Scope Z_scope.

Lemma snoc_inv {A} (l l' : list A) x y : l ++ [x] = l' ++ [y] -> l = l' /\ x = y.
Proof. apply app_inj_tail. Qed.

Section Os.
Variable C : Crypto.
Variable O : os.
Variable fuel : list step -> nat.

(* no run prints a line "...: OK" and fails *)
Lemma prompt_not_ok x : ~ prompt_text (line (x ++ str ": OK")).
Proof.
  intros [H|H].
  - change (str "Password: ") with (str "Password:" ++ [x20]) in H. apply snoc_inv in H as [_ H]. discriminate.
  - change [x0a] with ([] ++ [x0a]) in H. apply snoc_inv in H as [H _]. destruct x; discriminate.
Qed.
Lemma confirm_not_ok x : str "Confirm password: " <> line (x ++ str ": OK").
Proof. intro H. change (str "Confirm password: ") with (str "Confirm password:" ++ [x20]) in H. apply snoc_inv in H as [_ H]. discriminate. Qed.
Lemma touches_not_ok rs ws h x : Forall (touches rs ws) h -> ~ In (SOut (line (x ++ str ": OK"))) h.
Proof. intros F I. rewrite Forall_forall in F. exact (prompt_not_ok _ (F _ I)). Qed.
Lemma asked_not_ok a x : ~ In (SOut (line (x ++ str ": OK"))) (asked a).
Proof. apply (touches_not_ok [] []). constructor; [left; reflexivity|]. constructor; [exact I|]. constructor; [right; reflexivity|constructor]. Qed.
Lemma twice_not_ok a b x : ~ In (SOut (line (x ++ str ": OK"))) (typed_twice a b).
Proof.
  intro H. unfold typed_twice in H. apply in_app_or in H as [H|[H|[H|[H|[]]]]].
  - exact (asked_not_ok _ _ H).
  - injection H as H. exact (confirm_not_ok _ H).
  - discriminate.
  - injection H as H. apply (prompt_not_ok x). right. exact (eq_sym H).
Qed.
Lemma no_pass_not_ok e h x : no_pass O e h -> ~ In (SOut (line (x ++ str ": OK"))) h.
Proof.
  intros [e' _|a e' _|a b _ _] H.
  - destruct H as [H|[H|[]]]; [|discriminate]. injection H as H. apply (prompt_not_ok x). left. exact (eq_sym H).
  - apply in_app_or in H as [H|[H|[H|[]]]]; [exact (asked_not_ok _ _ H)| |discriminate]. injection H as H. exact (confirm_not_ok _ H).
  - exact (twice_not_ok _ _ _ H).
Qed.
Lemma concluded_ok f y r n e t x : concluded f [SOut y] r n e t -> In (SOut x) t -> n = 0 /\ e = [] /\ x = y.
Proof. intros [|? ? ?|] J; cbn in J; [|destruct J..]. destruct J as [J|[]]. injection J as ->. auto. Qed.
Lemma concluded_mute f r n e t x : concluded f [] r n e t -> ~ In (SOut x) t.
Proof. intros [|? ? ?|] J; destruct J. Qed.

Lemma run_ok arg0 u ss n e h x : run_of C O arg0 u ss n e h -> In (SOut (line (x ++ str ": OK"))) h ->
  n = 0 /\ e = [] /\ (mode ss x56 /\ x = string_value x6d ss \/ mode ss x45 /\ x = string_value x6d ss \/ mode ss x44 /\ x = string_value x63 ss).
Proof.
  intros R H. destruct R as [|r n e h t M Nk N (T & _) K|pass r n e h t M Nk N A (T & _) K|y s h M Nk N P S| |r n e h t M Nk Nm (T & _) K
    |r n e h t M (T & _) K|r n e h t M (_ & T & _) K|r n e h t M (_ & T & _) K|]; try (destruct H; fail).
  - apply in_app_or in H as [H|H]; [destruct (touches_not_ok _ _ _ _ T H)|destruct (concluded_mute _ _ _ _ _ _ K H)].
  - apply in_app_or in H as [H|H]; [destruct (twice_not_ok _ _ _ H)|].
    apply in_app_or in H as [H|H]; [destruct (touches_not_ok _ _ _ _ T H)|destruct (concluded_mute _ _ _ _ _ _ K H)].
  - destruct (no_pass_not_ok _ _ _ P H).
  - apply in_app_or in H as [H|H]; [destruct (touches_not_ok _ _ _ _ T H)|destruct (concluded_mute _ _ _ _ _ _ K H)].
  - apply in_app_or in H as [H|H]; [destruct (touches_not_ok _ _ _ _ T H)|]. apply (concluded_ok _ _ _ _ _ _ _ K) in H as (A & B & X).
    apply snoc_inv in X as [X _]. apply app_inv_tail in X. auto.
  - apply in_app_or in H as [H|H]; [destruct (touches_not_ok _ _ _ _ T H)|]. apply (concluded_ok _ _ _ _ _ _ _ K) in H as (A & B & X).
    apply snoc_inv in X as [X _]. apply app_inv_tail in X. auto 6.
  - apply in_app_or in H as [H|H]; [destruct (touches_not_ok _ _ _ _ T H)|]. apply (concluded_ok _ _ _ _ _ _ _ K) in H as (A & B & X).
    apply snoc_inv in X as [X _]. apply app_inv_tail in X. auto 6.
Qed.

Theorem main_ok arg0 u ss args rest n e h x : LengthLaws C -> BoxTidy C -> rand_rules O -> file_rules O ->
  command_line ss args rest -> stops rest -> main_os C O fuel arg0 u args = (n, e, h) ->
  In (SOut (line (x ++ str ": OK"))) h ->
  n = 0 /\ e = [] /\ (mode ss x56 /\ x = string_value x6d ss \/ mode ss x45 /\ x = string_value x6d ss \/ mode ss x44 /\ x = string_value x63 ss).
Proof. intros LL BT RR FR Hc Hs M. apply run_ok with (arg0 := arg0) (u := u). exact (main_runs C O fuel arg0 u ss args rest n e h LL BT RR FR Hc Hs M). Qed.

(* -V *)
Theorem main_verified arg0 u ss args rest n e h : LengthLaws C -> BoxTidy C -> rand_rules O -> file_rules O ->
  command_line ss args rest -> stops rest -> main_os C O fuel arg0 u args = (n, e, h) -> mode ss x56 ->
  let k := or_default (string_value x70 ss) (defaultKeyBase u) (str ".pub") in
  let m := string_value x6d ss in
  let s := sigPathOf m (string_value x78 ss) in
  let accepted := exists pf mf sf, answered O [SReadFile k (inl pf); SReadFile m (inl mf); SReadFile s (inl sf)] /\
    signature_text (fun k m s => ed_verify C k m s = true) pf mf sf /\
    h = [SReadFile k (inl pf); SReadFile m (inl mf); SReadFile s (inl sf); SOut (line (m ++ str ": OK"))] in
  (n = 0 <-> accepted) /\ (n = 0 /\ e = [] \/ n = 1 /\ e = line (m ++ str ": invalid signature") \/ n = 2 /\ e = []).
Proof.
  intros LL BT RR FR Hc Hs M Mo k m s accepted. pose proof (main_runs C O fuel arg0 u ss args rest n e h LL BT RR FR Hc Hs M) as R.
  clear M. destruct R as [Mo'|r n e h t Mo'|pass r n e h t Mo'|y ? h Mo'|Mo'|r n e h t Mo'|r n e h t Mo' V K|r n e h t Mo'|r n e h t Mo'|N];
    try (pose proof (mode_fun _ _ _ Mo Mo'); discriminate).
  2:{ destruct Mo as [B _]. rewrite (N x56) in B by (cbn; auto). discriminate. }
  fold k m s in V, K. destruct V as (T & _ & _ & V). split.
  - split.
    + intros ->. inversion K; subst. destruct (proj1 V eq_refl) as (A & pf & mf & sf & -> & X). exists pf, mf, sf. split; [exact A|]. split; [exact X|reflexivity].
    + intros (pf & mf & sf & A & X & E).
      assert (I : In (SOut (line (m ++ str ": OK"))) (h ++ t)) by (rewrite E; cbn; auto).
      apply in_app_or in I as [I|I]; [destruct (touches_not_ok _ _ _ _ T I)|]. apply (concluded_ok _ _ _ _ _ _ _ K) in I as (A' & _). exact A'.
  - destruct K; auto.
Qed.

(* a command line that cannot be read: no call but printing the usage *)
Theorem main_complaint arg0 u ss args rest : command_line ss args rest -> malformed rest ->
  exists e, main_os C O fuel arg0 u args = (0, e, [SOut (usage arg0)]) /\ (complaint rest [EvErr e] \/ e = [] /\ complaint rest []).
Proof.
  intros Hc Hm. destruct (parseOne_complaint rest (flags_of ss) Hm) as (msg & E & X).
  assert (F : flagParse args = Malformed msg).
  { rewrite (flagParse_settings _ _ _ Hc). cbn [parseArgs]. rewrite E. reflexivity. }
  unfold main_os. rewrite F, usage_text. exists msg. split; [reflexivity|]. destruct msg; [right; auto|left; exact X].
Qed.
End Os.

(* ---- examples ---- *)
Definition small_main (fs : list (path * bytes)) (fails : nat -> option error) (args : list bytes) : ending :=
  main_os toy (small_os fs 5 [str "hello"] fails) (fun _ => 1000%nat) (str "psignify") None args.
Definition verify_flags : list setting := [SetB x56 true; SetS x70 (str "k.pub"); SetS x6d (str "m")].
Definition verify_args : list bytes := [str "-V"; str "-p"; str "k.pub"; str "-m"; str "m"].
Definition generated (fails : nat -> option error) : ending := small_main [] fails gen_args.

Lemma example_runs :
  LengthLaws toy /\ BoxTidy toy /\ command_line verify_flags verify_args [] /\ stops [] /\ mode verify_flags x56 /\
  small_main ((str "m.sig", m_sig) :: key_files) never verify_args =
    (0, [], [SReadFile (str "k.pub") (inl (pub_file toy_pub)); SReadFile (str "m") (inl (str "hello")); SReadFile (str "m.sig") (inl m_sig);
             SOut (line (str "m: OK"))]) /\
  small_main key_files never verify_args =
    (1, line (str "m: invalid signature"),
     [SReadFile (str "k.pub") (inl (pub_file toy_pub)); SReadFile (str "m") (inl (str "hello")); SReadFile (str "m.sig") (inr (ENotExist (str "m.sig")))]) /\
  fst (generated never) = (0, []) /\ firstn 6 (snd (generated never)) = typed_twice (str "right") (str "right") /\
  length (snd (generated never)) = 11%nat /\
  fst (generated (fail_at 0)) = (1, line (str "Failed to generate keypair: error")) /\ length (snd (generated (fail_at 0))) = 10%nat /\
  fst (small_main key_files never [str "-S"; str "-s"; str "l.sec"; str "-m"; str "m"]) = (0, []) /\
  fst (small_main key_files (fail_at 0) [str "-S"; str "-s"; str "l.sec"; str "-m"; str "m"]) = (1, line (str "Signing m failed: error")) /\
  small_main [] never [str "-q"] = (0, line (str "flag provided but not defined: -q"), [SOut (usage (str "psignify"))]).
Proof.
  split; [exact toy_lengths|]. split; [exact toy_tidy|].
  split; [exists ([[str "-V"]; [str "-p"; str "k.pub"]; [str "-m"; str "m"]]); split; [repeat constructor; flag|reflexivity]|].
  split; [constructor|]. split; [apply mode_V; reflexivity|].
  do 9 (split; [vm_compute; reflexivity|]). vm_compute. reflexivity.
Qed.
