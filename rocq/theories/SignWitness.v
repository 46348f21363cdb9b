(* Concrete runs: witnesses for refuted expectations and instances of theorems
   about keys, signing and verification. *)
From Verif Require Export GenFacts Cmd.

Lemma surj {A B} (x : A * B) a : fst x = a -> x = (a, snd x).
Proof. intros <-. apply surjective_pairing. Qed.

Fixpoint files (l : list (path * bytes)) : path -> option file :=
  fun p => match l with
           | [] => None
           | (q, d) :: r => if bytes_eqb p q then Some (File d 420) else files r p
           end.
Definition start (l : list (path * bytes)) (tty : list (res bytes)) (rng : bytes) : world :=
  World (files l) [] rng tty [] [] [].

Definition w_sign : world :=
  start [(str "bad.sec", sec_file toy_bad); (str "m", str "hello")] [] [].

Lemma Sign_bad_checksum_refuted : exists C k mp s w w' kf p0,
  LengthLaws C /\ contents w k kf /\ readPrivateKeyFile kf = Ok p0 /\
  checksum p0 <> firstn 8 (sha512 C (key p0)) /\ Sign C k mp s w = (Ok tt, w') /\
  w_fs w' (sigPathOf mp s) <> None.
Proof.
  exists toy, (str "bad.sec"), (str "m"), [], w_sign. eexists. exists (sec_file toy_bad), toy_bad.
  split; [exact toy_lengths|]. split; [exists 420; reflexivity|]. split; [vm_compute; reflexivity|].
  split; [vm_compute; discriminate|]. split; [apply surj; vm_compute; reflexivity|]. vm_compute. discriminate.
Qed.

Lemma ToBox_keeps_passphrase_refuted : exists C p w b p' w',
  LengthLaws C /\ priv_wf p /\ priv_ToBox C p w = ((Ok b, p'), w') /\
  exists x, In x (w_bufs w') /\ ~ all_zero x.
Proof.
  exists toy, toy_locked, (tty_world [Ok (str "right")]). do 3 eexists. split; [exact toy_lengths|].
  split; [vm_compute; repeat split; discriminate|]. split; [apply surj; vm_compute; reflexivity|].
  exists (str "right"). split; [left; reflexivity|]. intro H. inversion H. discriminate.
Qed.

Lemma G_keeps_passphrase_refuted : exists C k w n w',
  LengthLaws C /\ generateAction C k false w = (n, w') /\ n = 0 /\
  exists x, In x (w_bufs w') /\ ~ all_zero x.
Proof.
  exists toy, (str "k"), (start [] [Ok (str "pw"); Ok (str "pw")] (repeat x11 56)). do 2 eexists.
  split; [exact toy_lengths|]. split; [apply surj; vm_compute; reflexivity|]. split; [reflexivity|].
  exists (str "pw"). split; [left; reflexivity|]. intro H. inversion H. discriminate.
Qed.

(* a key path with a newline in its last component *)
Definition nl_path : path := str "k" ++ [x0a] ++ str "x.sec".
Definition w_nl : world := start [(nl_path, sec_file toy_bad); (str "m", str "hello")] [] [].

Lemma newline_name_refuted : exists C k mp s w w' p m d,
  LengthLaws C /\ sign_ready C k mp w p m /\ Sign C k mp s w = (Ok tt, w') /\
  contents w' (sigPathOf mp s) d /\
  readSignatureFile d <> Ok (Sig (keyAlgo p) (keyNum p) (ed_sign C (key p) m)).
Proof.
  exists toy, nl_path, (str "m"), (str "s"), w_nl. eexists. exists toy_bad, (str "hello"). eexists.
  split; [exact toy_lengths|]. split.
  { exists (sec_file toy_bad), toy_bad. split; [exists 420; reflexivity|]. split; [vm_compute; reflexivity|].
    split; [exists 420; reflexivity|]. left. split; reflexivity. }
  split; [apply surj; vm_compute; reflexivity|]. split; [exists 420; vm_compute; reflexivity|]. vm_compute. discriminate.
Qed.

(* ---- replacing an existing pair ---- *)
Definition rng_old : bytes := repeat x01 32 ++ repeat x02 16 ++ repeat x03 8.
Definition rng_new : bytes := repeat x11 32 ++ repeat x12 16 ++ repeat x13 8.
Definition w_old : world := snd (GenerateKey toy (str "k") [] None (start [] [] (rng_old ++ rng_new))).

Definition pair_of (fs : path -> option file) (k : path) : option (Private * Public) :=
  match fs (sec_path k), fs (pub_path k) with
  | Some a, Some b =>
      match readPrivateKeyFile (f_data a), readPublicKeyFile (f_data b) with
      | Ok p, Ok q => Some (p, q)
      | _, _ => None
      end
  | _, _ => None
  end.

Lemma crash_mismatch_refuted : exists C k pass opts w w' evs fs' p q p' q',
  LengthLaws C /\ GenerateKey C k pass opts w = (Ok tt, w') /\ w_log w' = w_log w ++ evs /\
  crash_state (w_fs w) evs fs' /\
  pair_of (w_fs w) k = Some (p, q) /\ keyNum p = p_keyNum q /\
  pair_of fs' k = Some (p', q') /\ keyNum p' <> p_keyNum q'.
Proof.
  exists toy, (str "k"), [], None, w_old. eexists.
  exists (skipn (length (w_log w_old)) (w_log (snd (GenerateKey toy (str "k") [] None w_old)))).
  exists (replay (w_fs w_old) (firstn 2 (skipn (length (w_log w_old)) (w_log (snd (GenerateKey toy (str "k") [] None w_old)))))).
  do 4 eexists. split; [exact toy_lengths|]. split; [apply surj; vm_compute; reflexivity|]. split; [vm_compute; reflexivity|].
  split; [eexists; eexists; split; [symmetry; apply firstn_skipn|left; reflexivity]|].
  split; [vm_compute; reflexivity|]. split; [reflexivity|]. split; [vm_compute; reflexivity|]. discriminate.
Qed.

Lemma crash_lost_refuted : exists C k pass opts w w' evs fs' p q f,
  LengthLaws C /\ GenerateKey C k pass opts w = (Ok tt, w') /\ w_log w' = w_log w ++ evs /\
  crash_state (w_fs w) evs fs' /\ pair_of (w_fs w) k = Some (p, q) /\
  fs' (sec_path k) = Some f /\ f_data f = [] /\ forall x, readPrivateKeyFile (f_data f) <> Ok x.
Proof.
  exists toy, (str "k"), [], None, w_old. eexists.
  exists (skipn (length (w_log w_old)) (w_log (snd (GenerateKey toy (str "k") [] None w_old)))).
  exists (replay (w_fs w_old) (firstn 1 (skipn (length (w_log w_old)) (w_log (snd (GenerateKey toy (str "k") [] None w_old)))))).
  do 3 eexists. split; [exact toy_lengths|]. split; [apply surj; vm_compute; reflexivity|]. split; [vm_compute; reflexivity|].
  split; [eexists; eexists; split; [symmetry; apply firstn_skipn|left; reflexivity]|].
  split; [vm_compute; reflexivity|]. split; [vm_compute; reflexivity|]. split; [reflexivity|]. intros x H. discriminate.
Qed.

(* ---- a complete run: generate, sign, verify ---- *)
Definition w_run : world :=
  start [(str "m", str "attack at dawn")] [Ok (str "pw")] (rng_new ++ rng_old).
Definition w_run1 : world := snd (GenerateKey toy (str "dir/k") (str "pw") (Some 3) w_run).

Lemma run_example :
  fst (GenerateKey toy (str "dir/k") (str "pw") (Some 3) w_run) = Ok tt /\
  fst (Sign toy (str "dir/k.sec") (str "m") [] w_run1) = Ok tt /\
  fst (Verify toy (str "dir/k.pub") (str "m") [] (snd (Sign toy (str "dir/k.sec") (str "m") [] w_run1))) = Ok tt.
Proof. repeat split; vm_compute; reflexivity. Qed.
