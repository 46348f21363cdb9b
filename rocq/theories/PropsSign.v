(* Property theorems for signing, verification and key generation (C23-C29, C43-C46). *)
From Verif Require Import SignWitness.

(* C23 *)
Theorem C23_checked : forall C k mp s w r w' kf p0, Sign C k mp s w = (r, w') ->
  contents w k kf -> readPrivateKeyFile kf = Ok p0 -> IsEncrypted p0 = true ->
  w_fs w' <> w_fs w ->
  exists pass tl p, w_tty w = Ok pass :: tl /\
    key p = xor_bytes (key p0) (pbkdf C pass (salt p0) (kdfRounds p0) 64) /\
    checksum p0 = firstn 8 (sha512 C (key p)).
Proof. exact Sign_checked. Qed.
Print Assumptions C23_checked.

Theorem C23_unencrypted_checked_refuted : exists C k mp s w w' kf p0,
  LengthLaws C /\ contents w k kf /\ readPrivateKeyFile kf = Ok p0 /\
  checksum p0 <> firstn 8 (sha512 C (key p0)) /\ Sign C k mp s w = (Ok tt, w') /\
  w_fs w' (sigPathOf mp s) <> None.
Proof. exact Sign_bad_checksum_refuted. Qed.
Print Assumptions C23_unencrypted_checked_refuted.

Example C23_instance :
  exists kf p0, contents w_run1 (str "dir/k.sec") kf /\ readPrivateKeyFile kf = Ok p0 /\
    IsEncrypted p0 = true /\
    w_fs (snd (Sign toy (str "dir/k.sec") (str "m") [] w_run1)) (str "m.sig") <> w_fs w_run1 (str "m.sig") /\
    fst (Sign toy (str "dir/k.sec") (str "m") [] (set_tty w_run1 [Ok (str "no")])) <> Ok tt.
Proof.
  do 2 eexists. split; [exists 420; vm_compute; reflexivity|].
  split; [vm_compute; reflexivity|]. split; [reflexivity|]. split; vm_compute; discriminate.
Qed.

(* C24 *)
Theorem C24_sign_then_verify : forall C k pass opts w w1 v m mp s n,
  LengthLaws C -> EdCorrect C ->
  GenerateKey C k pass opts w = (Ok tt, w1) ->
  w_fs v (sec_path k) = w_fs w1 (sec_path k) -> w_fs v (pub_path k) = w_fs w1 (pub_path k) ->
  contents v mp m -> w_faults v = [] ->
  (pass <> [] -> exists tl, w_tty v = Ok pass :: tl) ->
  last_component (pub_path k) n -> lf_free n -> Z.of_nat (length n) <= 65000 ->
  sigPathOf mp s <> [] -> sigPathOf mp s <> pub_path k -> sigPathOf mp s <> mp ->
  exists v1 v2, Sign C (sec_path k) mp s v = (Ok tt, v1) /\
    w_tty v1 = (match pass with [] => w_tty v | _ => tl (w_tty v) end) /\
    Verify C (pub_path k) mp s v1 = (Ok tt, v2).
Proof. exact sign_then_verify. Qed.
Print Assumptions C24_sign_then_verify.

Example C24_instance : LengthLaws toy /\ EdCorrect toy /\
  fst (GenerateKey toy (str "dir/k") (str "pw") (Some 3) w_run) = Ok tt /\
  contents w_run1 (str "m") (str "attack at dawn") /\ w_faults w_run1 = [] /\
  w_tty w_run1 = [Ok (str "pw")] /\ last_component (pub_path (str "dir/k")) (str "k.pub") /\
  fst (Verify toy (str "dir/k.pub") (str "m") [] (snd (Sign toy (str "dir/k.sec") (str "m") [] w_run1))) = Ok tt.
Proof.
  split; [exact toy_lengths|]. split; [exact toy_ed|]. split; [apply run_example|].
  split; [exists 420; reflexivity|]. split; [reflexivity|]. split; [reflexivity|].
  split; [|apply run_example]. split; [vm_compute; intuition discriminate|].
  exists (str "dir/"). split; [reflexivity|]. right. exists (str "dir"). reflexivity.
Qed.

(* C25 *)
Theorem C25_accepts : forall C a b c w,
  (exists w', Verify C a b c w = (Ok tt, w')) <->
  undisturbed 3 w /\
  exists pf m sf pk sg, contents w a pf /\ contents w b m /\ contents w (sigPathOf b c) sf /\
    readPublicKeyFile pf = Ok pk /\ readSignatureFile sf = Ok sg /\ acceptable C pk m sg.
Proof. exact Verify_ok_iff. Qed.
Print Assumptions C25_accepts.

Theorem C25_panics : forall C a b c w,
  fst (Verify C a b c w) = Panic <->
  undisturbed 3 w /\
  exists pf m sf pk com d, contents w a pf /\ contents w b m /\ contents w (sigPathOf b c) sf /\
    readPublicKeyFile pf = Ok pk /\ readDataFileBytes sf = Ok (DataFile com d) /\ (length d < 10)%nat.
Proof. exact Verify_panic_iff. Qed.
Print Assumptions C25_panics.

Example C25_instance :
  fst (Verify toy (str "dir/k.pub") (str "m") [] (snd (Sign toy (str "dir/k.sec") (str "m") [] w_run1))) = Ok tt /\
  fst (Verify toy (str "p") (str "m") (str "s")
    (start [(str "p", pub_file (Pub (str "Ed") (repeat x01 8) (repeat x02 32))); (str "m", []); (str "s", [])] [] [])) = Panic.
Proof. split; vm_compute; reflexivity. Qed.

(* C26 *)
Theorem C26_verify_reads_only : forall C a b c w r w',
  Verify C a b c w = (r, w') -> exists fl, w' = set_faults w fl.
Proof. exact Verify_world. Qed.
Print Assumptions C26_verify_reads_only.

Example C26_instance : exists w, fst (Verify toy (str "dir/k.pub") (str "m") [] w) = Ok tt /\
  w_faults (snd (Verify toy (str "dir/k.pub") (str "m") [] w)) = [FFail 3].
Proof.
  exists (set_faults (snd (Sign toy (str "dir/k.sec") (str "m") [] w_run1)) [FOk; FOk; FOk; FFail 3]).
  split; vm_compute; reflexivity.
Qed.

(* C27 *)
Theorem C27_other_files : forall C k mp s w r w' q,
  Sign C k mp s w = (r, w') -> q <> sigPathOf mp s -> w_fs w' q = w_fs w q.
Proof. exact Sign_other_files. Qed.
Print Assumptions C27_other_files.

Theorem C27_untouched : forall C k mp s w r w', Sign C k mp s w = (r, w') ->
  (~ exists p m, sign_ready C k mp w p m) -> w_fs w' = w_fs w /\ r <> Ok tt.
Proof. exact Sign_untouched. Qed.
Print Assumptions C27_untouched.

Theorem C27_success : forall C k mp s w w' n, LengthLaws C -> pub_name k n ->
  Sign C k mp s w = (Ok tt, w') ->
  exists p m, sign_ready C k mp w p m /\
    w_fs w' (sigPathOf mp s) =
      Some (File (signature_file n (keyAlgo p) (keyNum p) (ed_sign C (key p) m))
                 (file_mode (w_fs w) (sigPathOf mp s) 420)).
Proof. exact Sign_success. Qed.
Print Assumptions C27_success.

Theorem C27_name : forall k, exists n, pub_name k n /\ forall n', pub_name k n' -> n' = n.
Proof.
  exact (fun k => ex_intro _ (sig_base k)
           (conj (sig_base_name k) (fun n' H => pub_name_unique k n' _ H (sig_base_name k)))).
Qed.
Print Assumptions C27_name.

Theorem C27_default_path : forall mp s, sigPathOf mp s = if bytes_eqb s [] then mp ++ str ".sig" else s.
Proof. intros mp [|c s]; reflexivity. Qed.
Print Assumptions C27_default_path.

Example C27_instance : pub_name (str "dir/k.sec") (str "k.pub") /\
  w_fs (snd (Sign toy (str "dir/k.sec") (str "m") [] w_run1)) (str "m.sig") =
  Some (File (signature_file (str "k.pub") (str "Ed") (repeat x13 8) (fit 64 (str "attack at dawn"))) 420).
Proof.
  split; [|vm_compute; reflexivity]. exists (str "dir/k"). split; [left; reflexivity|].
  split; [vm_compute; intuition discriminate|].
  exists (str "dir/"). split; [reflexivity|]. right. exists (str "dir"). reflexivity.
Qed.

(* C28 *)
Theorem C28_sign_wipes : forall C k mp s w r w', Sign C k mp s w = (r, w') ->
  exists zs, w_bufs w' = w_bufs w ++ zs /\ Forall all_zero zs.
Proof. exact Sign_wipes. Qed.
Print Assumptions C28_sign_wipes.

Theorem C28_tobox_wipes_refuted : exists C p w b p' w',
  LengthLaws C /\ priv_wf p /\ priv_ToBox C p w = ((Ok b, p'), w') /\
  exists x, In x (w_bufs w') /\ ~ all_zero x.
Proof. exact ToBox_keeps_passphrase_refuted. Qed.
Print Assumptions C28_tobox_wipes_refuted.

Theorem C28_generate_wipes_refuted : exists C k w n w',
  LengthLaws C /\ generateAction C k false w = (n, w') /\ n = 0 /\
  exists x, In x (w_bufs w') /\ ~ all_zero x.
Proof. exact G_keeps_passphrase_refuted. Qed.
Print Assumptions C28_generate_wipes_refuted.

Example C28_instance :
  w_bufs (snd (Sign toy (str "dir/k.sec") (str "m") [] w_run1)) = [[x00; x00]] /\
  w_bufs (snd (Sign toy (str "dir/k.sec") (str "m") [] (set_tty w_run1 [Ok (str "nope")]))) = [repeat x00 4].
Proof. split; vm_compute; reflexivity. Qed.

(* C29 *)
Theorem C29_reads_back : forall C k mp s w w' n, LengthLaws C -> pub_name k n -> lf_free n ->
  Z.of_nat (length n) <= 65000 -> Sign C k mp s w = (Ok tt, w') ->
  exists p m d, sign_ready C k mp w p m /\ contents w' (sigPathOf mp s) d /\
    readSignatureFile d = Ok (Sig (keyAlgo p) (keyNum p) (ed_sign C (key p) m)).
Proof. exact Sign_reads_back. Qed.
Print Assumptions C29_reads_back.

Theorem C29_newline_refuted : exists C k mp s w w' p m d,
  LengthLaws C /\ sign_ready C k mp w p m /\ Sign C k mp s w = (Ok tt, w') /\
  contents w' (sigPathOf mp s) d /\
  readSignatureFile d <> Ok (Sig (keyAlgo p) (keyNum p) (ed_sign C (key p) m)).
Proof. exact newline_name_refuted. Qed.
Print Assumptions C29_newline_refuted.

Example C29_instance :
  readSignatureFile (signature_file (str "k.pub") (str "Ed") (repeat x13 8) (repeat x55 64)) =
  Ok (Sig (str "Ed") (repeat x13 8) (repeat x55 64)).
Proof. vm_compute. reflexivity. Qed.

(* C43 *)
Theorem C43_success : forall C k pass opts w w', LengthLaws C ->
  GenerateKey C k pass opts w = (Ok tt, w') ->
  exists priv pub w1, GenerateKeypair C pass opts w = (Ok (priv, pub), w1) /\
    w_fs w' (sec_path k) = Some (File (sec_file priv) (file_mode (w_fs w) (sec_path k) 420)) /\
    w_fs w' (pub_path k) = Some (File (pub_file pub) (file_mode (w_fs w) (pub_path k) 420)) /\
    readPrivateKeyFile (sec_file priv) = Ok priv /\ readPublicKeyFile (pub_file pub) = Ok pub.
Proof. exact GenerateKey_success. Qed.
Print Assumptions C43_success.

Theorem C43_other_files : forall C k pass opts w r w' q, GenerateKey C k pass opts w = (r, w') ->
  q <> sec_path k -> q <> pub_path k -> w_fs w' q = w_fs w q.
Proof. exact GenerateKey_other. Qed.
Print Assumptions C43_other_files.

Theorem C43_failed_generation : forall C k pass opts w r w', GenerateKey C k pass opts w = (r, w') ->
  (forall kp, fst (GenerateKeypair C pass opts w) <> Ok kp) ->
  is_ok r = false /\ w_fs w' = w_fs w /\ w_log w' = w_log w.
Proof. exact GenerateKey_no_pair. Qed.
Print Assumptions C43_failed_generation.

Theorem C43_runs : forall C k pass opts w, LengthLaws C -> (56 <= length (w_rng w))%nat ->
  (pass = [] \/ rounds_of opts mod 4294967296 <> 0) -> w_faults w = [] ->
  exists w', GenerateKey C k pass opts w = (Ok tt, w') /\ w_faults w' = [].
Proof. exact GenerateKey_runs. Qed.
Print Assumptions C43_runs.

Example C43_instance : exists p q, pair_of (w_fs w_run1) (str "dir/k") = Some (p, q) /\
  keyNum p = p_keyNum q /\ fst (decrypt toy p (str "pw")) = Ok tt.
Proof. do 2 eexists. split; [vm_compute; reflexivity|split; vm_compute; reflexivity]. Qed.

(* C44 *)
Theorem C44_crash : forall C k pass opts w r w' evs fs', GenerateKey C k pass opts w = (r, w') ->
  w_log w' = w_log w ++ evs -> crash_state (w_fs w) evs fs' ->
  (forall q, fs' q = w_fs w q) \/
  exists priv pub w1, GenerateKeypair C pass opts w = (Ok (priv, pub), w1) /\
    (forall q, q <> sec_path k -> q <> pub_path k -> fs' q = w_fs w q) /\
    partial_of (w_fs w) (sec_path k) (sec_file priv) (fs' (sec_path k)) /\
    partial_of (w_fs w) (pub_path k) (pub_file pub) (fs' (pub_path k)) /\
    (fs' (pub_path k) <> w_fs w (pub_path k) ->
     fs' (sec_path k) = Some (File (sec_file priv) (file_mode (w_fs w) (sec_path k) 420))).
Proof. exact GenerateKey_crash. Qed.
Print Assumptions C44_crash.

Theorem C44_pair_stays_matched_refuted : exists C k pass opts w w' evs fs' p q p' q',
  LengthLaws C /\ GenerateKey C k pass opts w = (Ok tt, w') /\ w_log w' = w_log w ++ evs /\
  crash_state (w_fs w) evs fs' /\
  pair_of (w_fs w) k = Some (p, q) /\ keyNum p = p_keyNum q /\
  pair_of fs' k = Some (p', q') /\ keyNum p' <> p_keyNum q'.
Proof. exact crash_mismatch_refuted. Qed.
Print Assumptions C44_pair_stays_matched_refuted.

Theorem C44_secret_survives_refuted : exists C k pass opts w w' evs fs' p q f,
  LengthLaws C /\ GenerateKey C k pass opts w = (Ok tt, w') /\ w_log w' = w_log w ++ evs /\
  crash_state (w_fs w) evs fs' /\ pair_of (w_fs w) k = Some (p, q) /\
  fs' (sec_path k) = Some f /\ f_data f = [] /\ forall x, readPrivateKeyFile (f_data f) <> Ok x.
Proof. exact crash_lost_refuted. Qed.
Print Assumptions C44_secret_survives_refuted.

Example C44_instance : exists evs fs',
  w_log w_run1 = w_log w_run ++ evs /\ crash_state (w_fs w_run) evs fs' /\ length evs = 4%nat /\
  fs' (str "dir/k.pub") = Some (File [] 420) /\ fs' (str "dir/k.sec") = w_fs w_run1 (str "dir/k.sec").
Proof.
  exists (w_log w_run1), (replay (w_fs w_run) (firstn 3 (w_log w_run1))). split; [reflexivity|].
  split; [eexists; eexists; split; [symmetry; apply firstn_skipn|left; reflexivity]|].
  split; [vm_compute; reflexivity|split; vm_compute; reflexivity].
Qed.

(* C45 *)
Theorem C45_mode : forall C k pass opts w w', LengthLaws C ->
  GenerateKey C k pass opts w = (Ok tt, w') ->
  exists priv pub w1, GenerateKeypair C pass opts w = (Ok (priv, pub), w1) /\
    w_fs w' (sec_path k) = Some (File (sec_file priv)
      (match w_fs w (sec_path k) with Some f => f_mode f | None => 6 * 64 + 4 * 8 + 4 end)).
Proof.
  exact (fun C k pass opts w w' LL H =>
    match GenerateKey_success C k pass opts w w' LL H with
    | ex_intro _ priv (ex_intro _ pub (ex_intro _ w1 (conj G (conj Sx _)))) =>
        ex_intro _ priv (ex_intro _ pub (ex_intro _ w1 (conj G Sx)))
    end).
Qed.
Print Assumptions C45_mode.

Example C45_instance :
  fst (GenerateKey toy (str "k") [] None w_old) = Ok tt /\ w_fs w_old (sec_path (str "k")) <> None /\
  w_fs (snd (GenerateKey toy (str "k") [] None w_old)) (sec_path (str "k")) <> w_fs w_old (sec_path (str "k")).
Proof. split; [vm_compute; reflexivity|split; vm_compute; discriminate]. Qed.

(* C46 *)
Theorem C46_confirmed : forall w i w', PassphrasePrompt true w = (Ok i, w') ->
  exists a t z, w_tty w = Ok a :: Ok a :: t /\ w_tty w' = t /\
    w_bufs w' = w_bufs w ++ [a; z] /\ i = length (w_bufs w) /\ all_zero z.
Proof. exact prompt_confirmed. Qed.
Print Assumptions C46_confirmed.

Theorem C46_matches : forall w a b t, w_tty w = Ok a :: Ok b :: t ->
  (a = b <-> exists i w', PassphrasePrompt true w = (Ok i, w')) /\
  (exists z, w_bufs (snd (PassphrasePrompt true w)) = w_bufs w ++ [a; z] /\ all_zero z).
Proof. exact prompt_matches. Qed.
Print Assumptions C46_matches.

Theorem C46_single : forall w, match w_tty w with
  | Ok a :: t => exists w', PassphrasePrompt false w = (Ok (length (w_bufs w)), w') /\
                    w_bufs w' = w_bufs w ++ [a] /\ w_tty w' = t
  | Err e :: t => exists w', PassphrasePrompt false w = (Err e, w') /\ w_bufs w' = w_bufs w
  | _ => True
  end.
Proof. exact prompt_single. Qed.
Print Assumptions C46_single.

Theorem C46_errors : forall w e, match w_tty w with
  | Err e' :: _ => e = e'
  | Ok _ :: Err e' :: _ => e = e'
  | _ => False
  end -> fst (PassphrasePrompt true w) = Err e.
Proof. exact prompt_error. Qed.
Print Assumptions C46_errors.

Example C46_instance :
  fst (PassphrasePrompt true (tty_world [Ok (str "a"); Ok (str "a")])) = Ok 0%nat /\
  fst (PassphrasePrompt true (tty_world [Ok (str "a"); Ok (str "b")])) = Err (EMsg (str "passphrases don't match")) /\
  fst (PassphrasePrompt true (tty_world [Ok (str "a"); Err EFault])) = Err EFault.
Proof. repeat split; vm_compute; reflexivity. Qed.
