From Verif Require Import SealCrashWitness SealCrash SealWitness RealCrypto.
Import ListNotations.

(* C77 *)
Theorem C77_crash : forall C pk mp ep w r w' evs fs',
  Seal C pk mp ep w = (r, w') -> w_log w' = w_log w ++ evs -> crash_state (w_fs w) evs fs' ->
  let q := enc_path mp ep in
  (forall x, x <> q -> fs' x = w_fs w x /\ w_fs w' x = w_fs w x) /\
  (fs' q = w_fs w q \/
   exists out d, fs' q = Some (File out (file_mode (w_fs w) q 438)) /\
     w_fs w' q = Some (File d (file_mode (w_fs w) q 438)) /\ is_prefix out d).
Proof. exact Seal_crash. Qed.
Print Assumptions C77_crash.

Theorem C77_opened : forall C k pass opts w w1 v m mp ep,
  LengthLaws C -> BoxTidy C -> BoxCorrect C -> DHCorrect C -> ToBoxAgree C ->
  GenerateKey C k pass opts w = (Ok tt, w1) -> not_mistaken C pass opts (w_rng w) ->
  w_fs v (sec_path k) = w_fs w1 (sec_path k) -> w_fs v (pub_path k) = w_fs w1 (pub_path k) ->
  contents v mp m -> m <> [] -> Z.of_nat (length m) < 2 ^ 63 -> no_faults v -> (32 <= length (w_rng v))%nat ->
  let q := enc_path mp ep in
  q <> mp -> q <> sec_path k ->
  exists v1 evs pf pub edpub, Seal C (pub_path k) mp ep v = (Ok tt, v1) /\ w_log v1 = w_log v ++ evs /\
    contents v (pub_path k) pf /\ readPublicKeyFile pf = Ok pub /\ pub_ToBox pub = Ok edpub /\
    forall fs', crash_state (w_fs v) evs fs' ->
    (forall x, x <> q -> fs' x = w_fs v x) /\
    (fs' q = w_fs v q \/
     exists out d, fs' q = Some (File out (file_mode (w_fs v) q 438)) /\ contents v1 q d /\ is_prefix out d /\
     forall v' v2 to, w_fs v' = fs' -> (pass <> [] -> exists tl, w_tty v' = Ok pass :: tl) ->
       to <> q -> Open C (sec_path k) q to v' = (Ok tt, v2) ->
       contents v2 to m \/
       exists ms j piece c m', full_pieces ms /\ concat ms = m /\ nth_error ms j = Some piece /\
         truncated_box C (box_precompute C edpub (firstn 32 (w_rng v))) (Z.of_nat j) piece c m').
Proof. exact seal_crash_open. Qed.
Print Assumptions C77_opened.

(* with the primitives of C71 *)
Theorem C77_opened_real : forall k pass opts w w1 v m mp ep,
  GenerateKey real k pass opts w = (Ok tt, w1) -> not_mistaken real pass opts (w_rng w) ->
  w_fs v (sec_path k) = w_fs w1 (sec_path k) -> w_fs v (pub_path k) = w_fs w1 (pub_path k) ->
  contents v mp m -> m <> [] -> Z.of_nat (length m) < 2 ^ 63 -> no_faults v -> (32 <= length (w_rng v))%nat ->
  let q := enc_path mp ep in
  q <> mp -> q <> sec_path k ->
  exists v1 evs pf pub edpub, Seal real (pub_path k) mp ep v = (Ok tt, v1) /\ w_log v1 = w_log v ++ evs /\
    contents v (pub_path k) pf /\ readPublicKeyFile pf = Ok pub /\ pub_ToBox pub = Ok edpub /\
    forall fs', crash_state (w_fs v) evs fs' ->
    (forall x, x <> q -> fs' x = w_fs v x) /\
    (fs' q = w_fs v q \/
     exists out d, fs' q = Some (File out (file_mode (w_fs v) q 438)) /\ contents v1 q d /\ is_prefix out d /\
     forall v' v2 to, w_fs v' = fs' -> (pass <> [] -> exists tl, w_tty v' = Ok pass :: tl) ->
       to <> q -> Open real (sec_path k) q to v' = (Ok tt, v2) ->
       contents v2 to m \/
       exists ms j piece c m', full_pieces ms /\ concat ms = m /\ nth_error ms j = Some piece /\
         truncated_box real (box_precompute real edpub (firstn 32 (w_rng v))) (Z.of_nat j) piece c m').
Proof. exact (fun k pass opts w w1 v m mp ep => seal_crash_open real k pass opts w w1 v m mp ep real_lengths real_tidy real_box real_dh real_agree). Qed.
Print Assumptions C77_opened_real.

Theorem C77_old_or_new_refuted : exists C pk sk mp q out w w' evs fs' old new left v e,
  LengthLaws C /\ BoxTidy C /\ BoxCorrect C /\ no_faults w /\ q = enc_path mp [] /\
  Open C sk q out w = (Ok tt, v) /\ contents v out (str "hello") /\
  Seal C pk mp [] w = (Ok tt, w') /\ w_log w' = w_log w ++ evs /\ crash_state (w_fs w) evs fs' /\
  contents w q old /\ contents w' q new /\ contents (set_fs w fs') q left /\ left <> old /\ left <> new /\
  fst (Open C sk q out (set_fs w fs')) = Err e.
Proof. exact not_atomic. Qed.
Print Assumptions C77_old_or_new_refuted.

(* a run over an earlier file interrupted after 20 of its 35 writes, before the last
   characters and before the final newline *)
Example C77_instance :
  let evs := w_log (snd again_run) in
  let at_ n := replay (w_fs w_again) (firstn n evs) in
  fst again_run = Ok tt /\ length evs = 35%nat /\
  (forall n, crash_state (w_fs w_again) evs (at_ n)) /\
  contents (set_fs w_again (at_ 20%nat)) (str "m.enc") (comment_text ++ str "AAAAAAAAAAE" ++ repeat x41 61) /\
  fst (open_run (set_fs w_again (at_ 20%nat))) <> Ok tt /\
  fst (open_run (set_fs w_again (at_ 33%nat))) <> Ok tt /\
  fst (open_run (set_fs w_again (at_ 34%nat))) = Ok tt.
Proof.
  split; [vm_compute; reflexivity|]. split; [vm_compute; reflexivity|].
  split; [intro n; eexists; eexists; split; [symmetry; apply (firstn_skipn n)|left; reflexivity]|].
  split; [eexists; vm_compute; reflexivity|]. split; [vm_compute; discriminate|]. split; [vm_compute; discriminate|vm_compute; reflexivity].
Qed.
