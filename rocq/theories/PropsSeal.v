(* Property theorems for sealing and opening (C30-C42, C57). *)
From Verif Require Import SealOpen GoBase64 SealWitness.

(* C30 *)
Theorem C30_increment : forall n, length n = 24%nat ->
  length (fst (incrementNonce n)) = 24%nat /\
  be_decode (fst (incrementNonce n)) = (be_decode n + 1) mod 2 ^ 192 /\
  (snd (incrementNonce n) <> None <-> be_decode n = 2 ^ 192 - 1).
Proof. exact incrementNonce_24. Qed.
Print Assumptions C30_increment.

Theorem C30_distinct : forall i j, 0 <= i < 2 ^ 192 -> 0 <= j < 2 ^ 192 -> nonce i = nonce j -> i = j.
Proof. exact nonce_inj. Qed.
Print Assumptions C30_distinct.

Example C30_instance :
  incrementNonce (repeat x00 22 ++ [x01; xff]) = (repeat x00 22 ++ [x02; x00], None) /\
  fst (incrementNonce (repeat xff 24)) = repeat x00 24 /\ snd (incrementNonce (repeat xff 24)) <> None.
Proof. split; [vm_compute; reflexivity|]. split; [vm_compute; reflexivity|discriminate]. Qed.

(* C31 *)
Theorem C31_round_trip : forall C k pass opts w w1 v m mp ep out,
  LengthLaws C -> BoxTidy C -> BoxCorrect C -> DHCorrect C -> ToBoxAgree C ->
  GenerateKey C k pass opts w = (Ok tt, w1) -> not_mistaken C pass opts (w_rng w) ->
  w_fs v (sec_path k) = w_fs w1 (sec_path k) -> w_fs v (pub_path k) = w_fs w1 (pub_path k) ->
  contents v mp m -> m <> [] -> Z.of_nat (length m) < 2 ^ 63 -> no_faults v -> (32 <= length (w_rng v))%nat ->
  (pass <> [] -> exists tl, w_tty v = Ok pass :: tl) ->
  let q := enc_path mp ep in
  q <> mp -> q <> sec_path k -> out <> [] -> out <> q ->
  exists v1 v2, Seal C (pub_path k) mp ep v = (Ok tt, v1) /\ Open C (sec_path k) q out v1 = (Ok tt, v2) /\
    contents v2 out m /\ (forall x, x <> q -> x <> out -> w_fs v2 x = w_fs v x).
Proof. exact seal_then_open. Qed.
Print Assumptions C31_round_trip.

(* the sealed file can be opened in any later state that still has it and the secret key *)
Theorem C31_opened_later : forall C k pass opts w w1 v m mp ep,
  LengthLaws C -> BoxTidy C -> BoxCorrect C -> DHCorrect C -> ToBoxAgree C ->
  GenerateKey C k pass opts w = (Ok tt, w1) -> not_mistaken C pass opts (w_rng w) ->
  w_fs v (sec_path k) = w_fs w1 (sec_path k) -> w_fs v (pub_path k) = w_fs w1 (pub_path k) ->
  contents v mp m -> m <> [] -> Z.of_nat (length m) < 2 ^ 63 -> no_faults v -> (32 <= length (w_rng v))%nat ->
  let q := enc_path mp ep in
  q <> mp -> q <> sec_path k ->
  exists v1, Seal C (pub_path k) mp ep v = (Ok tt, v1) /\ no_faults v1 /\ w_tty v1 = w_tty v /\
    (forall x, x <> q -> w_fs v1 x = w_fs v x) /\
    forall v' out, w_fs v' (sec_path k) = w_fs v1 (sec_path k) -> w_fs v' q = w_fs v1 q -> no_faults v' ->
      (pass <> [] -> exists tl, w_tty v' = Ok pass :: tl) -> out <> [] -> out <> q ->
      exists v2, Open C (sec_path k) q out v' = (Ok tt, v2) /\ contents v2 out m /\
        (forall x, x <> out -> w_fs v2 x = w_fs v' x).
Proof. exact seal_then_open_later. Qed.
Print Assumptions C31_opened_later.

Example C31_instance : LengthLaws toy /\ BoxTidy toy /\ BoxCorrect toy /\ DHCorrect toy /\ ToBoxAgree toy /\
  fst (GenerateKey toy (str "dir/k") (str "pw") (Some 3) w_run) = Ok tt /\
  not_mistaken toy (str "pw") (Some 3) (w_rng w_run) /\ contents w_run1 (str "m") (str "attack at dawn") /\
  no_faults w_run1 /\ (32 <= length (w_rng w_run1))%nat /\ w_tty w_run1 = [Ok (str "pw")].
Proof.
  split; [exact toy_lengths|]. split; [exact toy_tidy|]. split; [exact toy_box|]. split; [exact toy_dh|].
  split; [exact toy_agree|]. split; [apply run_example|]. split; [intros _; vm_compute; discriminate|].
  split; [exists 420; reflexivity|]. split; [reflexivity|]. split; [vm_compute; lia|reflexivity].
Qed.

(* C32 *)
Theorem C32_seal_empty : forall C pk mp ep w pf pub,
  no_faults w -> contents w pk pf -> readPublicKeyFile pf = Ok pub ->
  contents w mp [] -> enc_path mp ep <> mp ->
  exists w', Seal C pk mp ep w = (Ok tt, w') /\ no_faults w' /\ w_tty w' = w_tty w /\ w_rng w' = w_rng w /\
    (forall x, x <> enc_path mp ep -> w_fs w' x = w_fs w x) /\
    contents w' (enc_path mp ep) (comment_text ++ [x0a]).
Proof. exact Seal_empty. Qed.
Print Assumptions C32_seal_empty.

Theorem C32_open_fails : forall C sk ep mp w r w',
  BoxTidy C -> ep <> mp -> contents w ep (comment_text ++ [x0a]) ->
  Open C sk ep mp w = (r, w') -> r <> Ok tt.
Proof. exact Open_empty. Qed.
Print Assumptions C32_open_fails.

Theorem C32_open_error : forall C sk ep mp w p,
  ep <> mp -> mp <> [] -> no_faults w -> recipient C w sk p ->
  contents w ep (comment_text ++ [x0a]) ->
  fst (Open C sk ep mp w) = Err (EMsg (str "signify/crypto: couldn't read the full header (read 0)")).
Proof. exact Open_empty_error. Qed.
Print Assumptions C32_open_error.

Example C32_instance :
  let '(r, w1) := Seal toy (str "k.pub") (str "m") [] (w_msg [] []) in
  r = Ok tt /\ contents w1 (str "m.enc") (comment_text ++ [x0a]) /\ recipient toy w1 (str "k.sec") toy_priv /\
  fst (open_run w1) = Err (short_header 0).
Proof.
  destruct (Seal toy (str "k.pub") (str "m") [] (w_msg [] [])) as [r w1] eqn:E.
  assert (E1 : r = fst (Seal toy (str "k.pub") (str "m") [] (w_msg [] []))) by (rewrite E; reflexivity).
  assert (E2 : w1 = snd (Seal toy (str "k.pub") (str "m") [] (w_msg [] []))) by (rewrite E; reflexivity).
  subst r w1. split; [vm_compute; reflexivity|]. split; [exists 438; vm_compute; reflexivity|].
  split; [apply toy_recipient; vm_compute; reflexivity|vm_compute; reflexivity].
Qed.

(* C33 *)
Theorem C33_format : forall C pk mp ep w w' m,
  LengthLaws C -> no_faults w -> contents w mp m -> m <> [] -> Z.of_nat (length m) < 2 ^ 63 ->
  let q := enc_path mp ep in q <> mp -> Seal C pk mp ep w = (Ok tt, w') ->
  exists pf pub edpub ms, contents w pk pf /\ readPublicKeyFile pf = Ok pub /\ pub_ToBox pub = Ok edpub /\
    full_pieces ms /\ concat ms = m /\ Z.of_nat (length ms) = (Z.of_nat (length m) + 16384) / 16385 /\
    let body := sealed_body C (box_precompute C edpub (firstn 32 (w_rng w))) (x25519_base C (firstn 32 (w_rng w))) ms in
    contents w' q (sealed_file body) /\
    Z.of_nat (length body) = 72 + Z.of_nat (length m) + 16 * ((Z.of_nat (length m) + 16384) / 16385).
Proof. exact Seal_format. Qed.
Print Assumptions C33_format.

Example C33_instance :
  Seal toy (str "k.pub") (str "m") [] (w_msg (str "hello") []) = (Ok tt, snd (seal_run (str "hello") [] [])) /\
  w_fs (snd (seal_run (str "hello") [] [])) (str "m.enc") =
    Some (File (sealed_file (sealed_body toy (repeat x07 32) (repeat x00 32) [str "hello"])) 438).
Proof.
  split; [|vm_compute; reflexivity]. rewrite toy_seal by discriminate. apply surj. vm_compute. reflexivity.
Qed.

(* C34 *)
Theorem C34_sound : forall C sk ep mp w w', BoxTidy C -> ep <> mp -> Open C sk ep mp w = (Ok tt, w') ->
  exists kf priv d m, contents w sk kf /\ readPrivateKeyFile kf = Ok priv /\ contents w ep d /\
    opens_to C priv (w_tty w) d m /\ contents w' mp m /\ (forall x, x <> mp -> w_fs w' x = w_fs w x).
Proof. exact Open_sound. Qed.
Print Assumptions C34_sound.

Theorem C34_complete : forall C sk ep mp w kf priv d m,
  BoxTidy C -> BoxCorrect C -> ep <> mp -> mp <> [] -> no_faults w ->
  contents w sk kf -> readPrivateKeyFile kf = Ok priv -> contents w ep d -> opens_to C priv (w_tty w) d m ->
  exists w', Open C sk ep mp w = (Ok tt, w') /\ contents w' mp m.
Proof. exact Open_complete. Qed.
Print Assumptions C34_complete.

Example C34_instance : fst (open_run (snd (seal_run (str "hello") [] []))) = Ok tt /\
  w_fs (snd (open_run (snd (seal_run (str "hello") [] [])))) (str "out") = Some (File (str "hello") 438).
Proof. split; vm_compute; reflexivity. Qed.

(* C35 *)
Theorem C35_truncated : forall C sk ep mp w w' p epub ms t rest,
  LengthLaws C -> BoxTidy C -> ep <> mp -> recipient C w sk p ->
  let shared := box_precompute C epub (box_secret C (key p)) in
  length epub = 32%nat -> full_pieces ms -> Z.of_nat (length ms) < 2 ^ 64 ->
  spec_encoded (sealed_body C shared epub ms) = t ++ rest -> no_lf rest <> [] ->
  contents w ep (comment_text ++ t) ->
  Open C sk ep mp w = (Ok tt, w') ->
  exists j piece c m', nth_error ms j = Some piece /\ truncated_box C shared (Z.of_nat j) piece c m' /\
    no_lf t = StdEncode (sealed_header C shared epub (Z.of_nat (length ms)) ++ boxes C shared 0 (firstn j ms) ++ c).
Proof. exact Open_truncated. Qed.
Print Assumptions C35_truncated.

Theorem C35_boundary : forall C sk ep mp w w' p epub ms t rest j,
  LengthLaws C -> BoxTidy C -> ep <> mp -> recipient C w sk p ->
  let shared := box_precompute C epub (box_secret C (key p)) in
  length epub = 32%nat -> full_pieces ms -> Z.of_nat (length ms) < 2 ^ 64 ->
  spec_encoded (sealed_body C shared epub ms) = t ++ rest -> no_lf rest <> [] ->
  no_lf t = StdEncode (sealed_header C shared epub (Z.of_nat (length ms)) ++ boxes C shared 0 (firstn j ms)) ->
  contents w ep (comment_text ++ t) ->
  Open C sk ep mp w <> (Ok tt, w').
Proof. exact Open_boundary. Qed.
Print Assumptions C35_boundary.

(* the file of C33_instance without its last 8 characters (a group, the newline
   and three more), and only its header *)
Example C35_instance :
  let d := sealed_file (sealed_body toy (repeat x07 32) (repeat x00 32) [str "hello"]) in
  let w n := start [(str "k.sec", sec_file toy_priv); (str "m.enc", firstn n d)] [] [] in
  fst (open_run (w (length d - 9)%nat)) <> Ok tt /\ fst (open_run (w 140%nat)) <> Ok tt /\
  fst (open_run (w (length d - 1)%nat)) = Ok tt.
Proof. vm_compute. repeat split; discriminate. Qed.

(* C36 *)
Theorem C36_suffix : forall C sk ep mp w p epub ms ext,
  LengthLaws C -> BoxTidy C -> BoxCorrect C -> ep <> mp -> mp <> [] -> no_faults w -> recipient C w sk p ->
  let shared := box_precompute C epub (box_secret C (key p)) in
  length epub = 32%nat -> Z.of_nat (length ms) < 2 ^ 64 -> full_pieces ms -> ext = [] \/ all_full ms ->
  contents w ep (sealed_file (sealed_body C shared epub ms) ++ ext) ->
  exists w', Open C sk ep mp w = (Ok tt, w') /\ contents w' mp (concat ms).
Proof. exact Open_suffix. Qed.
Print Assumptions C36_suffix.

Theorem C36_modification_detected_refuted : exists C sk ep mp w1 w2 d1 d2 w1' w2' m,
  LengthLaws C /\ BoxTidy C /\ BoxCorrect C /\ contents w1 ep d1 /\ contents w2 ep d2 /\ d1 <> d2 /\
  Open C sk ep mp w1 = (Ok tt, w1') /\ Open C sk ep mp w2 = (Ok tt, w2') /\ contents w1' mp m /\ contents w2' mp m.
Proof. exact suffix_refuted. Qed.
Print Assumptions C36_modification_detected_refuted.

Example C36_instance : full_pieces [big_piece] /\ all_full [big_piece] /\
  recipient toy (w_big (str "junk")) (str "k.sec") toy_priv /\
  contents (w_big (str "junk")) (str "m.enc") (sealed_file (sealed_body toy (repeat x07 32) (repeat x09 32) [big_piece]) ++ str "junk").
Proof.
  split; [apply big_full|]. split; [apply big_full|]. split; [apply toy_recipient; reflexivity|apply w_big_contents].
Qed.

(* C37 *)
Theorem C37_bounded : forall C sk ep mp w r w' evs d,
  LengthLaws C -> BoxTidy C -> ep <> mp -> Open C sk ep mp w = (r, w') ->
  w_log w' = w_log w ++ evs -> contents w ep d -> (22 * (appends evs - 1) <= length d)%nat.
Proof. exact Open_bounded. Qed.
Print Assumptions C37_bounded.

(* a header that claims 2^64-1 chunks, with a correct authenticator *)
Example C37_instance :
  let h := sealed_header toy (repeat x07 32) (repeat x09 32) (2 ^ 64 - 1) in
  let '(r, w') := open_run (start [(str "k.sec", sec_file toy_priv); (str "m.enc", comment_text ++ StdEncode h)] [] []) in
  r = Err (EChunk 0) /\ appends (w_log w') = 0%nat.
Proof. vm_compute. auto. Qed.

(* C38 *)
Theorem C38_crash : forall C sk ep mp w r w' evs fs',
  BoxTidy C -> ep <> mp -> Open C sk ep mp w = (r, w') ->
  w_log w' = w_log w ++ evs -> crash_state (w_fs w) evs fs' ->
  (forall x, x <> mp -> fs' x = w_fs w x) /\
  (fs' mp = w_fs w mp \/
   exists out, fs' mp = Some (File out (file_mode (w_fs w) mp 438)) /\
     (out = [] \/ exists d c t p h, recipient C w sk p /\ contents w ep d /\ d = c ++ x0a :: t /\ lf_free c /\
        authentic_header C (box_secret C (key p)) t h /\
        authenticated_prefix C (shared_of C (box_secret C (key p)) h) (count_of h) (body_text t) out)).
Proof. exact Open_crash. Qed.
Print Assumptions C38_crash.

Theorem C38_prefix : forall C shared t n ms out,
  BoxCorrect C -> authentic C shared 0 t ms -> Z.of_nat (length ms) = n ->
  authenticated_prefix C shared n t out -> is_prefix out (concat ms).
Proof. exact prefix_of_message. Qed.
Print Assumptions C38_prefix.

(* the write of the plaintext fails after three bytes *)
Example C38_instance :
  let w1 := set_faults (snd (seal_run (str "hello") [] [])) (ok_then 173 (FFail 3)) in
  w_fs (snd (open_run w1)) (str "out") = Some (File (str "hel") 438) /\ fst (open_run w1) = Err EFault.
Proof. vm_compute. auto. Qed.

(* C39 *)
Theorem C39_early : forall C sk ep mp w r w', BoxTidy C -> ep <> mp -> Open C sk ep mp w = (r, w') ->
  (forall kf priv, contents w sk kf -> readPrivateKeyFile kf <> Ok priv) \/
  (forall d, contents w ep d -> lf_free d) ->
  w_fs w' = w_fs w /\ w_log w' = w_log w /\ exists e, r = Err e.
Proof. exact Open_early. Qed.
Print Assumptions C39_early.

Theorem C39_empties : forall C sk ep mp w kf priv c t r w',
  BoxTidy C -> ep <> mp -> mp <> [] -> no_faults w ->
  contents w sk kf -> readPrivateKeyFile kf = Ok priv -> contents w ep (c ++ x0a :: t) -> lf_free c ->
  (forall p h, unlocked C priv (w_tty w) p -> ~ authentic_header C (box_secret C (key p)) t h) ->
  Open C sk ep mp w = (r, w') ->
  r <> Ok tt /\ w_fs w' mp = Some (File [] (file_mode (w_fs w) mp 438)).
Proof. exact Open_empties. Qed.
Print Assumptions C39_empties.

Theorem C39_untouched_refuted : exists C sk ep mp w w' e old,
  LengthLaws C /\ BoxTidy C /\ no_faults w /\ contents w mp old /\ old <> [] /\
  Open C sk ep mp w = (Err e, w') /\ contents w' mp [].
Proof. exact truncates_refuted. Qed.
Print Assumptions C39_untouched_refuted.

Example C39_instance :
  fst (open_run w_damaged) = Err (short_header 3) /\
  w_fs (snd (open_run (start [(str "k.sec", str "no key"); (str "m.enc", comment_text); (str "out", str "precious")] [] []))) (str "out")
    = Some (File (str "precious") 420).
Proof. split; vm_compute; reflexivity. Qed.

(* C40 *)
Theorem C40_filled : forall C pk mp ep w w', let q := enc_path mp ep in q <> mp ->
  (forall m, contents w mp m -> Z.of_nat (length m) < 2 ^ 63) -> no_short w ->
  Seal C pk mp ep w = (Ok tt, w') ->
  exists pf pub m, contents w pk pf /\ readPublicKeyFile pf = Ok pub /\ contents w mp m /\
   (m = [] \/
    exists edpub ms a b, pub_ToBox pub = Ok edpub /\ full_pieces ms /\ concat ms = m /\
      contents w' q (comment_text ++ a) /\
      spec_encoded (sealed_body C (box_precompute C edpub (firstn 32 (w_rng w))) (x25519_base C (firstn 32 (w_rng w))) ms) = a ++ b /\
      (length b <= 5)%nat).
Proof. exact Seal_filled. Qed.
Print Assumptions C40_filled.

Theorem C40_nil_is_complete_refuted : exists C pk sk mp ep out w m w1 w2 m2,
  LengthLaws C /\ BoxCorrect C /\ BoxTidy C /\ contents w mp m /\
  Seal C pk mp [] w = (Ok tt, w1) /\ w_faults w1 = [] /\ ep = enc_path mp [] /\
  Open C sk ep out w1 = (Ok tt, w2) /\ contents w2 out m2 /\ is_prefix m2 m /\ m2 <> m.
Proof. exact short_read_refuted. Qed.
Print Assumptions C40_nil_is_complete_refuted.

Example C40_instance : no_short (w_msg (str "hello") [FOk; FOk; FFail 2]) /\
  fst (seal_run (str "hello") [] []) = Ok tt.
Proof. split; [repeat constructor; discriminate|vm_compute; reflexivity]. Qed.

(* C41 *)
Theorem C41_written : forall C pk mp ep w w', let q := enc_path mp ep in q <> mp ->
  (forall m, contents w mp m -> Z.of_nat (length m) < 2 ^ 63) ->
  Seal C pk mp ep w = (Ok tt, w') ->
  (forall x, x <> q -> w_fs w' x = w_fs w x) /\
  exists body a b, contents w' q (comment_text ++ a) /\ spec_encoded body = a ++ b /\ (length b <= 5)%nat /\
    exists pf pub m, contents w pk pf /\ readPublicKeyFile pf = Ok pub /\ contents w mp m /\
      ((m = [] /\ body = []) \/
       exists edpub ms, pub_ToBox pub = Ok edpub /\ is_prefix (concat ms) m /\
         Z.of_nat (length ms) = (Z.of_nat (length m) + 16384) / 16385 /\
         body = sealed_body C (box_precompute C edpub (firstn 32 (w_rng w))) (x25519_base C (firstn 32 (w_rng w))) ms).
Proof. exact Seal_written. Qed.
Print Assumptions C41_written.

Theorem C41_nil_is_complete_refuted : exists C pk sk mp ep out w m w1 w2 r2 p,
  LengthLaws C /\ BoxCorrect C /\ BoxTidy C /\ ToBoxAgree C /\ contents w mp m /\ no_short w /\
  Seal C pk mp [] w = (Ok tt, w1) /\ w_faults w1 = [] /\ ep = enc_path mp [] /\ recipient C w1 sk p /\
  Open C sk ep out w1 = (r2, w2) /\ r2 <> Ok tt.
Proof. exact lost_write_refuted. Qed.
Print Assumptions C41_nil_is_complete_refuted.

Example C41_instance :
  fst (seal_run (str "hello") [] (ok_then 37 (FFail 0))) <> Ok tt /\
  fst (seal_run (str "hello") [] (ok_then 38 (FFail 0))) = Ok tt.
Proof. vm_compute. split; [discriminate|reflexivity]. Qed.

(* C42 *)
Theorem C42_open_in_place : forall C sk p w r w', Open C sk p p w = (r, w') ->
  r <> Ok tt /\ (w_fs w' = w_fs w \/ w_fs w' = fs_create (w_fs w) p 438).
Proof. exact Open_in_place. Qed.
Print Assumptions C42_open_in_place.

Theorem C42_seal_in_place : forall C pk mp ep w m w',
  enc_path mp ep = mp -> pk <> mp -> contents w mp m -> m <> [] ->
  Seal C pk mp ep w = (Ok tt, w') ->
  exists w2 m2, m2 <> m /\ contents w2 mp m2 /\ same_but mp w w2 /\ Seal C pk mp ep w2 = (Ok tt, w').
Proof. exact Seal_in_place_lost. Qed.
Print Assumptions C42_seal_in_place.

Example C42_instance : enc_path (str "m") (str "m") = str "m" /\
  fst (Seal toy (str "k.pub") (str "m") (str "m") (w_msg (str "hello") [])) = Ok tt.
Proof. split; [reflexivity|]. rewrite toy_seal by discriminate. vm_compute. reflexivity. Qed.

(* C57 *)
Theorem C57_header_errors : forall C sk ep mp w kf priv c t p, ep <> mp -> mp <> [] -> no_faults w ->
  contents w sk kf -> readPrivateKeyFile kf = Ok priv -> contents w ep (c ++ x0a :: t) -> lf_free c ->
  unlocked C priv (w_tty w) p ->
  let text := firstn header_chars (no_lf t) in
  (forall e, DecodeString text = Err e -> fst (Open C sk ep mp w) = Err e) /\
  (forall h, DecodeString text = Ok h -> length h <> 72%nat -> fst (Open C sk ep mp w) = Err (short_header (length h))) /\
  (forall h, DecodeString text = Ok h -> length h = 72%nat -> ~ authentic_header C (box_secret C (key p)) t h ->
     fst (Open C sk ep mp w) = Err bad_header).
Proof. exact Open_header_error. Qed.
Print Assumptions C57_header_errors.

Example C57_instance :
  let w t := start [(str "k.sec", sec_file toy_priv); (str "m.enc", comment_text ++ t)] [] [] in
  fst (open_run (w (str "AA="))) = Err (CorruptInput 3) /\ fst (open_run (w (str "AAAA"))) = Err (short_header 3) /\
  fst (open_run (w (StdEncode (repeat x01 40 ++ repeat x02 32)))) = Err bad_header.
Proof. vm_compute. auto. Qed.
