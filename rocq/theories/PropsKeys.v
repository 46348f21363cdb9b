(* Property theorems for key and signature formats and key operations (C12-C22). *)
From Verif Require Import KeyOpsFacts.

(* C12 *)
Theorem C12_layout : forall p, priv_wf p ->
  let b := priv_encode p in
  length b = 104%nat /\ slice 0 2 b = keyAlgo p /\ slice 2 2 b = kdfAlgo p /\
  be_decode (slice 4 4 b) = kdfRounds p /\ slice 8 16 b = salt p /\ slice 24 8 b = checksum p /\
  slice 32 8 b = keyNum p /\ slice 40 64 b = key p.
Proof. exact priv_encode_layout. Qed.
Print Assumptions C12_layout.

Theorem C12_round_trip : forall p, priv_wf p -> readPrivateKeyData (priv_encode p) = Ok p.
Proof. exact priv_round_trip. Qed.
Print Assumptions C12_round_trip.

Theorem C12_injective : forall p q, priv_wf p -> priv_wf q -> priv_encode p = priv_encode q -> p = q.
Proof. exact priv_encode_inj. Qed.
Print Assumptions C12_injective.

Example C12_instance : priv_wf toy_locked /\
  firstn 8 (priv_encode toy_locked) = str "EdBK" ++ [x00; x00; x00; x2a] /\
  readPrivateKeyData (priv_encode toy_locked) = Ok toy_locked.
Proof. vm_compute. repeat split; discriminate. Qed.

(* C13 *)
Theorem C13_accepted : forall data,
  (exists p, readPrivateKeyData data = Ok p) <-> (41 <= length data)%nat.
Proof. exact read_private_iff. Qed.
Print Assumptions C13_accepted.

Theorem C13_contents : forall data p, readPrivateKeyData data = Ok p ->
  priv_wf p /\ priv_encode p = zero_extend 104 data.
Proof. exact read_private_bytes. Qed.
Print Assumptions C13_contents.

Theorem C13_no_panic : forall data, readPrivateKeyData data <> Panic.
Proof. exact read_private_no_panic. Qed.
Print Assumptions C13_no_panic.

Theorem C13_only_104_refuted : exists data p,
  length data <> 104%nat /\ readPrivateKeyData data = Ok p.
Proof. exact only_104_refuted. Qed.
Print Assumptions C13_only_104_refuted.

Example C13_instance :
  (exists p, readPrivateKeyData (repeat x41 41) = Ok p /\ key p = x41 :: repeat x00 63) /\
  readPrivateKeyData (repeat x41 40) = Err EOF /\
  readPrivateKeyData (repeat x41 6) = Err ErrUnexpectedEOF.
Proof. split; [eexists; split; vm_compute; reflexivity|split; vm_compute; reflexivity]. Qed.

(* C14 *)
Theorem C14_accepted : forall data,
  (exists p, readPublicKeyData data = Ok p) <-> length data = 42%nat.
Proof. exact read_public_iff. Qed.
Print Assumptions C14_accepted.

Theorem C14_contents : forall data p, readPublicKeyData data = Ok p -> pub_wf p /\ pub_encode p = data.
Proof. exact read_public_bytes. Qed.
Print Assumptions C14_contents.

Theorem C14_layout : forall p, pub_wf p ->
  let b := pub_encode p in
  length b = 42%nat /\ slice 0 2 b = p_keyAlgo p /\ slice 2 8 b = p_keyNum p /\ slice 10 32 b = p_key p.
Proof. exact pub_layout. Qed.
Print Assumptions C14_layout.

Theorem C14_round_trip : forall p, pub_wf p -> readPublicKeyData (pub_encode p) = Ok p.
Proof. exact pub_round_trip. Qed.
Print Assumptions C14_round_trip.

Theorem C14_no_panic : forall data, readPublicKeyData data <> Panic.
Proof. exact read_public_no_panic. Qed.
Print Assumptions C14_no_panic.

Example C14_instance :
  readPublicKeyData (str "Ed" ++ str "12345678" ++ repeat x42 32) =
  Ok (Pub (str "Ed") (str "12345678") (repeat x42 32)).
Proof. vm_compute. reflexivity. Qed.

(* C15 *)
Theorem C15_round_trip : forall s, sig_wf s -> readSignatureData (sig_encode s) = Ok s.
Proof. exact sig_round_trip. Qed.
Print Assumptions C15_round_trip.

Theorem C15_layout : forall s, sig_wf s ->
  let b := sig_encode s in
  length b = 74%nat /\ slice 0 2 b = pkAlgo s /\ slice 2 8 b = s_keyNum s /\ slice 10 64 b = sig s.
Proof. exact sig_layout. Qed.
Print Assumptions C15_layout.

Theorem C15_panics : forall data, readSignatureData data = Panic <-> (length data < 10)%nat.
Proof. exact read_sig_panics. Qed.
Print Assumptions C15_panics.

Theorem C15_contents : forall data, (10 <= length data)%nat ->
  exists s, readSignatureData data = Ok s /\ sig_wf s /\ sig_encode s = zero_extend 74 data.
Proof. exact read_sig_accepts. Qed.
Print Assumptions C15_contents.

Theorem C15_file_never_crashes_refuted : exists file, readSignatureFile file = Panic.
Proof. exact sig_file_crash_refuted. Qed.
Print Assumptions C15_file_never_crashes_refuted.

Example C15_instance :
  readSignatureData (str "Ed" ++ str "12345678" ++ str "short") =
  Ok (Sig (str "Ed") (str "12345678") (str "short" ++ repeat x00 59)).
Proof. vm_compute. reflexivity. Qed.

(* C16 *)
Theorem C16_check : forall C p, Check C p = Ok tt <-> checksum p = firstn 8 (sha512 C (key p)).
Proof. exact Check_iff. Qed.
Print Assumptions C16_check.

Example C16_instance :
  Check toy (set_key toy_locked toy_plain) = Ok tt /\ Check toy toy_locked <> Ok tt.
Proof. split; vm_compute; [reflexivity|discriminate]. Qed.

(* C17 *)
Theorem C17_pair : forall C pass opts w priv pub w',
  LengthLaws C -> GenerateKeypair C pass opts w = (Ok (priv, pub), w') ->
  consistent_pair C pass opts (w_rng w) priv pub /\ w' = set_rng w (skipn 56 (w_rng w)).
Proof. exact generate_pair. Qed.
Print Assumptions C17_pair.

Theorem C17_succeeds : forall C pass opts w, LengthLaws C ->
  ((exists kp w', GenerateKeypair C pass opts w = (Ok kp, w')) <->
   (56 <= length (w_rng w))%nat /\ (pass = [] \/ rounds_of opts mod 4294967296 <> 0)).
Proof. exact generate_fails_iff. Qed.
Print Assumptions C17_succeeds.

Theorem C17_effects : forall C pass opts w r w',
  GenerateKeypair C pass opts w = (r, w') -> r <> Panic /\ exists g, w' = set_rng w g.
Proof. exact generate_world. Qed.
Print Assumptions C17_effects.

Example C17_instance : LengthLaws toy /\
  exists priv pub w', GenerateKeypair toy (str "pw") (Some 7) seeded_world = (Ok (priv, pub), w') /\
    keyNum priv = repeat x33 8 /\ kdfRounds priv = 7 /\ w_rng w' = repeat x44 40.
Proof. split; [exact toy_lengths|]. do 3 eexists. repeat split; vm_compute; reflexivity. Qed.

(* C18 *)
Theorem C18_decrypt : forall C pass opts w priv pub w' any,
  LengthLaws C -> GenerateKeypair C pass opts w = (Ok (priv, pub), w') ->
  exists priv', decrypt C priv (match pass with [] => any | _ => pass end) = (Ok tt, priv') /\
    key priv' = slice 0 32 (w_rng w) ++ ed_public C (slice 0 32 (w_rng w)) /\ Check C priv' = Ok tt /\
    keyAlgo priv' = keyAlgo priv /\ keyNum priv' = keyNum priv.
Proof. exact decrypt_generated. Qed.
Print Assumptions C18_decrypt.

Example C18_instance :
  match GenerateKeypair toy (str "pw") None seeded_world with
  | (Ok (priv, pub), _) =>
      fst (decrypt toy priv (str "pw")) = Ok tt /\ fst (decrypt toy priv (str "px")) <> Ok tt /\
      firstn 32 (key (snd (decrypt toy priv (str "pw")))) = repeat x11 32
  | _ => False
  end.
Proof. vm_compute. repeat split. discriminate. Qed.

(* C19 *)
Theorem C19_rounds : forall C pass opts w priv pub w',
  LengthLaws C -> GenerateKeypair C pass opts w = (Ok (priv, pub), w') ->
  (pass <> [] -> 1 <= kdfRounds priv < 2 ^ 32 /\ kdfRounds priv = rounds_of opts mod 2 ^ 32 /\
                 IsEncrypted priv = true) /\
  (pass = [] -> kdfRounds priv = 0 /\ IsEncrypted priv = false).
Proof. exact generate_rounds. Qed.
Print Assumptions C19_rounds.

Example C19_instance :
  match GenerateKeypair toy (str "pw") (Some (2 ^ 32 + 5)) seeded_world with
  | (Ok (priv, _), _) => kdfRounds priv = 5
  | _ => False
  end.
Proof. vm_compute. reflexivity. Qed.

(* C20 *)
Theorem C20_accepts : forall C p pass, priv_wf p -> IsEncrypted p = true ->
  (fst (decrypt C p pass) = Ok tt <->
   kdfAlgo p = str "BK" /\ pass <> [] /\
   checksum p = firstn 8 (sha512 C (xor_bytes (key p) (pbkdf C pass (salt p) (kdfRounds p) 64)))).
Proof. exact decrypt_ok_iff. Qed.
Print Assumptions C20_accepts.

Theorem C20_key_left : forall C p pass, priv_wf p -> IsEncrypted p = true ->
  kdfAlgo p = str "BK" -> pass <> [] ->
  snd (decrypt C p pass) = set_key p (xor_bytes (key p) (pbkdf C pass (salt p) (kdfRounds p) 64)).
Proof. exact decrypt_leaves. Qed.
Print Assumptions C20_key_left.

Theorem C20_early_failure : forall C p pass, priv_wf p -> IsEncrypted p = true ->
  kdfAlgo p <> str "BK" \/ pass = [] -> exists e, decrypt C p pass = (Err e, p).
Proof. exact decrypt_early_failure. Qed.
Print Assumptions C20_early_failure.

Theorem C20_twice : forall C p pass, priv_wf p -> IsEncrypted p = true ->
  kdfAlgo p = str "BK" -> pass <> [] -> snd (decrypt C (snd (decrypt C p pass)) pass) = p.
Proof. exact decrypt_twice. Qed.
Print Assumptions C20_twice.

Theorem C20_after_failure : forall C p bad good, priv_wf p -> IsEncrypted p = true ->
  kdfAlgo p = str "BK" -> bad <> [] -> good <> [] ->
  (fst (decrypt C (snd (decrypt C p bad)) good) = Ok tt <->
   checksum p = firstn 8 (sha512 C (xor_bytes (xor_bytes (key p) (pbkdf C bad (salt p) (kdfRounds p) 64))
                                              (pbkdf C good (salt p) (kdfRounds p) 64)))).
Proof. exact decrypt_after_failure. Qed.
Print Assumptions C20_after_failure.

Theorem C20_no_panic : forall C p pass, priv_wf p -> fst (decrypt C p pass) <> Panic.
Proof. exact decrypt_no_panic. Qed.
Print Assumptions C20_no_panic.

Theorem C20_failure_is_harmless_refuted : exists C p bad good,
  LengthLaws C /\ priv_wf p /\ IsEncrypted p = true /\
  fst (decrypt C p good) = Ok tt /\ fst (decrypt C p bad) <> Ok tt /\
  snd (decrypt C p bad) <> p /\ fst (decrypt C (snd (decrypt C p bad)) good) <> Ok tt.
Proof. exact failed_attempt_refuted. Qed.
Print Assumptions C20_failure_is_harmless_refuted.

Example C20_instance : priv_wf toy_locked /\ IsEncrypted toy_locked = true /\
  kdfAlgo toy_locked = str "BK" /\ fst (decrypt toy toy_locked (str "right")) = Ok tt.
Proof. vm_compute. repeat split; discriminate. Qed.

(* C21 *)
Theorem C21_clamped : forall C p w b p' w', LengthLaws C -> priv_wf p ->
  priv_ToBox C p w = ((Ok b, p'), w') ->
  clamp_of (firstn 32 (sha512 C (slice 0 32 (key p')))) b.
Proof. exact ToBox_clamped. Qed.
Print Assumptions C21_clamped.

(* [clamp_of h] describes a single byte string *)
Theorem C21_determined : forall h k1 k2, clamp_of h k1 -> clamp_of h k2 -> k1 = k2.
Proof. exact clamp_of_unique. Qed.
Print Assumptions C21_determined.

Example C21_instance :
  fst (priv_ToBox toy toy_locked (tty_world [Ok (str "right")])) =
  (Ok (x08 :: repeat x09 30 ++ [x49]), set_key toy_locked toy_plain).
Proof. vm_compute. reflexivity. Qed.

(* C22 *)
Theorem C22_encrypted : forall C p w b p' w', priv_wf p -> IsEncrypted p = true ->
  priv_ToBox C p w = ((Ok b, p'), w') -> checksum p' = firstn 8 (sha512 C (key p')).
Proof. exact ToBox_encrypted. Qed.
Print Assumptions C22_encrypted.

Theorem C22_valid_no_prompt : forall C p w, checksum p = firstn 8 (sha512 C (key p)) ->
  exists b, priv_ToBox C p w = ((Ok b, p), w).
Proof. exact ToBox_valid. Qed.
Print Assumptions C22_valid_no_prompt.

Theorem C22_bad_checksum_used : forall C p w pass tl, priv_wf p -> IsEncrypted p = false ->
  checksum p <> firstn 8 (sha512 C (key p)) -> w_tty w = Ok pass :: tl ->
  exists b w', priv_ToBox C p w = ((Ok b, p), w') /\ w_tty w' = tl.
Proof. exact ToBox_bad_plain. Qed.
Print Assumptions C22_bad_checksum_used.

Theorem C22_bad_checksum_rejected_refuted : exists C p w b p' w',
  LengthLaws C /\ priv_wf p /\ priv_ToBox C p w = ((Ok b, p'), w') /\
  checksum p' <> firstn 8 (sha512 C (key p')).
Proof. exact ToBox_bad_refuted. Qed.
Print Assumptions C22_bad_checksum_rejected_refuted.

Example C22_instance : priv_wf toy_bad /\ IsEncrypted toy_bad = false /\
  checksum toy_bad <> firstn 8 (sha512 toy (key toy_bad)) /\
  w_tty (tty_world [Ok (str "x")]) = [Ok (str "x")].
Proof. vm_compute. repeat split; discriminate. Qed.
