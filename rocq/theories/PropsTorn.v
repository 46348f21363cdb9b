(* Property theorems for files cut short (C75). *)
From Verif Require Import SpecTorn SpecCmd Torn TornWitness.
Local Open Scope Z_scope.

(* C75.  What the readers make of the first k bytes of a file written by the package. *)
Theorem C75_secret : forall p k q, priv_wf p ->
  (readPrivateKeyFile (firstn k (sec_file p)) = Ok q <->
   exists j, (14 <= j)%nat /\ groups_left 38 104 k j /\ q = cut_private p (3 * j - 40)).
Proof. exact torn_secret. Qed.
Print Assumptions C75_secret.

Theorem C75_public : forall p k q, pub_wf p ->
  (readPublicKeyFile (firstn k (pub_file p)) = Ok q <-> (94 <= k)%nat /\ q = p).
Proof. exact torn_public. Qed.
Print Assumptions C75_public.

Theorem C75_signature : forall c s k, comment_line c -> sig_wf s ->
  let f := firstn k (c ++ [x0a] ++ StdEncode (sig_encode s) ++ [x0a]) in
  (forall t, readSignatureFile f = Ok t <->
     exists j, (4 <= j)%nat /\ groups_left (length c) 74 k j /\ t = cut_signature s (3 * j - 10)) /\
  (readSignatureFile f = Panic <-> small_cut k \/ exists j, (j <= 3)%nat /\ groups_left (length c) 74 k j).
Proof. exact torn_signature. Qed.
Print Assumptions C75_signature.

Example C75_cuts : priv_wf (fst torn_pair) /\ pub_wf (snd torn_pair) /\ groups_left 38 104 95 14 /\ groups_left 38 104 179 35 /\
  comment_line (str "untrusted comment: verify with k.pub") /\ sig_wf (Sig (str "Ed") (repeat x01 8) (repeat x02 64)) /\
  groups_left 36 74 53 4.
Proof. split; [|split]; [vm_compute; repeat split; discriminate..|]. vm_compute. intuition (lia || discriminate). Qed.

(* A crash of GenerateKey: a secret key that can be read afterwards is the old one or the new one, possibly
   with an end of the key missing; a public key that can be read is the old one or the new one. *)
Theorem C75_crash_secret : forall C k pass opts w r w' evs fs' f q, LengthLaws C -> GenerateKey C k pass opts w = (r, w') ->
  w_log w' = w_log w ++ evs -> crash_state (w_fs w) evs fs' ->
  fs' (sec_path k) = Some f -> readPrivateKeyFile (f_data f) = Ok q ->
  w_fs w (sec_path k) = Some f \/
  exists priv pub w1 j, GenerateKeypair C pass opts w = (Ok (priv, pub), w1) /\ (14 <= j <= 35)%nat /\ q = cut_private priv (3 * j - 40).
Proof. exact crash_secret. Qed.
Print Assumptions C75_crash_secret.

Theorem C75_crash_public : forall C k pass opts w r w' evs fs' f q, LengthLaws C -> GenerateKey C k pass opts w = (r, w') ->
  w_log w' = w_log w ++ evs -> crash_state (w_fs w) evs fs' ->
  fs' (pub_path k) = Some f -> readPublicKeyFile (f_data f) = Ok q ->
  w_fs w (pub_path k) = Some f \/ exists priv w1, GenerateKeypair C pass opts w = (Ok (priv, q), w1).
Proof. exact crash_public. Qed.
Print Assumptions C75_crash_public.

(* A crash of Sign touches no file but the signature, and leaves there the old one or a first part of the new one. *)
Theorem C75_crash_sign : forall C k mp s w r w' evs fs', Sign C k mp s w = (r, w') -> w_log w' = w_log w ++ evs ->
  crash_state (w_fs w) evs fs' ->
  (forall q, q <> sigPathOf mp s -> fs' q = w_fs w q) /\
  (fs' (sigPathOf mp s) = w_fs w (sigPathOf mp s) \/
   exists p m b, sign_ready C k mp w p m /\ is_prefix b (signed_file C k p m) /\
     fs' (sigPathOf mp s) = Some (File b (file_mode (w_fs w) (sigPathOf mp s) 420))).
Proof. exact Sign_crash. Qed.
Print Assumptions C75_crash_sign.

Theorem C75_crash_signature : forall C k mp s w r w' evs fs' f n,
  LengthLaws C -> pub_name k n -> lf_free n -> Z.of_nat (length n) <= 65000 ->
  Sign C k mp s w = (r, w') -> w_log w' = w_log w ++ evs -> crash_state (w_fs w) evs fs' ->
  fs' (sigPathOf mp s) = Some f ->
  w_fs w (sigPathOf mp s) = Some f \/
  exists p m b, sign_ready C k mp w p m /\ f_data f = firstn b (signature_file n (keyAlgo p) (keyNum p) (ed_sign C (key p) m)) /\
    forall t, readSignatureFile (f_data f) = Ok t ->
      exists j, (4 <= j <= 25)%nat /\ t = cut_signature (Sig (keyAlgo p) (keyNum p) (ed_sign C (key p) m)) (3 * j - 10).
Proof. exact crash_signature. Qed.
Print Assumptions C75_crash_signature.

(* Refuted: that a file cut short is rejected; that a key left by a crash does not sign; that what a key file
   cut short signs is accepted with the public key of the pair; that Verify survives what a crash of Sign left. *)
Theorem C75_torn_rejected_refuted : exists p k q, priv_wf p /\ (k < length (sec_file p))%nat /\
  readPrivateKeyFile (firstn k (sec_file p)) = Ok q /\ q <> p.
Proof. exact torn_accepted_refuted. Qed.
Print Assumptions C75_torn_rejected_refuted.

Theorem C75_crash_signs_refuted : exists C k w w' evs fs' p q w1 mp w2,
  LengthLaws C /\ EdCorrect C /\ GenerateKey C k [] None w = (Ok tt, w') /\ GenerateKeypair C [] None w = (Ok (p, q), w1) /\
  w_log w' = w_log w ++ evs /\ crash_state (w_fs w) evs fs' /\
  Sign C (sec_path k) mp [] (World fs' [] [] [] [] [] []) = (Ok tt, w2) /\
  exists f p', fs' (sec_path k) = Some f /\ readPrivateKeyFile (f_data f) = Ok p' /\ p' <> p.
Proof. exact crash_signs_refuted. Qed.
Print Assumptions C75_crash_signs_refuted.

Theorem C75_torn_signs_refuted : exists C k w w' p q cut mp v v' e v2,
  LengthLaws C /\ EdCorrect C /\ GenerateKey C k [] None w = (Ok tt, w') /\
  contents w' (sec_path k) (sec_file p) /\ contents w' (pub_path k) (pub_file q) /\
  contents v (sec_path k) (firstn cut (sec_file p)) /\ contents v (pub_path k) (pub_file q) /\ no_faults v /\
  Sign C (sec_path k) mp [] v = (Ok tt, v') /\ Verify C (pub_path k) mp [] v' = (Err e, v2).
Proof. exact torn_signs_refuted. Qed.
Print Assumptions C75_torn_signs_refuted.

Theorem C75_crash_verify_refuted : exists C k w w' mp v evs fs' v2,
  LengthLaws C /\ EdCorrect C /\ GenerateKey C k [] None w = (Ok tt, w') /\
  Sign C (sec_path k) mp [] w' = (Ok tt, v) /\ w_log v = w_log w' ++ evs /\ crash_state (w_fs w') evs fs' /\
  Verify C (pub_path k) mp [] (World fs' [] [] [] [] [] []) = (Panic, v2).
Proof. exact torn_verify_refuted. Qed.
Print Assumptions C75_crash_verify_refuted.
