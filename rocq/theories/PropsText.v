(* Property theorems: which texts are read as what (C83). *)
From Verif Require Import SpecTextCmd TextKeys TextExample RealCrypto SealWitness.
Local Open Scope Z_scope.

(* base64: after line ends are dropped, exactly the texts of SpecText.v decode, each to one value *)
Theorem C83_text : forall s b, DecodeString s = Ok b <-> base64_of (no_crlf s) b.
Proof. exact decode_iff. Qed.
Print Assumptions C83_text.

Theorem C83_not_text : forall s, (exists n, DecodeString s = Err (CorruptInput n)) <-> forall b, ~ base64_of (no_crlf s) b.
Proof. exact (fun s => iff_sym (decode_error s)). Qed.
Print Assumptions C83_not_text.

Example C83_text_instance : base64_of (str "AQ==") [x01] /\ base64_of (str "AR==") [x01] /\ base64_of [] [] /\
  (forall b, ~ base64_of (str "AQ=") b) /\ (forall b, ~ base64_of (str "AQ") b) /\ (forall b, ~ base64_of (str "A===") b) /\
  (forall b, ~ base64_of (str "AQ==AQ==") b).
Proof. exact example_text. Qed.

(* data files *)
Theorem C83_data_file : forall file d, (exists com, readDataFileBytes file = Ok (DataFile com d)) <-> holds file d.
Proof. exact data_file_iff. Qed.
Print Assumptions C83_data_file.

Theorem C83_not_data_file : forall file, (exists n, readDataFileBytes file = Err (CorruptInput n)) <-> forall d, ~ holds file d.
Proof. exact (fun file => iff_sym (data_file_not file)). Qed.
Print Assumptions C83_not_data_file.

Example C83_data_instance : holds a_file [x01] /\ holds (to_crlf a_file) [x01] /\ Z.of_nat (length a_file) <= 65534 /\
  (forall d, ~ holds (str "hello") d) /\ holds [] [].
Proof. exact example_holds. Qed.

(* keys and signatures *)
Theorem C83_public : forall file a n k, readPublicKeyFile file = Ok (Pub a n k) <->
  holds file (a ++ n ++ k) /\ length a = 2%nat /\ length n = 8%nat /\ length k = 32%nat.
Proof. exact public_file_iff. Qed.
Print Assumptions C83_public.

Theorem C83_signature : forall file a n s, readSignatureFile file = Ok (Sig a n s) <->
  (exists d, holds file d /\ (10 <= length d)%nat /\ a ++ n ++ s = zero_extend 74 d) /\
  length a = 2%nat /\ length n = 8%nat /\ length s = 64%nat.
Proof. exact signature_file_iff. Qed.
Print Assumptions C83_signature.

Theorem C83_private : forall file a k r s c n key, readPrivateKeyFile file = Ok (Priv a k r s c n key) <->
  exists d, holds file d /\ (41 <= length d)%nat /\ a ++ k ++ be_encode 4 r ++ s ++ c ++ n ++ key = zero_extend 104 d /\
    length a = 2%nat /\ length k = 2%nat /\ 0 <= r < 4294967296 /\ length s = 16%nat /\ length c = 8%nat /\
    length n = 8%nat /\ length key = 64%nat.
Proof. exact private_file_exact. Qed.
Print Assumptions C83_private.

Example C83_keys_instance :
  (exists n k, readPublicKeyFile sig_test_pub = Ok (Pub (str "Ed") n k)) /\
  (exists n s, readSignatureFile sig_test_sig = Ok (Sig (str "Ed") n s)) /\
  (exists s c n k, readPrivateKeyFile box_test_sec = Ok (Priv (str "Ed") (str "BK") 0 s c n k)).
Proof. exact example_keys. Qed.

(* Verify, with any primitives *)
Theorem C83_verify : forall C a b c w,
  (exists w', Verify C a b c w = (Ok tt, w')) <->
  undisturbed 3 w /\
  exists pf m sf, contents w a pf /\ contents w b m /\
    contents w (match c with [] => b ++ str ".sig" | _ => c end) sf /\
    signature_text (fun k m s => ed_verify C k m s = true) pf m sf.
Proof. exact Verify_text. Qed.
Print Assumptions C83_verify.

(* the command, with any primitives and with Ed25519 over SHA-512 *)
Theorem C83_answer : forall C arg0 u ss args rest w n w', command_line ss args rest -> stops rest -> verifies ss ->
  main C arg0 u args w = (n, w') ->
  let pp := or_default (string_value x70 ss) (defaultKeyBase u) (str ".pub") in
  let mp := string_value x6d ss in let sp := sigPathOf mp (string_value x78 ss) in
  let good := finds_signature (fun k m s => ed_verify C k m s = true) w pp mp sp in
  (n = 0 <-> good) /\ (n = 2 <-> finds_stub w pp mp sp) /\ (n = 1 <-> ~ good /\ ~ finds_stub w pp mp sp) /\
  w_log w' = w_log w ++ (if n =? 0 then [EvOut (mp ++ str ": OK" ++ [x0a])]
                         else if n =? 1 then [EvErr (mp ++ str ": invalid signature" ++ [x0a])] else []).
Proof. exact main_verify_text. Qed.
Print Assumptions C83_answer.

Theorem C83_answer_real : forall arg0 u ss args rest w n w', command_line ss args rest -> stops rest -> verifies ss ->
  main real arg0 u args w = (n, w') ->
  let pp := or_default (string_value x70 ss) (defaultKeyBase u) (str ".pub") in
  let mp := string_value x6d ss in let sp := sigPathOf mp (string_value x78 ss) in
  let good := finds_signature (Ed25519_accepts SHA512) w pp mp sp in
  (n = 0 <-> good) /\ (n = 2 <-> finds_stub w pp mp sp) /\ (n = 1 <-> ~ good /\ ~ finds_stub w pp mp sp) /\
  w_log w' = w_log w ++ (if n =? 0 then [EvOut (mp ++ str ": OK" ++ [x0a])]
                         else if n =? 1 then [EvErr (mp ++ str ": invalid signature" ++ [x0a])] else []).
Proof. exact (fun arg0 u ss args rest w n w' => main_verify_text_rfc real arg0 u ss args rest w n w' real_signatures). Qed.
Print Assumptions C83_answer_real.

(* the files in signify/testdata *)
Example C83_answer_instance :
  finds_signature (Ed25519_accepts SHA512) w_repo (str "test.pub") (str "message.txt") (str "message.txt.sig").
Proof. exact example_found. Qed.

(* the streaming decoder, for every buffer size: it takes 4 * ceil(n / 3) characters other than newlines, drops carriage returns
   among them, and yields what they are base64 text of; it panics if that does not fit into the buffer *)
Theorem C83_decoder : forall n t, exists t',
  snd (dec_read_script n (map RByte t)) = map RByte t' /\
  no_lf t' = skipn (4 * ((n + 2) / 3)) (no_lf t) /\
  let text := no_crlf (firstn (4 * ((n + 2) / 3)) (no_lf t)) in
  let r := fst (dec_read_script n (map RByte t)) in
  (forall b, r = RRet b None <-> base64_of text b /\ (length b <= n)%nat) /\
  (forall b, base64_of text b -> (n < length b)%nat -> r = RPanic) /\
  (forall i, faulty_at (firstn (4 * ((n + 2) / 3)) (no_lf t)) i -> r = RPanic \/ exists b, r = RRet b (Some (CorruptInput i))).
Proof. exact dec_read_exact. Qed.
Print Assumptions C83_decoder.

Example C83_decoder_instance : fst (dec_read_script 3%nat (map RByte (str "QU" ++ [x0a] ++ str "JDREVG"))) = RRet (str "ABC") None /\
  fst (dec_read_script 4%nat (map RByte (str "QUJDREVG"))) = RPanic /\
  fst (dec_read_script 3%nat (map RByte (str "QU" ++ [x0d; x0a] ++ str "JDREVG"))) = RRet [] (Some (CorruptInput 1)).
Proof. repeat split; vm_compute; reflexivity. Qed.

(* files whose newlines were replaced by carriage return and newline: keys and signatures are read as before, sealed messages never *)
Theorem C83_crlf_data : forall file d, Z.of_nat (length file) <= 65534 -> holds file d -> holds (to_crlf file) d.
Proof. exact crlf_data_file. Qed.
Print Assumptions C83_crlf_data.

Theorem C83_crlf_sealed : forall C pk mp ep w w1 m v sk kf priv p out f, LengthLaws C -> no_faults w -> contents w mp m -> m <> [] ->
  Z.of_nat (length m) < 2 ^ 63 -> enc_path mp ep <> mp -> Seal C pk mp ep w = (Ok tt, w1) -> contents w1 (enc_path mp ep) f ->
  no_faults v -> contents v sk kf -> readPrivateKeyFile kf = Ok priv -> unlocked C priv (w_tty v) p ->
  contents v (enc_path mp ep) (to_crlf f) -> enc_path mp ep <> out -> out <> [] ->
  fst (Open C sk (enc_path mp ep) out v) = Err (CorruptInput 93).
Proof. exact crlf_seal. Qed.
Print Assumptions C83_crlf_sealed.

Example C83_crlf_instance : LengthLaws toy /\ Seal toy (str "k.pub") (str "m") [] (w_msg (str "hello") []) = (Ok tt, w_sent) /\
  contents w_sent (str "m.enc") sent_file /\ contents w_received (str "m.enc") (to_crlf sent_file) /\
  contents w_received (str "k.sec") (sec_file toy_priv) /\ readPrivateKeyFile (sec_file toy_priv) = Ok toy_priv /\
  exists p, unlocked toy toy_priv (w_tty w_received) p.
Proof. exact example_received. Qed.
