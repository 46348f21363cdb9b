(* signify/key.go (keys) and signify/signature.go.  Definitions only. *)
From Verif Require Export GoFmt DataFile GoPath Group Crypto.
Open Scope go_scope.

(* key.go:21-30 *)
Definition keyNumLength := 8%nat.
Definition secretKeyLength := 64%nat.
Definition publicKeyLength := 32%nat.
Definition keyAlgoLength := 2%nat.
Definition kdfAlgoLength := 2%nat.
Definition saltLength := 16%nat.
Definition checksumLength := 8%nat.
(* signature.go:10 *)
(* only a type uses this one: the array of signature.go:16 *)
Definition signatureLength := 64%nat.

(* PassphrasePrompt (key.go:34-59), the default implementation; the result is
   the buffer holding the passphrase *)
Definition PassphrasePrompt (confirm : bool) : M nat :=
  stdout (str "Password: ") ;;;
  i <- ReadPassword ;;
  stdout [x0a] ;;;
  if negb confirm then ret i
  else
    stdout (str "Confirm password: ") ;;;
    j <- ReadPassword ;;
    defer (zero_buf j)
      (stdout [x0a] ;;;
       a <- buf_get i ;;
       b <- buf_get j ;;
       if bytes_eqb a b then ret i
       else fail (EMsg (str "passphrases don't match"))).

(* Private (key.go:62-70); the fields are arrays, see [priv_wf] *)
Record Private := Priv {
  keyAlgo : bytes; kdfAlgo : bytes; kdfRounds : Z; salt : bytes;
  checksum : bytes; keyNum : bytes; key : bytes
}.
(* what the Go types guarantee *)
Definition priv_wf (p : Private) : Prop :=
  length (keyAlgo p) = 2%nat /\ length (kdfAlgo p) = 2%nat /\
  0 <= kdfRounds p < 4294967296 /\ length (salt p) = 16%nat /\
  length (checksum p) = 8%nat /\ length (keyNum p) = 8%nat /\ length (key p) = 64%nat.

Definition set_key (p : Private) (k : bytes) : Private :=
  Priv (keyAlgo p) (kdfAlgo p) (kdfRounds p) (salt p) (checksum p) (keyNum p) k.

(* Private.encode (key.go:72-82) *)
Definition priv_encode (p : Private) : bytes :=
  keyAlgo p ++ kdfAlgo p ++ be_encode 4 (kdfRounds p) ++ salt p ++ checksum p ++ keyNum p ++ key p.

(* Private.IsEncrypted (key.go:85-87) *)
Definition IsEncrypted (p : Private) : bool := kdfRounds p >? 0.

Section WithCrypto.
Variable C : Crypto.

(* Private.Check (key.go:90-96) *)
Definition Check (p : Private) : res unit :=
  let digest := sha512 C (key p) in
  if bytes_eqb (firstn checksumLength digest) (checksum p) then Ok tt
  else Err (EMsg (str "signify: invalid private key checksum")).

(* Private.decrypt (key.go:98-122): result and the key as left in memory *)
Definition decrypt (p : Private) (password : bytes) : res unit * Private :=
  if negb (IsEncrypted p) then (Ok tt, p)
  else if negb (bytes_eqb (kdfAlgo p) (str "BK"))
  then (Err (EMsg (str "signify: unsupported KDF algorithm " ++ kdfAlgo p)), p)
  else match bcrypt_Key C password (salt p) (kdfRounds p) secretKeyLength with
  | Err e => (Err e, p)
  | Panic => (Panic, p)
  | Ok xorkey =>
      let p := set_key p (xor_bytes (key p) xorkey) in
      match Check p with
      | Err e => (Err e, p)
      | Panic => (Panic, p)
      | Ok _ => (Ok tt, p)
      end
  end.

(* Signature (signature.go:13-17) *)
Record Signature := Sig { pkAlgo : bytes; s_keyNum : bytes; sig : bytes }.
Definition sig_wf (s : Signature) : Prop :=
  length (pkAlgo s) = 2%nat /\ length (s_keyNum s) = 8%nat /\ length (sig s) = 64%nat.

(* Private.sign (key.go:124-134) *)
Definition priv_sign (p : Private) (message : bytes) : Signature :=
  let edpriv := fit 64 (key p) in
  Sig (fit 2 (keyAlgo p)) (fit 8 (keyNum p)) (fit 64 (ed_sign C edpriv message)).

(* bytes.Buffer.Read into a zeroed array of n > 0 bytes: (array, rest) or EOF;
   a short read is not an error *)
Definition buffer_read (n : nat) (buf : bytes) : res (bytes * bytes) :=
  match buf with
  | [] => Err EOF
  | _ => Ok (fit n (firstn n buf), skipn n buf)
  end.

(* binary.Read of a big-endian uint32 (io.ReadFull) *)
Definition read_uint32 (buf : bytes) : res (Z * bytes) :=
  match buf with
  | [] => Err EOF
  | _ => if (length buf <? 4)%nat then Err ErrUnexpectedEOF
         else Ok (be_decode (firstn 4 buf), skipn 4 buf)
  end.

(* readPrivateKeyData (key.go:136-176) *)
Definition readPrivateKeyData (data : bytes) : res Private :=
  rbind (buffer_read keyAlgoLength data) (fun '(a, buf) =>
  rbind (buffer_read kdfAlgoLength buf) (fun '(k, buf) =>
  rbind (read_uint32 buf) (fun '(r, buf) =>
  rbind (buffer_read saltLength buf) (fun '(s, buf) =>
  rbind (buffer_read checksumLength buf) (fun '(c, buf) =>
  rbind (buffer_read keyNumLength buf) (fun '(n, buf) =>
  rbind (buffer_read secretKeyLength buf) (fun '(x, buf) =>
  Ok (Priv a k r s c n x)))))))).

(* readPrivateKeyFile (key.go:178-185) *)
Definition readPrivateKeyFile (data : bytes) : res Private :=
  rbind (readDataFileBytes data) (fun dat => readPrivateKeyData (df_data dat)).

(* LoadPrivateKey (key.go:188-195) *)
Definition LoadPrivateKey (p : path) : M Private :=
  data <- ReadFile p ;; lift (readPrivateKeyFile data).

(* Private.ToBox (key.go:247-270): result, key as left in memory, world.  The
   passphrase buffer is not wiped here. *)
Definition clamp (d : bytes) : bytes :=
  let d := set_nth 0 (z2b (Z.land (b2z (nth 0 d x00)) 248)) d in
  let d := set_nth 31 (z2b (Z.land (b2z (nth 31 d x00)) 127)) d in
  set_nth 31 (z2b (Z.lor (b2z (nth 31 d x00)) 64)) d.

Definition priv_ToBox (p : Private) (w : world) : (res bytes * Private) * world :=
  let finish (p : Private) (w : world) :=
    let digest := sha512 C (firstn 32 (key p)) in
    ((Ok (fit 32 (clamp digest)), p), w) in
  match Check p with
  | Ok _ => finish p w
  | _ =>
      match PassphrasePrompt false w with
      | (Err e, w) => ((Err e, p), w)
      | (Panic, w) => ((Panic, p), w)
      | (Ok i, w) =>
          match buf_get i w with
          | (Ok pass, w) =>
              match decrypt p pass with
              | (Ok _, p) => finish p w
              | (Err e, p) => ((Err e, p), w)
              | (Panic, p) => ((Panic, p), w)
              end
          | (_, w) => ((Panic, p), w)
          end
      end
  end.

(* Public (key.go:273-277) *)
Record Public := Pub { p_keyAlgo : bytes; p_keyNum : bytes; p_key : bytes }.
Definition pub_wf (p : Public) : Prop :=
  length (p_keyAlgo p) = 2%nat /\ length (p_keyNum p) = 8%nat /\ length (p_key p) = 32%nat.

(* Public.encode (key.go:279-285) *)
Definition pub_encode (p : Public) : bytes := p_keyAlgo p ++ p_keyNum p ++ p_key p.

(* Public.verifyEd25519 (key.go:287-305) *)
Definition verifyEd25519 (p : Public) (message : bytes) (s : Signature) : res unit :=
  if negb (bytes_eqb (p_keyAlgo p) (str "Ed")) then Err (EMsg (str "signify: not an Ed25519 public key"))
  else if negb (bytes_eqb (pkAlgo s) (str "Ed")) then Err (EMsg (str "signify: not an Ed25519 signature (" ++ pkAlgo s ++ str ")"))
  else if negb (bytes_eqb (p_keyNum p) (s_keyNum s)) then Err (EMsg (str "signify: key number mismatch"))
  else if negb (ed_verify C (p_key p) message (sig s)) then Err (EMsg (str "signify: invalid signature"))
  else Ok tt.

(* Public.verify (key.go:307-314) *)
Definition pub_verify (p : Public) (message : bytes) (s : Signature) : res unit :=
  if bytes_eqb (p_keyAlgo p) (str "Ed") then verifyEd25519 p message s
  else Err (EMsg (str "signify: unknown key algo " ++ p_keyAlgo p)).

(* Public.ToBox (key.go:317-338) *)
Definition pub_ToBox (p : Public) : res bytes :=
  match e_from_bytes (fit 32 (p_key p)) with
  | None => Err (EMsg (str "signify: invalid public key"))
  | Some A => Ok (montgomery_u (eY A))
  end.

(* readPublicKeyData (key.go:340-356) *)
Definition readPublicKeyData (data : bytes) : res Public :=
  if negb (length data =? (keyAlgoLength + keyNumLength + publicKeyLength))%nat
  then Err (EMsg (str "signify: invalid public key length " ++ decimal (Z.of_nat (length data))))
  else Ok (Pub (fit 2 (firstn 2 data)) (fit 8 (firstn 8 (skipn 2 data)))
               (fit 32 (firstn 32 (skipn 10 data)))).

(* readPublicKeyFile (key.go:358-365), LoadPublicKey (key.go:368-375) *)
Definition readPublicKeyFile (data : bytes) : res Public :=
  rbind (readDataFileBytes data) (fun dat => readPublicKeyData (df_data dat)).
Definition LoadPublicKey (p : path) : M Public :=
  data <- ReadFile p ;; lift (readPublicKeyFile data).

(* Signature.encode (signature.go:19-25) *)
Definition sig_encode (s : Signature) : bytes := pkAlgo s ++ s_keyNum s ++ sig s.

(* readSignatureData (signature.go:27-33).  data[:2] and data[2:10] are bounded
   by the capacity, data[10:] by the length (length <= capacity), so the function
   panics exactly if len(data) < 10. *)
Definition readSignatureData (data : bytes) : res Signature :=
  if (length data <? keyNumLength + 2)%nat then Panic
  else Ok (Sig (fit 2 (firstn 2 data)) (fit 8 (firstn 8 (skipn 2 data)))
               (fit 64 (skipn 10 data))).

(* readSignatureFile (signature.go:35-42), readSignaturePath (signature.go:44-51) *)
Definition readSignatureFile (data : bytes) : res Signature :=
  rbind (readDataFileBytes data) (fun dat => readSignatureData (df_data dat)).
Definition readSignaturePath (p : path) : M Signature :=
  data <- ReadFile p ;; lift (readSignatureFile data).

(* Sign (key.go:198-244) *)
Definition signFinish (privatePath messagePath signaturePath : path) (priv : Private) : M unit :=
  message <- ReadFile messagePath ;;
  let sg := priv_sign priv message in
  let pubKeyPath := TrimSuffix privatePath (str ".sec") ++ str ".pub" in
  let comment := str "untrusted comment: verify with " ++ Base pubKeyPath in
  writeDataFile signaturePath comment (sig_encode sg).

Definition sigPathOf (messagePath signaturePath : path) : path :=
  match signaturePath with [] => messagePath ++ str ".sig" | _ => signaturePath end.

Definition Sign (privatePath messagePath signaturePath : path) : M unit :=
  let signaturePath := sigPathOf messagePath signaturePath in
  priv <- LoadPrivateKey privatePath ;;
  if IsEncrypted priv then
    i <- PassphrasePrompt false ;;
    defer (zero_buf i)
      (pass <- buf_get i ;;
       match decrypt priv pass with
       | (Ok _, priv) => signFinish privatePath messagePath signaturePath priv
       | (Err e, _) => fail e
       | (Panic, _) => panic
       end)
  else signFinish privatePath messagePath signaturePath priv.

(* Verify (key.go:378-404) *)
Definition Verify (publicPath messagePath signaturePath : path) : M unit :=
  let signaturePath := sigPathOf messagePath signaturePath in
  pub <- LoadPublicKey publicPath ;;
  message <- ReadFile messagePath ;;
  sg <- readSignaturePath signaturePath ;;
  lift (pub_verify pub message sg).

(* GenerateOptions, defaultOptions (key.go:407-411) *)
Definition defaultRounds : Z := 42.

(* GenerateKeypair (key.go:414-465); opts = None models a nil pointer *)
Definition GenerateKeypair (passphrase : bytes) (opts : option Z) : M (Private * Public) :=
  let rounds := match opts with None => defaultRounds | Some r => r end in
  seed <- rand_read 32 ;;
  let edpub := ed_public C seed in
  let edpriv := ed_private C seed in
  let kdfRounds := match passphrase with [] => 0 | _ => rounds mod 4294967296 end in
  slt <- rand_read saltLength ;;
  num <- rand_read keyNumLength ;;
  let digest := sha512 C edpriv in
  let plain := fit 64 edpriv in
  kbytes <- (match passphrase with
             | [] => ret plain
             | _ => xorkey <- lift (bcrypt_Key C passphrase slt kdfRounds secretKeyLength) ;;
                    ret (xor_bytes plain xorkey)
             end) ;;
  let priv := Priv (str "Ed") (str "BK") kdfRounds slt (fit 8 digest) num kbytes in
  let pub := Pub (str "Ed") num (fit 32 edpub) in
  ret (priv, pub).

(* GenerateKey (key.go:470-487) *)
Definition GenerateKey (keyPath : path) (passphrase : bytes) (opts : option Z) : M unit :=
  pp <- GenerateKeypair passphrase opts ;;
  writeDataFile (keyPath ++ str ".sec") (str "untrusted comment: signify private key") (priv_encode (fst pp)) ;;;
  writeDataFile (keyPath ++ str ".pub") (str "untrusted comment: signify public key") (pub_encode (snd pp)).

End WithCrypto.
