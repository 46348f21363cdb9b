(* What goes wrong in Verify and Sign, and what is reported: the first of the following that applies.
   The numbers count system calls (SpecCmd.v: undisturbed). *)
From Verif Require Export SpecTextCmd SpecSeal SpecCurve.
Local Open Scope Z_scope.

Definition call_fails (w : world) (n : nat) : Prop := match nth n (w_faults w) FOk with FFail _ => True | _ => False end.
(* reading the file p with call n gives the error e; or it gives d *)
Definition read_error (w : world) (n : nat) (p : path) (e : error) : Prop :=
  (call_fails w n /\ e = EFault) \/ (~ call_fails w n /\ w_fs w p = None /\ e = ENotExist p).
Definition reads (w : world) (n : nat) (p : path) (d : bytes) : Prop := ~ call_fails w n /\ contents w p d.

(* the contents of a key file are no key *)
Inductive public_error (file : bytes) : error -> Prop :=
| PubText i : misread file i -> public_error file (CorruptInput i)
| PubLength d : holds file d -> length d <> 42%nat ->
    public_error file (EMsg (str "signify: invalid public key length " ++ decimal (Z.of_nat (length d)))).
Inductive private_error (file : bytes) : error -> Prop :=
| SecText i : misread file i -> private_error file (CorruptInput i)
| SecEOF d : holds file d -> (length d <= 4)%nat \/ (8 <= length d <= 40)%nat -> private_error file EOF
| SecCut d : holds file d -> (5 <= length d <= 7)%nat -> private_error file ErrUnexpectedEOF.

(* a key (algorithm a, number n, key k) and a signature (a', n', s) of m *)
Inductive refused (verifies : bytes -> bytes -> bytes -> Prop) (a n k m a' n' s : bytes) : bytes -> Prop :=
| RefKey : a <> str "Ed" -> refused verifies a n k m a' n' s (str "signify: unknown key algo " ++ a)
| RefSig : a = str "Ed" -> a' <> str "Ed" -> refused verifies a n k m a' n' s (str "signify: not an Ed25519 signature (" ++ a' ++ str ")")
| RefNum : a = str "Ed" -> a' = str "Ed" -> n <> n' -> refused verifies a n k m a' n' s (str "signify: key number mismatch")
| RefBad : a = str "Ed" -> a' = str "Ed" -> n = n' -> ~ verifies k m s -> refused verifies a n k m a' n' s (str "signify: invalid signature").

Definition fields3 (x y z : nat) (d a b c : bytes) : Prop := d = a ++ b ++ c /\ length a = x /\ length b = y /\ length c = z.

Inductive verify_outcome (verifies : bytes -> bytes -> bytes -> Prop) (w : world) (pp mp sp : path) : res unit -> Prop :=
| VKeyRead e : read_error w 0 pp e -> verify_outcome verifies w pp mp sp (Err e)
| VKey pf e : reads w 0 pp pf -> public_error pf e -> verify_outcome verifies w pp mp sp (Err e)
| VMessage pf d e : reads w 0 pp pf -> holds pf d -> length d = 42%nat -> read_error w 1 mp e -> verify_outcome verifies w pp mp sp (Err e)
| VSigRead pf d m e : reads w 0 pp pf -> holds pf d -> length d = 42%nat -> reads w 1 mp m -> read_error w 2 sp e ->
    verify_outcome verifies w pp mp sp (Err e)
| VSigText pf d m sf i : reads w 0 pp pf -> holds pf d -> length d = 42%nat -> reads w 1 mp m -> reads w 2 sp sf ->
    misread sf i -> verify_outcome verifies w pp mp sp (Err (CorruptInput i))
| VSigShort pf d m sf d' : reads w 0 pp pf -> holds pf d -> length d = 42%nat -> reads w 1 mp m -> reads w 2 sp sf ->
    holds sf d' -> (length d' < 10)%nat -> verify_outcome verifies w pp mp sp Panic
| VRefused pf d m sf d' a n k a' n' s t : reads w 0 pp pf -> holds pf d -> fields3 2 8 32 d a n k -> reads w 1 mp m ->
    reads w 2 sp sf -> holds sf d' -> (10 <= length d')%nat -> fields3 2 8 64 (zero_extend 74 d') a' n' s ->
    refused verifies a n k m a' n' s t -> verify_outcome verifies w pp mp sp (Err (EMsg t))
| VAccepted pf m sf : reads w 0 pp pf -> reads w 1 mp m -> reads w 2 sp sf -> signature_text verifies pf m sf ->
    verify_outcome verifies w pp mp sp (Ok tt).

(* the text of a private key file: KDF, rounds, salt, checksum and the (encrypted) key *)
Definition private_text (file kdf : bytes) (r : Z) (salt sum key : bytes) : Prop :=
  exists d a n, holds file d /\ (41 <= length d)%nat /\ zero_extend 104 d = a ++ kdf ++ be_encode 4 r ++ salt ++ sum ++ n ++ key /\
    length a = 2%nat /\ length kdf = 2%nat /\ 0 <= r < 4294967296 /\ length salt = 16%nat /\ length sum = 8%nat /\
    length n = 8%nat /\ length key = 64%nat.
(* what is typed does not open the key, or does: hash is the checksum's, derive the passphrase's *)
Inductive unlock_error (hash : bytes -> bytes) (derive : bytes -> bytes -> Z -> bytes)
    (kdf : bytes) (r : Z) (salt sum key pass : bytes) : bytes -> Prop :=
| UKdf : kdf <> str "BK" -> unlock_error hash derive kdf r salt sum key pass (str "signify: unsupported KDF algorithm " ++ kdf)
| UEmpty : kdf = str "BK" -> pass = [] -> unlock_error hash derive kdf r salt sum key pass (str "bcrypt_pbkdf: empty password")
| UWrong : kdf = str "BK" -> pass <> [] -> firstn 8 (hash (xor_bytes key (derive pass salt r))) <> sum ->
    unlock_error hash derive kdf r salt sum key pass (str "signify: invalid private key checksum").
Definition unlocks (hash : bytes -> bytes) (derive : bytes -> bytes -> Z -> bytes)
    (kdf : bytes) (r : Z) (salt sum key pass : bytes) : Prop :=
  kdf = str "BK" /\ pass <> [] /\ firstn 8 (hash (xor_bytes key (derive pass salt r))) = sum.

(* the message, then the signature's file: created, written, closed *)
Inductive sign_rest (w : world) (mp sp : path) : res unit -> Prop :=
| RMessage e : read_error w 1 mp e -> sign_rest w mp sp (Err e)
| RCreate m : reads w 1 mp m -> call_fails w 2 -> sign_rest w mp sp (Err EFault)
| RNoName m : reads w 1 mp m -> ~ call_fails w 2 -> sp = [] -> sign_rest w mp sp (Err (ENotExist []))
| RWrite m : reads w 1 mp m -> ~ call_fails w 2 -> sp <> [] -> call_fails w 3 \/ call_fails w 4 -> sign_rest w mp sp (Err EFault)
| RDone m : reads w 1 mp m -> ~ call_fails w 2 -> sp <> [] -> ~ call_fails w 3 -> ~ call_fails w 4 -> sign_rest w mp sp (Ok tt).

(* the terminal answers with r *)
Definition answers (w : world) (r : res bytes) : Prop := r = hd (Err ETty) (w_tty w).

Inductive sign_outcome (hash : bytes -> bytes) (derive : bytes -> bytes -> Z -> bytes)
    (w : world) (kp mp sp : path) : res unit -> Prop :=
| SKeyRead e : read_error w 0 kp e -> sign_outcome hash derive w kp mp sp (Err e)
| SKey kf e : reads w 0 kp kf -> private_error kf e -> sign_outcome hash derive w kp mp sp (Err e)
| STty kf kdf r salt sum key e : reads w 0 kp kf -> private_text kf kdf r salt sum key -> r <> 0 ->
    answers w (Err e) -> sign_outcome hash derive w kp mp sp (Err e)
| STtyPanic kf kdf r salt sum key : reads w 0 kp kf -> private_text kf kdf r salt sum key -> r <> 0 ->
    answers w Panic -> sign_outcome hash derive w kp mp sp Panic
| SLocked kf kdf r salt sum key pass t : reads w 0 kp kf -> private_text kf kdf r salt sum key -> r <> 0 ->
    answers w (Ok pass) -> unlock_error hash derive kdf r salt sum key pass t -> sign_outcome hash derive w kp mp sp (Err (EMsg t))
| SUnlocked kf kdf r salt sum key pass o : reads w 0 kp kf -> private_text kf kdf r salt sum key -> r <> 0 ->
    answers w (Ok pass) -> unlocks hash derive kdf r salt sum key pass -> sign_rest w mp sp o -> sign_outcome hash derive w kp mp sp o
| SPlain kf kdf salt sum key o : reads w 0 kp kf -> private_text kf kdf 0 salt sum key ->
    sign_rest w mp sp o -> sign_outcome hash derive w kp mp sp o.

(* the text of an error, unless it comes from the system (a failing call, the terminal, no random bytes) *)
Inductive error_text : error -> bytes -> Prop :=
| TMsg t : error_text (EMsg t) t
| TEOF : error_text EOF (str "EOF")
| TCorrupt i : error_text (CorruptInput i) (str "illegal base64 data at input byte " ++ decimal i)
| TNotExist p : error_text (ENotExist p) (str "open " ++ p ++ str ": no such file or directory")
| TCut : error_text ErrUnexpectedEOF (str "unexpected EOF")
| TChunk i : error_text (EChunk i) (str "signify/crypto: failed to decrypt chunk=" ++ decimal i).
(* the command line asks for signing *)
Definition signs (ss : list setting) : Prop := bool_value x47 ss = false /\ bool_value x53 ss = true.

(* ---- Open, when no system call fails ---- *)
(* the key ToBox works with: the stored one if its checksum is right; otherwise a passphrase is asked for,
   and the stored one is used all the same if it is not encrypted *)
Inductive box_key (hash : bytes -> bytes) (derive : bytes -> bytes -> Z -> bytes)
    (w : world) (kdf : bytes) (r : Z) (salt sum key : bytes) : res bytes -> Prop :=
| BSum : firstn 8 (hash key) = sum -> box_key hash derive w kdf r salt sum key (Ok key)
| BTty e : firstn 8 (hash key) <> sum -> answers w (Err e) -> box_key hash derive w kdf r salt sum key (Err e)
| BTtyPanic : firstn 8 (hash key) <> sum -> answers w Panic -> box_key hash derive w kdf r salt sum key Panic
| BPlain pass : firstn 8 (hash key) <> sum -> answers w (Ok pass) -> r = 0 -> box_key hash derive w kdf r salt sum key (Ok key)
| BLocked pass t : firstn 8 (hash key) <> sum -> answers w (Ok pass) -> r <> 0 -> unlock_error hash derive kdf r salt sum key pass t ->
    box_key hash derive w kdf r salt sum key (Err (EMsg t))
| BUnlocked pass : firstn 8 (hash key) <> sum -> answers w (Ok pass) -> r <> 0 -> unlocks hash derive kdf r salt sum key pass ->
    box_key hash derive w kdf r salt sum key (Ok (xor_bytes key (derive pass salt r))).

(* the boxes from number i on, in the text t; n is their number according to the header *)
Inductive boxes_outcome (C : Crypto) (shared : bytes) (n : Z) : Z -> bytes -> res unit -> Prop :=
| BoxEnd t : boxes_outcome C shared n n t (Ok tt)
| BoxText i t j : i < n -> faulty_at (firstn piece_chars t) j -> boxes_outcome C shared n i t (Err (CorruptInput j))
| BoxBad i t b : i < n -> base64_of (no_crlf (firstn piece_chars t)) b -> box_open C b (nonce i) shared = None ->
    boxes_outcome C shared n i t (Err (EChunk i))
| BoxNext i t b m o : i < n -> base64_of (no_crlf (firstn piece_chars t)) b -> box_open C b (nonce i) shared = Some m ->
    boxes_outcome C shared n (i + 1) (skipn piece_chars t) o -> boxes_outcome C shared n i t o.

(* the text after the first line *)
Inductive text_outcome (C : Crypto) (edpriv t : bytes) : res unit -> Prop :=
| HText j : faulty_at (firstn header_chars (no_lf t)) j -> text_outcome C edpriv t (Err (CorruptInput j))
| HShort h : base64_of (no_crlf (firstn header_chars (no_lf t))) h -> length h <> 72%nat ->
    text_outcome C edpriv t (Err (EMsg (str "signify/crypto: couldn't read the full header (read " ++ decimal (Z.of_nat (length h)) ++ str ")")))
| HBad h : base64_of (no_crlf (firstn header_chars (no_lf t))) h -> length h = 72%nat ->
    slice 40 32 h <> auth_sum C (slice 0 40 h) (box_precompute C (slice 8 32 h) edpriv) ->
    text_outcome C edpriv t (Err (EMsg (str "signify/crypto: failed to authenticate the message header")))
| HBoxes h o : base64_of (no_crlf (firstn header_chars (no_lf t))) h -> length h = 72%nat ->
    slice 40 32 h = auth_sum C (slice 0 40 h) (box_precompute C (slice 8 32 h) edpriv) ->
    boxes_outcome C (box_precompute C (slice 8 32 h) edpriv) (be_decode (slice 0 8 h)) 0 (skipn header_chars (no_lf t)) o ->
    text_outcome C edpriv t o.

(* secret is what ToBox makes of the 64 bytes of an Ed25519 private key *)
Inductive open_outcome (C : Crypto) (secret : bytes -> bytes) (derive : bytes -> bytes -> Z -> bytes)
    (w : world) (sk ep mp : path) : res unit -> Prop :=
| OKeyRead : w_fs w sk = None -> open_outcome C secret derive w sk ep mp (Err (ENotExist sk))
| OKey kf e : contents w sk kf -> private_error kf e -> open_outcome C secret derive w sk ep mp (Err e)
| OFile kf kdf r salt sum key : contents w sk kf -> private_text kf kdf r salt sum key -> w_fs w ep = None ->
    open_outcome C secret derive w sk ep mp (Err (ENotExist ep))
| OLine kf kdf r salt sum key d : contents w sk kf -> private_text kf kdf r salt sum key -> contents w ep d -> ~ In x0a d ->
    open_outcome C secret derive w sk ep mp (Err EOF)
| ONoName kf kdf r salt sum key d : contents w sk kf -> private_text kf kdf r salt sum key -> contents w ep d -> In x0a d ->
    mp = [] -> open_outcome C secret derive w sk ep mp (Err (ENotExist []))
| OLocked kf kdf r salt sum key d e : contents w sk kf -> private_text kf kdf r salt sum key -> contents w ep d -> In x0a d ->
    mp <> [] -> box_key (sha512 C) derive w kdf r salt sum key (Err e) -> open_outcome C secret derive w sk ep mp (Err e)
| OPanic kf kdf r salt sum key d : contents w sk kf -> private_text kf kdf r salt sum key -> contents w ep d -> In x0a d ->
    mp <> [] -> box_key (sha512 C) derive w kdf r salt sum key Panic -> open_outcome C secret derive w sk ep mp Panic
| OText kf kdf r salt sum key c t k o : contents w sk kf -> private_text kf kdf r salt sum key -> contents w ep (c ++ x0a :: t) -> ~ In x0a c ->
    mp <> [] -> box_key (sha512 C) derive w kdf r salt sum key (Ok k) -> text_outcome C (secret k) t o ->
    open_outcome C secret derive w sk ep mp o.

(* ---- Seal, when no system call fails ---- *)
Inductive seal_outcome (w : world) (pk mp : path) : res unit -> Prop :=
| EKeyRead : w_fs w pk = None -> seal_outcome w pk mp (Err (ENotExist pk))
| EKey pf e : contents w pk pf -> public_error pf e -> seal_outcome w pk mp (Err e)
| EMessage pf d : contents w pk pf -> holds pf d -> length d = 42%nat -> w_fs w mp = None -> seal_outcome w pk mp (Err (ENotExist mp))
| EEmpty pf d : contents w pk pf -> holds pf d -> length d = 42%nat -> contents w mp [] -> seal_outcome w pk mp (Ok tt)
| EPoint pf d a n k m : contents w pk pf -> holds pf d -> fields3 2 8 32 d a n k -> contents w mp m -> m <> [] ->
    (forall x, ~ on_curve x (enc_y k)) -> seal_outcome w pk mp (Err (EMsg (str "signify: invalid public key")))
| ERandom pf d a n k m x : contents w pk pf -> holds pf d -> fields3 2 8 32 d a n k -> contents w mp m -> m <> [] ->
    on_curve x (enc_y k) -> (length (w_rng w) < 32)%nat -> seal_outcome w pk mp (Err ERand)
| EDone pf d a n k m x : contents w pk pf -> holds pf d -> fields3 2 8 32 d a n k -> contents w mp m -> m <> [] ->
    on_curve x (enc_y k) -> (32 <= length (w_rng w))%nat -> seal_outcome w pk mp (Ok tt).
