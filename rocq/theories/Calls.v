(* The operations of signify/key.go and crypto/crypto.go once more, this time as
   sequences of calls to an operating system about which nothing is assumed: what a
   call answers may depend in any way on what was called before, so that other
   processes may change the files during the run.  Descriptors are closed where the
   code closes them.  Keys.v and SealOpen.v describe the same operations on a world
   whose files nobody else changes.  Definitions only. *)
From Verif Require Export SealOpen.
Local Open Scope Z_scope.

(* A call that was made, with its answer.  ioutil.ReadFile and ioutil.WriteFile,
   which open and close their file themselves, count as one call. *)
Inductive step :=
| SReadFile (p : path) (r : bytes + error)
| SWriteFile (p : path) (b : bytes) (mode : Z) (r : option error)
| SOpen (p : path) (r : nat + error)
| SCreate (p : path) (mode : Z) (r : nat + error)
| SStat (fd : nat) (r : Z + error)
| SRead (fd : nat) (n : nat) (b : bytes) (r : option error)
| SWrite (fd : nat) (b : bytes) (n : Z) (r : option error)
| SClose (fd : nat) (r : option error)
| SRand (n : nat) (r : bytes + error)
| SPass (r : bytes + error)
| SOut (b : bytes).

(* An operating system: the answer to a call, given the calls made so far *)
Record os := Os {
  o_readfile : list step -> path -> bytes + error;
  o_writefile : list step -> path -> bytes -> Z -> option error;
  o_open : list step -> path -> nat + error;
  o_create : list step -> path -> Z -> nat + error;
  o_stat : list step -> nat -> Z + error;
  o_read : list step -> nat -> nat -> bytes * option error;
  o_write : list step -> nat -> bytes -> Z * option error;
  o_close : list step -> nat -> option error;
  o_rand : list step -> nat -> bytes + error;
  o_pass : list step -> bytes + error
}.

Definition H (A : Type) := list step -> res A * list step.
Definition hret {A} (a : A) : H A := fun h => (Ok a, h).
Definition hlift {A} (r : res A) : H A := fun h => (r, h).
Definition hbind {A B} (m : H A) (k : A -> H B) : H B := fun h =>
  match m h with
  | (Ok a, h) => k a h
  | (Err e, h) => (Err e, h)
  | (Panic, h) => (Panic, h)
  end.
(* defer: also after an error and during a panic *)
Definition hdefer {A} (cleanup : list step -> list step) (m : H A) : H A := fun h =>
  let '(r, h) := m h in (r, cleanup h).
Declare Scope os_scope.
Delimit Scope os_scope with os.
Notation "x <- m ;; k" := (hbind m (fun x => k))
  (at level 61, m at next level, right associativity) : os_scope.
Notation "m ;;; k" := (hbind m (fun _ => k))
  (at level 61, right associativity) : os_scope.

Definition got {A} (r : A + error) : res A := match r with inl a => Ok a | inr e => Err e end.
Definition gone (r : option error) : res unit := match r with None => Ok tt | Some e => Err e end.

Section WithOs.
Variable C : Crypto.
Variable O : os.

Definition h_readfile (p : path) : H bytes := fun h => let r := o_readfile O h p in (got r, h ++ [SReadFile p r]).
Definition h_writefile (p : path) (b : bytes) (mode : Z) : H unit := fun h =>
  let r := o_writefile O h p b mode in (gone r, h ++ [SWriteFile p b mode r]).
Definition h_open (p : path) : H nat := fun h => let r := o_open O h p in (got r, h ++ [SOpen p r]).
Definition h_create (p : path) (mode : Z) : H nat := fun h =>
  let r := o_create O h p mode in (got r, h ++ [SCreate p mode r]).
Definition h_stat (fd : nat) : H Z := fun h => let r := o_stat O h fd in (got r, h ++ [SStat fd r]).
Definition h_read (fd : nat) : Reader (list step) := fun n h =>
  let '(b, r) := o_read O h fd n in (RRet b r, h ++ [SRead fd n b r]).
Definition h_write (fd : nat) : Writer (list step) := fun b h =>
  let '(n, r) := o_write O h fd b in ((n, r), h ++ [SWrite fd b n r]).
Definition h_close (fd : nat) : list step -> list step := fun h => h ++ [SClose fd (o_close O h fd)].
Definition h_rand (n : nat) : H bytes := fun h => let r := o_rand O h n in (got r, h ++ [SRand n r]).
Definition h_pass : H bytes := fun h => let r := o_pass O h in (got r, h ++ [SPass r]).
Definition h_out (b : bytes) : H unit := fun h => (Ok tt, h ++ [SOut b]).

Local Open Scope os_scope.

(* PassphrasePrompt(false) (key.go:34-43) *)
Definition prompt_os : H bytes :=
  h_out (str "Password: ") ;;; b <- h_pass ;; h_out [x0a] ;;; hret b.

(* LoadPublicKey (key.go:368-375), LoadPrivateKey (key.go:188-195),
   readSignaturePath (signature.go:44-51), writeDataFile (common.go:51-60) *)
Definition LoadPublicKey_os (p : path) : H Public := d <- h_readfile p ;; hlift (readPublicKeyFile d).
Definition LoadPrivateKey_os (p : path) : H Private := d <- h_readfile p ;; hlift (readPrivateKeyFile d).
Definition readSignaturePath_os (p : path) : H Signature := d <- h_readfile p ;; hlift (readSignatureFile d).
Definition writeDataFile_os (p : path) (comment data : bytes) : H unit := h_writefile p (dataFileBytes comment data) 420.

(* Verify (key.go:378-404) *)
Definition Verify_os (publicPath messagePath signaturePath : path) : H unit :=
  pub <- LoadPublicKey_os publicPath ;;
  message <- h_readfile messagePath ;;
  sg <- readSignaturePath_os (sigPathOf messagePath signaturePath) ;;
  hlift (pub_verify C pub message sg).

(* Sign (key.go:198-244); zeroing the passphrase is no call *)
Definition Sign_os (privatePath messagePath signaturePath : path) : H unit :=
  priv <- LoadPrivateKey_os privatePath ;;
  priv <- (if IsEncrypted priv
           then pass <- prompt_os ;;
                match decrypt C priv pass with
                | (Ok _, priv) => hret priv
                | (Err e, _) => hlift (Err e)
                | (Panic, _) => hlift Panic
                end
           else hret priv) ;;
  message <- h_readfile messagePath ;;
  writeDataFile_os (sigPathOf messagePath signaturePath)
    (str "untrusted comment: verify with " ++ Base (TrimSuffix privatePath (str ".sec") ++ str ".pub"))
    (sig_encode (priv_sign C priv message)).

(* GenerateKeypair (key.go:414-465), GenerateKey (key.go:470-487) *)
Definition GenerateKeypair_os (passphrase : bytes) (opts : option Z) : H (Private * Public) :=
  let rounds := match opts with None => defaultRounds | Some r => r end in
  seed <- h_rand 32 ;;
  let kdfRounds := match passphrase with [] => 0 | _ => rounds mod 4294967296 end in
  slt <- h_rand saltLength ;;
  num <- h_rand keyNumLength ;;
  let plain := fit 64 (ed_private C seed) in
  kbytes <- hlift (match passphrase with
                   | [] => Ok plain
                   | _ => match bcrypt_Key C passphrase slt kdfRounds secretKeyLength with
                          | Ok xorkey => Ok (xor_bytes plain xorkey)
                          | Err e => Err e
                          | Panic => Panic
                          end
                   end) ;;
  hret (Priv (str "Ed") (str "BK") kdfRounds slt (fit 8 (sha512 C (ed_private C seed))) num kbytes,
        Pub (str "Ed") num (fit 32 (ed_public C seed))).
Definition GenerateKey_os (keyPath : path) (passphrase : bytes) (opts : option Z) : H unit :=
  pp <- GenerateKeypair_os passphrase opts ;;
  writeDataFile_os (keyPath ++ str ".sec") (str "untrusted comment: signify private key") (priv_encode (fst pp)) ;;;
  writeDataFile_os (keyPath ++ str ".pub") (str "untrusted comment: signify public key") (pub_encode (snd pp)).

(* Private.ToBox (key.go:247-270) *)
Definition ToBox_os (p : Private) : H bytes :=
  p <- (match Check C p with
        | Ok _ => hret p
        | _ => pass <- prompt_os ;;
               match decrypt C p pass with
               | (Ok _, p) => hret p
               | (Err e, _) => hlift (Err e)
               | (Panic, _) => hlift Panic
               end
        end) ;;
  hret (fit 32 (clamp (sha512 C (firstn 32 (key p))))).

(* reading the message and drawing randomness beside an encoder *)
Definition beside_reader {X} (rd : Reader (list step)) : Reader (X * list step) := fun n s =>
  let '(r, h) := rd n (snd s) in (r, (fst s, h)).
Definition beside_rand {X} (n : nat) : MS (X * list step) bytes := fun s =>
  let '(r, h) := h_rand n (snd s) in (r, (fst s, h)).

(* Seal (crypto.go:121-157): the deferred calls run in reverse order, the
   encoder's Close first; their errors are dropped *)
Definition Seal_os (publicPath messagePath encryptedPath : path) : H unit :=
  pub <- LoadPublicKey_os publicPath ;;
  fd <- h_open messagePath ;;
  hdefer (h_close fd)
    (messageLen <- h_stat fd ;;
     out <- h_create (match encryptedPath with [] => messagePath ++ str ".enc" | _ => encryptedPath end) 438 ;;
     hdefer (h_close out) (fun h =>
       match h_write out (str "untrusted comment: psignify encrypted file" ++ [x0a]) h with
       | ((_, Some e), h) => (Err e, h)
       | ((_, None), h) =>
           let '(r, es) := seal C (enc * list step) beside_rand pub (beside_reader (h_read fd)) messageLen
                                (enc_write (h_write out)) (NewEncoder, h) in
           let '(_, es) := enc_close (h_write out) es in
           (r, snd es)
       end)).

(* Open (crypto.go:211-236).  The operating system may keep the scan of the first
   line, or the decoder, busy for ever; [fuel] is the number of reads after which
   the model stops looking, for any of the loops (the result is then Panic). *)
Definition Open_os (fuel : list step -> nat) (privatePath encryptedPath messagePath : path) : H unit :=
  priv <- LoadPrivateKey_os privatePath ;;
  fd <- h_open encryptedPath ;;
  hdefer (h_close fd)
    (skipComment fuel (h_read fd) ;;;
     out <- h_create messagePath 438 ;;
     hdefer (h_close out)
       (edpriv <- ToBox_os priv ;;
        open_body C (list step) edpriv (dec_read (fun h _ => fuel h) (h_read fd)) (h_write out))).
End WithOs.
