(* Package crypto: crypto/crypto.go.  Definitions only. *)
From Verif Require Export Keys B64Stream.

(* crypto.go:17-21 *)
Definition chunkSize : Z := 16385.
Definition headerSize : Z := 72.
Definition sealedChunkSize : Z := chunkSize + boxOverhead.
Definition chunk_nat : nat := Z.to_nat chunkSize.
Definition header_nat : nat := Z.to_nat headerSize.
Definition sealed_nat : nat := Z.to_nat sealedChunkSize.

(* A byte-wise scan that may in principle not end (see skipComment): fuel as in
   B64Stream.dec_loop. *)
(* skipComment (crypto.go:23-35) *)
Fixpoint skip_loop {S} (fuel : nat) (rd : Reader S) (c : byte) (s : S) : option (res unit) * S :=
  match fuel with
  | O => (None, s)
  | Datatypes.S fuel =>
      match rd 1%nat s with
      | (RPanic, s) => (Some Panic, s)
      | (RRet got err, s) =>
          let c := match got with x :: _ => x | [] => c end in
          match err with
          | Some e => (Some (Err e), s)
          | None => if beqb c x0a then (Some (Ok tt), s) else skip_loop fuel rd c s
          end
      end
  end.
Definition skipComment {S} (fuel : S -> nat) (rd : Reader S) (s : S) : res unit * S :=
  match skip_loop (fuel s) rd x00 s with
  | (Some r, s) => (r, s)
  | (None, s) => (Panic, s)
  end.

(* incrementNonce (crypto.go:37-51): the loop runs from the last byte down; here
   on the reversed nonce.  Result: the (always updated) nonce and whether the
   loop fell off the front. *)
Fixpoint inc_rev (l : bytes) : bytes * bool :=
  match l with
  | [] => ([], true)
  | b :: r =>
      let b' := z2b (b2z b + 1) in
      if negb (beqb b' x00) then (b' :: r, false)
      else let '(r', o) := inc_rev r in (b' :: r', o)
  end.
Definition incrementNonce (nonce : bytes) : bytes * option error :=
  let '(r, o) := inc_rev (rev nonce) in
  (rev r, if o then Some (EMsg (str "signify/crypto: message is too large, nonce reused")) else None).

Definition zeroNonce : bytes := repeat x00 24.

(* for i := 0; i < n; i++ { body } with early exit: [step i st] gives the next
   state or the result to return. *)
Fixpoint for_pos {St R} (p : positive) (step : Z -> St -> St + R) (i : Z) (st : St) : St + R :=
  match p with
  | xH => step i st
  | xO q => match for_pos q step i st with
            | inl st => for_pos q step (i + Z.pos q) st
            | inr r => inr r
            end
  | xI q => match step i st with
            | inl st => match for_pos q step (i + 1) st with
                        | inl st => for_pos q step (i + 1 + Z.pos q) st
                        | inr r => inr r
                        end
            | inr r => inr r
            end
  end.
Definition for_loop {St R} (n : Z) (step : Z -> St -> St + R) (st : St) : St + R :=
  match n with
  | Zpos p => for_pos p step 0 st
  | _ => inl st
  end.

Section WithCrypto.
Variable C : Crypto.
Variable S : Type.

Definition MS (A : Type) := S -> res A * S.

(* The body of the loop of seal (crypto.go:99-115); state: nonce and S *)
Definition seal_step (shared : bytes) (message : Reader S) (w : Writer S)
  (i : Z) (st : bytes * S) : (bytes * S) + (res unit * S) :=
  let '(nonce, s) := st in
  match message chunk_nat s with
  | (RPanic, s) => inr (Panic, s)
  | (RRet _ (Some e), s) => inr (Err e, s)
  | (RRet chunk None, s) =>
      let out := box_seal C chunk nonce shared in
      match w out s with
      | ((_, Some e), s) => inr (Err e, s)
      | ((_, None), s) =>
          match incrementNonce nonce with
          | (_, Some e) => inr (Err e, s)
          | (nonce, None) => inl (nonce, s)
          end
      end
  end.

(* number of chunks (crypto.go:71-74) *)
Definition chunksFor (messageLen : Z) : Z :=
  let chunks := messageLen / chunkSize in
  if negb (messageLen mod chunkSize =? 0) then chunks + 1 else chunks.

(* the header (crypto.go:85-90); epub is a 32-byte array *)
Definition sealHeader (chunks : Z) (epub shared : bytes) : bytes :=
  let h40 := be_encode 8 chunks ++ epub in
  h40 ++ auth_sum C h40 shared.

(* seal (crypto.go:53-118).  [draw n] is io.ReadFull(rand.Reader, n bytes), used
   by box.GenerateKey. *)
Definition seal (draw : nat -> MS bytes) (pub : Public) (message : Reader S)
  (messageLen : Z) (w : Writer S) : MS unit := fun s =>
  if messageLen =? 0 then (Ok tt, s)
  else match pub_ToBox pub with
  | Err e => (Err e, s)
  | Panic => (Panic, s)
  | Ok edpub =>
    match draw 32%nat s with
    | (Err e, s) => (Err e, s)
    | (Panic, s) => (Panic, s)
    | (Ok epriv, s) =>
      let epub := x25519_base C epriv in
      let shared := box_precompute C edpub epriv in
      let chunks := chunksFor messageLen in
      match w (sealHeader chunks epub shared) s with
      | ((_, Some e), s) => (Err e, s)
      | ((_, None), s) =>
        match for_loop chunks (seal_step shared message w) (zeroNonce, s) with
        | inl (_, s) => (Ok tt, s)
        | inr r => r
        end
      end
    end
  end.

(* The body of the loop of open (crypto.go:185-205) *)
Definition open_step (shared : bytes) (message : Reader S) (w : Writer S)
  (i : Z) (st : bytes * S) : (bytes * S) + (res unit * S) :=
  let '(nonce, s) := st in
  match message sealed_nat s with
  | (RPanic, s) => inr (Panic, s)
  | (RRet _ (Some e), s) => inr (Err e, s)
  | (RRet chunk None, s) =>
      match box_open C chunk nonce shared with
      | None => inr (Err (EChunk i), s)
      | Some out =>
          match w out s with
          | ((_, Some e), s) => inr (Err e, s)
          | ((_, None), s) =>
              match incrementNonce nonce with
              | (_, Some e) => inr (Err e, s)
              | (nonce, None) => inl (nonce, s)
              end
          end
      end
  end.

(* open after ToBox (crypto.go:165-207) *)
Definition open_body (edpriv : bytes) (message : Reader S) (w : Writer S) : MS unit := fun s =>
  match message header_nat s with
  | (RPanic, s) => (Panic, s)
  | (RRet _ (Some e), s) => (Err e, s)
  | (RRet header None, s) =>
      if negb (length header =? header_nat)%nat
      then (Err (EMsg (str "signify/crypto: couldn't read the full header (read " ++
                       decimal (Z.of_nat (length header)) ++ str ")")), s)
      else
        let chunks := be_decode (firstn 8 header) in
        let epub := firstn 32 (skipn 8 header) in
        let shared := box_precompute C epub edpriv in
        if negb (auth_Verify C (skipn 40 header) (firstn 40 header) shared)
        then (Err (EMsg (str "signify/crypto: failed to authenticate the message header")), s)
        else match for_loop chunks (open_step shared message w) (zeroNonce, s) with
             | inl (_, s) => (Ok tt, s)
             | inr r => r
             end
  end.
End WithCrypto.

Section Files.
Variable C : Crypto.

(* reading the message file and drawing randomness beside an encoder state *)
Definition lift_reader {X} (rd : Reader world) : Reader (X * world) := fun n s =>
  let '(r, w) := rd n (snd s) in (r, (fst s, w)).
Definition lift_draw {X} (n : nat) : MS (X * world) bytes := fun s =>
  let '(r, w) := rand_read n (snd s) in (r, (fst s, w)).

(* Seal (crypto.go:121-157); os.Create uses mode 0666 = 438.  The deferred
   encoder.Close runs whatever seal returned; its error and those of the file
   Close calls are dropped. *)
Definition Seal (publicPath messagePath encryptedPath : path) : M unit :=
  pub <- LoadPublicKey publicPath ;;
  fd <- open_read messagePath ;;
  messageLen <- file_size fd ;;
  let encryptedPath := match encryptedPath with [] => messagePath ++ str ".enc" | _ => encryptedPath end in
  create_file encryptedPath 438 ;;;
  (fun w =>
    match file_write encryptedPath (str "untrusted comment: psignify encrypted file" ++ [x0a]) w with
    | ((_, Some e), w) => (Err e, w)
    | ((_, None), w) =>
        let wr := enc_write (file_write encryptedPath) in
        let '(r, es) := seal C (enc * world) lift_draw pub (lift_reader (file_read fd)) messageLen wr
                             (NewEncoder, w) in
        let '(_, es) := enc_close (file_write encryptedPath) es in
        (r, snd es)
    end).

(* bytes left in the file behind a handle *)
Definition remaining (fd : nat) (w : world) : nat :=
  match nth_error (w_fds w) fd with
  | Some (p, off) => match w_fs w p with Some f => length (f_data f) - off | None => 0 end
  | None => 0
  end%nat.
Definition file_fuel (fd : nat) (w : world) : nat := S (remaining fd w).

(* the base64.Decoder over the encrypted file *)
Definition file_decoder (fd : nat) : Reader world :=
  dec_read (fun w _ => file_fuel fd w) (file_read fd).

(* open (crypto.go:159-208) *)
Definition open_file (priv : Private) (fd : nat) (messagePath : path) : M unit := fun w =>
  match priv_ToBox C priv w with
  | ((Err e, _), w) => (Err e, w)
  | ((Panic, _), w) => (Panic, w)
  | ((Ok edpriv, _), w) =>
      open_body C world edpriv (file_decoder fd) (file_write messagePath) w
  end.

(* Open (crypto.go:211-236) *)
Definition Open (privatePath encryptedPath messagePath : path) : M unit :=
  priv <- LoadPrivateKey privatePath ;;
  fd <- open_read encryptedPath ;;
  skipComment (file_fuel fd) (file_read fd) ;;;
  create_file messagePath 438 ;;;
  open_file priv fd messagePath.
End Files.
