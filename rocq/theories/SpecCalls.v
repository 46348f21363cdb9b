(* What a sequence of calls to the operating system must look like.  Taken from the model
   are the type of the calls and what is not about calls (reading a key file, unlocking a
   key, turning a key into one for boxes), which SpecText.v, PropsKeys.v and PropsText.v
   characterise. *)
From Verif Require Export Calls SpecText SpecSeal SpecCurve.
Local Open Scope Z_scope.

(* the descriptors in use after the calls h, if only such are used and closed *)
Fixpoint drop_one (fd : nat) (l : list nat) : list nat :=
  match l with [] => [] | x :: r => if Nat.eqb x fd then r else x :: drop_one fd r end.
Definition has (fd : nat) (l : list nat) : bool := existsb (Nat.eqb fd) l.
Fixpoint in_use (fds : list nat) (h : list step) : option (list nat) :=
  match h with
  | [] => Some fds
  | s :: h =>
      match s with
      | SOpen _ (inl fd) => in_use (fd :: fds) h
      | SCreate _ _ (inl fd) => in_use (fd :: fds) h
      | SStat fd _ => if has fd fds then in_use fds h else None
      | SRead fd _ _ _ => if has fd fds then in_use fds h else None
      | SWrite fd _ _ _ => if has fd fds then in_use fds h else None
      | SClose fd _ => if has fd fds then in_use (drop_one fd fds) h else None
      | _ => in_use fds h
      end
  end.

(* what is printed to ask for a passphrase *)
Definition prompt_text (t : bytes) : Prop := t = str "Password: " \/ t = [x0a].
(* only files in rs are read, only files in ws are created or written, and nothing else is printed *)
Definition touches (rs ws : list path) (s : step) : Prop :=
  match s with
  | SReadFile p _ => In p rs
  | SOpen p _ => In p rs
  | SWriteFile p _ _ _ => In p ws
  | SCreate p _ _ => In p ws
  | SOut t => prompt_text t
  | _ => True
  end.

(* the error a call answered *)
Definition failed (s : step) : option error :=
  match s with
  | SReadFile _ (inr e) => Some e
  | SWriteFile _ _ _ r => r
  | SOpen _ (inr e) => Some e
  | SCreate _ _ (inr e) => Some e
  | SStat _ (inr e) => Some e
  | SRead _ _ _ r => r
  | SWrite _ _ _ r => r
  | SClose _ r => r
  | SRand _ (inr e) => Some e
  | SPass (inr e) => Some e
  | _ => None
  end.
(* a failing call, unless excepted, is the last one, and its error is the result *)
Definition noticed (excepted : step -> Prop) (h : list step) (r : res unit) : Prop :=
  forall h1 s h2 e, h = h1 ++ s :: h2 -> failed s = Some e -> excepted s \/ (h2 = [] /\ r = Err e).
Definition nothing (s : step) : Prop := False.
Definition end_of_file (s : step) : Prop := exists fd n b, s = SRead fd n b (Some EOF).
Definition closing (s : step) : Prop := exists fd r, s = SClose fd r.
Definition rest_of_text (s : step) : Prop := exists fd b n r, s = SWrite fd b n r /\ (length b <= 4)%nat.

(* the answers of h are those of the operating system *)
Definition agrees (O : os) (h : list step) (s : step) : Prop :=
  match s with
  | SReadFile p r => o_readfile O h p = r
  | SWriteFile p b m r => o_writefile O h p b m = r
  | SOpen p r => o_open O h p = r
  | SCreate p m r => o_create O h p m = r
  | SStat fd r => o_stat O h fd = r
  | SRead fd n b r => o_read O h fd n = (b, r)
  | SWrite fd b n r => o_write O h fd b = (n, r)
  | SClose fd r => o_close O h fd = r
  | SRand n r => o_rand O h n = r
  | SPass r => o_pass O h = r
  | SOut _ => True
  end.
Definition answered (O : os) (h : list step) : Prop := forall h1 s h2, h = h1 ++ s :: h2 -> agrees O h1 s.

(* what was read through a descriptor, call by call, and what was handed over to be written *)
Definition pieces (fd : nat) (h : list step) : list bytes :=
  flat_map (fun s => match s with SRead f _ b None => if Nat.eqb f fd then [b] else [] | _ => [] end) h.
Definition written (fd : nat) (h : list step) : bytes :=
  flat_map (fun s => match s with SWrite f b _ _ => if Nat.eqb f fd then b else [] | _ => [] end) h.
(* the random values obtained *)
Definition drawn (h : list step) : list bytes := flat_map (fun s => match s with SRand _ (inl b) => [b] | _ => [] end) h.

(* os.File: a read into a buffer that is not empty delivers something or an error; sizes are int64 *)
Definition file_rules (O : os) : Prop :=
  (forall h fd n b r, o_read O h fd n = (b, r) -> (0 < n)%nat ->
     match r with None => (1 <= length b <= n)%nat | Some _ => b = [] end) /\
  (forall h fd z, o_stat O h fd = inl z -> 0 <= z < 2 ^ 63).

(* the texts ts are, each for itself, base64 of the boxes, numbered from i, of the pieces ms *)
Inductive boxed_texts (C : Crypto) (shared : bytes) : Z -> list bytes -> list bytes -> Prop :=
| bt_nil i : boxed_texts C shared i [] []
| bt_cons i t m ts ms : base64_of (no_crlf t) (box_seal C m (nonce i) shared) ->
    boxed_texts C shared (i + 1) ts ms -> boxed_texts C shared i (t :: ts) (m :: ms).

(* crypto/rand delivers what was asked for *)
Definition rand_rules (O : os) : Prop := forall h n b, o_rand O h n = inl b -> length b = n.
(* the calls of the passphrase prompt *)
Definition asked (pass : bytes) : list step := [SOut (str "Password: "); SPass (inl pass); SOut [x0a]].

(* Seal: a failing call ends it, except that up to two writes of at most four bytes each, the
   rest of the text, and then the closings follow whatever happened, and do not count *)
Definition sealing_tail (h : list step) (r : res unit) : Prop :=
  exists body ws cs, h = body ++ ws ++ cs /\ noticed nothing body r /\ Forall rest_of_text ws /\ (length ws <= 2)%nat /\
    Forall closing cs.

(* Open: the end of the file is no failure once the destination was created *)
Definition opening_tail (mp : path) (h : list step) (r : res unit) : Prop :=
  exists b1 b2 cs, h = b1 ++ b2 ++ cs /\ (b2 = [] \/ exists x b, b2 = SCreate mp 438 x :: b) /\
    noticed nothing b1 r /\ noticed end_of_file b2 r /\ Forall closing cs.

(* the key Sign works with, and the calls for asking for the passphrase *)
Definition unlocked_by (C : Crypto) (priv : Private) (asks : list step) (p : Private) : Prop :=
  (IsEncrypted priv = false /\ asks = [] /\ p = priv) \/
  (IsEncrypted priv = true /\ exists pass, asks = asked pass /\ decrypt C priv pass = (Ok tt, p)).
(* the key Open works with *)
Definition box_key_by (C : Crypto) (priv : Private) (asks : list step) (p : Private) : Prop :=
  (checksum priv = firstn 8 (sha512 C (key priv)) /\ asks = [] /\ p = priv) \/
  (checksum priv <> firstn 8 (sha512 C (key priv)) /\ exists pass, asks = asked pass /\ decrypt C priv pass = (Ok tt, p)).

(* the calls h of a successful Seal: the size is that at the start, the pieces are those read later *)
Definition sealed_calls (C : Crypto) (pk mp ep : path) (h : list step) : Prop :=
  exists pf pub fd len out rest body, readPublicKeyFile pf = Ok pub /\
    h = [SReadFile pk (inl pf); SOpen mp (inl fd); SStat fd (inl len); SCreate (enc_path mp ep) 438 (inl out)] ++ rest /\
    (Forall (fun s => failed s = None \/ closing s) h -> written out h = sealed_file body) /\
    ((len = 0 /\ body = []) \/
     (0 < len /\ exists edpub epriv, pub_ToBox pub = Ok edpub /\ drawn h = [epriv] /\
        Z.of_nat (length (pieces fd h)) = (len + 16384) / 16385 /\
        body = sealed_body C (box_precompute C edpub epriv) (x25519_base C epriv) (pieces fd h))).

