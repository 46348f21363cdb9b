(* Specification of the sealed-file format, written independently of the loops
   of seal and open. *)
From Verif Require Export SpecB64 SpecFmt SpecCrash GoBase64 Crypto.

(* nonce of chunk i: the 24-byte big-endian counter *)
Definition nonce (i : Z) : bytes := be_encode 24 i.

(* the boxes of the pieces ms, numbered from i *)
Fixpoint boxes (C : Crypto) (shared : bytes) (i : Z) (ms : list bytes) : bytes :=
  match ms with
  | [] => []
  | m :: r => box_seal C m (nonce i) shared ++ boxes C shared (i + 1) r
  end.

(* chunk count, ephemeral public key, authenticator of both *)
Definition sealed_header (C : Crypto) (shared epub : bytes) (n : Z) : bytes :=
  let h := be_encode 8 n ++ epub in h ++ auth_sum C h shared.

Definition sealed_body (C : Crypto) (shared epub : bytes) (ms : list bytes) : bytes :=
  sealed_header C shared epub (Z.of_nat (length ms)) ++ boxes C shared 0 ms.

Definition comment_text : bytes := str "untrusted comment: psignify encrypted file" ++ [x0a].
Definition sealed_file (body : bytes) : bytes := comment_text ++ spec_encoded body.

(* all pieces but the last have 16385 bytes, the last one between 1 and 16385 *)
Fixpoint full_pieces (ms : list bytes) : Prop :=
  match ms with
  | [] => True
  | m :: r =>
      match r with
      | [] => 1 <= Z.of_nat (length m) <= 16385
      | _ => Z.of_nat (length m) = 16385
      end /\ full_pieces r
  end.

(* characters of base64 text making up the header (72 bytes) and a box of a full
   piece (16401 bytes) *)
Definition header_chars : nat := 96.
Definition piece_chars : nat := Z.to_nat 21868.

(* the text t (newlines removed) starts with the boxes, numbered from i, of the
   pieces ms, each in its own run of characters *)
Inductive authentic (C : Crypto) (shared : bytes) : Z -> bytes -> list bytes -> Prop :=
| auth_nil i t : authentic C shared i t []
| auth_cons i t m ms :
    DecodeString (firstn piece_chars t) = Ok (box_seal C m (nonce i) shared) ->
    authentic C shared (i + 1) (skipn piece_chars t) ms ->
    authentic C shared i t (m :: ms).

(* the text of an encrypted file after its first line; the header is taken from
   the first 96 characters that are not newlines *)
Definition authentic_header (C : Crypto) (edpriv t header : bytes) : Prop :=
  DecodeString (firstn header_chars (no_lf t)) = Ok header /\ length header = 72%nat /\
  slice 40 32 header = auth_sum C (slice 0 40 header) (box_precompute C (slice 8 32 header) edpriv).
Definition shared_of (C : Crypto) (edpriv header : bytes) : bytes :=
  box_precompute C (slice 8 32 header) edpriv.
Definition count_of (header : bytes) : Z := be_decode (slice 0 8 header).
Definition body_text (t : bytes) : bytes := skipn header_chars (no_lf t).

(* where Seal writes *)
Definition enc_path (mp ep : path) : path := if bytes_eqb ep [] then mp ++ str ".enc" else ep.
