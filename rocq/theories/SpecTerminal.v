(* What psignify finds wrong by itself, and what of foreign files can reach the terminal. *)
From Verif Require Export SpecCmdCalls.
From Verif Require Export SpecCalls.
Local Open Scope Z_scope.

(* the errors answered by system calls about the files P are all in A *)
Definition about (P : path -> Prop) (s : step) : Prop :=
  match s with SReadFile p _ | SOpen p _ | SWriteFile p _ _ _ | SCreate p _ _ => P p | _ => True end.
Definition errors_in (P : path -> Prop) (O : os) (A : error -> Prop) : Prop :=
  forall h s e, agrees O h s -> failed s = Some e -> about P s -> A e.

(* all other errors: a text that is not base64; ... *)
Inductive bad_text : error -> Prop := BadText i : bad_text (CorruptInput i).
(* ... a secret key that is cut short; *)
Inductive bad_secret : error -> Prop :=
| BadSecText e : bad_text e -> bad_secret e
| BadSecEnd : bad_secret EOF
| BadSecCut : bad_secret ErrUnexpectedEOF.
(* a public key of the wrong length; *)
Inductive bad_public : error -> Prop :=
| BadPubText e : bad_text e -> bad_public e
| BadPubLength n : n <> 42 -> 0 <= n -> bad_public (EMsg (str "signify: invalid public key length " ++ decimal n)).
(* a secret key that is not unlocked: two bytes of the key file are part of the message, *)
Definition kdf_message (a b : byte) : bytes := str "signify: unsupported KDF algorithm " ++ [a; b].
Inductive not_unlocked : error -> Prop :=
| BadKdf a b : [a; b] <> str "BK" -> not_unlocked (EMsg (kdf_message a b))
| BadPass : not_unlocked (EMsg (str "bcrypt_pbkdf: empty password"))
| BadSum : not_unlocked (EMsg (str "signify: invalid private key checksum")).

Inductive verify_error : error -> Prop :=
| VePublic e : bad_public e -> verify_error e
| VeText e : bad_text e -> verify_error e
| VeAlgo a b : [a; b] <> str "Ed" -> verify_error (EMsg (str "signify: unknown key algo " ++ [a; b]))
| VeSigAlgo a b : [a; b] <> str "Ed" -> verify_error (EMsg (str "signify: not an Ed25519 signature (" ++ [a; b] ++ str ")"))
| VeNumber : verify_error (EMsg (str "signify: key number mismatch"))
| VeBad : verify_error (EMsg (str "signify: invalid signature")).
Inductive sign_error : error -> Prop :=
| SiSecret e : bad_secret e -> sign_error e
| SiLocked e : not_unlocked e -> sign_error e.
Inductive seal_error : error -> Prop :=
| SePublic e : bad_public e -> seal_error e
| SePoint : seal_error (EMsg (str "signify: invalid public key")).
Inductive open_error : error -> Prop :=
| OpSecret e : bad_secret e -> open_error e
| OpLocked e : not_unlocked e -> open_error e
| OpText e : bad_text e -> open_error e
| OpHeader n : n <> 72 -> 0 <= n -> open_error (EMsg (str "signify/crypto: couldn't read the full header (read " ++ decimal n ++ str ")"))
| OpAuth : open_error (EMsg (str "signify/crypto: failed to authenticate the message header"))
| OpChunk i : 0 <= i < 2 ^ 64 -> open_error (EChunk i).

(* printable characters and ends of lines *)
Definition tame (t : bytes) : Prop := forall b, In b t -> b = x0a \/ 32 <= b2z b <= 126.
(* so are the texts of the operating system's errors, if the names of the files are *)
Definition tame_errors (O : os) : Prop := errors_in tame O (fun e => forall t, error_text e t -> tame t).
Definition tame_user (u : userInfo) : Prop := match u with Some (home, name) => tame home /\ tame name | None => True end.
(* what is printed on standard output *)
Definition on_stdout (h : list step) : bytes := flat_map (fun s => match s with SOut t => t | _ => [] end) h.
