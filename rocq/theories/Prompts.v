(* PassphrasePrompt is a variable of the package (key.go:34): a program using the package
   may put a function of its own there.  The routines that call it, once more, with the
   function as a parameter; it gets the argument confirm and returns a buffer, which
   may be one the caller keeps.  Definitions only. *)
From Verif Require Export SealOpen.
Local Open Scope go_scope.
Local Open Scope Z_scope.

Section Prompts.
Variable C : Crypto.
Variable prompt : bool -> M nat.

(* Private.ToBox (key.go:247-270) *)
Definition ToBox_by (p : Private) (w : world) : (res bytes * Private) * world :=
  let finish (p : Private) (w : world) :=
    let digest := sha512 C (firstn 32 (key p)) in
    ((Ok (fit 32 (clamp digest)), p), w) in
  match Check C p with
  | Ok _ => finish p w
  | _ =>
      match prompt false w with
      | (Err e, w) => ((Err e, p), w)
      | (Panic, w) => ((Panic, p), w)
      | (Ok i, w) =>
          match buf_get i w with
          | (Ok pass, w) =>
              match decrypt C p pass with
              | (Ok _, p) => finish p w
              | (Err e, p) => ((Err e, p), w)
              | (Panic, p) => ((Panic, p), w)
              end
          | (_, w) => ((Panic, p), w)
          end
      end
  end.

(* Sign (key.go:198-244) *)
Definition Sign_by (privatePath messagePath signaturePath : path) : M unit :=
  let signaturePath := sigPathOf messagePath signaturePath in
  priv <- LoadPrivateKey privatePath ;;
  if IsEncrypted priv then
    i <- prompt false ;;
    defer (zero_buf i)
      (pass <- buf_get i ;;
       match decrypt C priv pass with
       | (Ok _, priv) => signFinish C privatePath messagePath signaturePath priv
       | (Err e, _) => fail e
       | (Panic, _) => panic
       end)
  else signFinish C privatePath messagePath signaturePath priv.

(* open (crypto.go:159-208) and Open (crypto.go:211-236) *)
Definition open_file_by (priv : Private) (fd : nat) (messagePath : path) : M unit := fun w =>
  match ToBox_by priv w with
  | ((Err e, _), w) => (Err e, w)
  | ((Panic, _), w) => (Panic, w)
  | ((Ok edpriv, _), w) =>
      open_body C world edpriv (file_decoder fd) (file_write messagePath) w
  end.
Definition Open_by (privatePath encryptedPath messagePath : path) : M unit :=
  priv <- LoadPrivateKey privatePath ;;
  fd <- open_read encryptedPath ;;
  skipComment (file_fuel fd) (file_read fd) ;;;
  create_file messagePath 438 ;;;
  open_file_by priv fd messagePath.
End Prompts.

(* func(bool) ([]byte, error) { return kept, nil } *)
Definition kept_pass (i : nat) (confirm : bool) : M nat := ret i.
