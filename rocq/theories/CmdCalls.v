(* cmd/psignify/main.go once more, over an operating system about which nothing is
   assumed (Calls.v).  Definitions only. *)
From Verif Require Export Calls Cmd.
Local Open Scope Z_scope.

(* exit status, what was printed on standard error, and the calls, printing on
   standard output included.  In all of main, standard error is used at most once,
   immediately before the exit. *)
Definition ending : Type := Z * bytes * list step.

Section WithOs.
Variable C : Crypto.
Variable O : os.
Variable fuel : list step -> nat.

Local Open Scope os_scope.
(* PassphrasePrompt(true) (key.go:34-59); zeroing the second passphrase is no call *)
Definition confirm_os : H bytes :=
  h_out (str "Password: ") ;;; a <- h_pass O ;; h_out [x0a] ;;;
  h_out (str "Confirm password: ") ;;; b <- h_pass O ;; h_out [x0a] ;;;
  if bytes_eqb a b then hret a else hlift (Err (EMsg (str "passphrases don't match"))).
Local Close Scope os_scope.

(* run an action; on error print a message and exit 1, on success print ok *)
Definition action_os (m : H unit) (onErr : error -> bytes) (onOk : option bytes) (h : list step) : ending :=
  match m h with
  | (Ok _, h) => (0, [], match onOk with Some t => h ++ [SOut t] | None => h end)
  | (Err e, h) => (1, onErr e, h)
  | (Panic, h) => (2, [], h)
  end.

(* the -G branch (main.go:83-104) *)
Definition generateAction_os (pubKeyFile : path) (noPass : bool) (h : list step) : ending :=
  if isEmpty pubKeyFile
  then (1, str "Please provide the base name for the keypair." ++ [x0a], h)
  else
    let gen (pass : bytes) :=
      action_os (GenerateKey_os C O pubKeyFile pass None)
        (fun e => str "Failed to generate keypair: " ++ errText e ++ [x0a]) None in
    if noPass then gen [] h
    else match confirm_os h with
         | (Err e, h) => (1, errText e ++ [x0a], h)
         | (Panic, h) => (2, [], h)
         | (Ok pass, h) => gen pass h
         end.

(* main after flag.Parse (main.go:73-144) *)
Definition dispatch_os (arg0 : bytes) (u : userInfo) (f : flags) (h : list step) : ending :=
  let keyBase := defaultKeyBase u in
  let privKeyFile := if isEmpty (f_s f) && negb (isEmpty keyBase)
                     then keyBase ++ str ".sec" else f_s f in
  let pubKeyFile := if isEmpty (f_p f) && negb (isEmpty keyBase)
                    then keyBase ++ str ".pub" else f_p f in
  if f_G f then generateAction_os pubKeyFile (f_n f) h
  else if f_S f then
    if isEmpty privKeyFile || isEmpty (f_m f)
    then (1, str "Signing requires a message and private key." ++ [x0a], h)
    else action_os (Sign_os C O privKeyFile (f_m f) (f_x f))
           (fun e => str "Signing " ++ f_m f ++ str " failed: " ++ errText e ++ [x0a]) None h
  else if f_V f then
    action_os (Verify_os C O pubKeyFile (f_m f) (f_x f))
      (fun _ => f_m f ++ str ": invalid signature" ++ [x0a])
      (Some (f_m f ++ str ": OK" ++ [x0a])) h
  else if f_E f then
    action_os (Seal_os C O pubKeyFile (f_m f) (f_c f))
      (fun e => errText e ++ [x0a]) (Some (f_m f ++ str ": OK" ++ [x0a])) h
  else if f_D f then
    action_os (Open_os C O fuel privKeyFile (f_c f) (f_m f))
      (fun e => errText e ++ [x0a]) (Some (f_c f ++ str ": OK" ++ [x0a])) h
  else (1, usageText arg0, h).

(* main (main.go:45-144) *)
Definition main_os (arg0 : bytes) (u : userInfo) (args : list bytes) : ending :=
  match flagParse args with
  | Malformed msg => (0, msg, [SOut (usageText arg0)])
  | Parsed f _ => dispatch_os arg0 u f []
  end.
End WithOs.
