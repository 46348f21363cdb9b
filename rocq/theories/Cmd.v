(* cmd/psignify/main.go.  Definitions only. *)
From Verif Require Export GoFlag SealOpen.

(* usage (main.go:15-23) *)
Definition usageText (arg0 : bytes) : bytes :=
  [x0a] ++ str "Usage: " ++ arg0 ++ str " -S -s seckey -m message [-x sigfile]" ++ [x0a] ++
  str "       " ++ arg0 ++ str " -V -p pubkey [-x sigfile] -m message" ++ [x0a] ++
  str "       " ++ arg0 ++ str " -G [-n] -p keyname" ++ [x0a] ++
  str "       " ++ arg0 ++ str " -E -p pubkey -m message [-c encrypted]" ++ [x0a] ++
  str "       " ++ arg0 ++ str " -D -s privkey -c encrypted -m message" ++ [x0a].

(* user.Current(): Some (HomeDir, Username), None on error *)
Definition userInfo := option (bytes * bytes).

(* defaultKeyBase (main.go:32-43) *)
Definition defaultKeyBase (u : userInfo) : bytes :=
  match u with
  | None => []
  | Some (home, name) =>
      match home with
      | [] => name
      | _ => Join [home; str ".signify"; name]
      end
  end.

(* Error(), as printed by "%s"; the texts of other errors that come from the
   operating system (failing calls, the terminal, random bytes) are not modelled *)
Definition errText (e : error) : bytes :=
  match e with
  | EMsg s => s
  | EChunk i => str "signify/crypto: failed to decrypt chunk=" ++ decimal i
  | EOF => str "EOF"
  | CorruptInput i => str "illegal base64 data at input byte " ++ decimal i
  | ENotExist p => str "open " ++ p ++ str ": no such file or directory"
  | ErrUnexpectedEOF => str "unexpected EOF"
  | _ => str "error"
  end.

Definition isEmpty (b : bytes) : bool := match b with [] => true | _ => false end.

(* exit statuses: os.Exit(n) or falling off main (0); a panic exits with 2 *)
Definition exit (n : Z) : world -> Z * world := fun w => (n, w).

(* run an action; on error print a message and exit 1, on success print ok *)
Definition action (m : M unit) (onErr : error -> bytes) (onOk : option bytes) (w : world) : Z * world :=
  match m w with
  | (Ok _, w) => (0, match onOk with Some t => emit w (EvOut t) | None => w end)
  | (Err e, w) => (1, emit w (EvErr (onErr e)))
  | (Panic, w) => (2, w)
  end.

Section WithCrypto.
Variable C : Crypto.

(* the -G branch (main.go:83-104); the passphrase buffer is not wiped *)
Definition generateAction (pubKeyFile : path) (noPass : bool) (w : world) : Z * world :=
  if isEmpty pubKeyFile
  then (1, emit w (EvErr (str "Please provide the base name for the keypair." ++ [x0a])))
  else
    let gen (pass : bytes) :=
      action (GenerateKey C pubKeyFile pass None)
        (fun e => str "Failed to generate keypair: " ++ errText e ++ [x0a]) None in
    if noPass then gen [] w
    else match PassphrasePrompt true w with
         | (Err e, w) => (1, emit w (EvErr (errText e ++ [x0a])))
         | (Panic, w) => (2, w)
         | (Ok i, w) => match buf_get i w with
                        | (Ok pass, w) => gen pass w
                        | (_, w) => (2, w)
                        end
         end.

(* main after flag.Parse (main.go:73-144) *)
Definition dispatch (arg0 : bytes) (u : userInfo) (f : flags) (w : world) : Z * world :=
  let keyBase := defaultKeyBase u in
  let privKeyFile := if isEmpty (f_s f) && negb (isEmpty keyBase)
                     then keyBase ++ str ".sec" else f_s f in
  let pubKeyFile := if isEmpty (f_p f) && negb (isEmpty keyBase)
                    then keyBase ++ str ".pub" else f_p f in
  if f_G f then generateAction pubKeyFile (f_n f) w
  else if f_S f then
    if isEmpty privKeyFile || isEmpty (f_m f)
    then (1, emit w (EvErr (str "Signing requires a message and private key." ++ [x0a])))
    else action (Sign C privKeyFile (f_m f) (f_x f))
           (fun e => str "Signing " ++ f_m f ++ str " failed: " ++ errText e ++ [x0a]) None w
  else if f_V f then
    action (Verify C pubKeyFile (f_m f) (f_x f))
      (fun _ => f_m f ++ str ": invalid signature" ++ [x0a])
      (Some (f_m f ++ str ": OK" ++ [x0a])) w
  else if f_E f then
    action (Seal C pubKeyFile (f_m f) (f_c f))
      (fun e => errText e ++ [x0a]) (Some (f_m f ++ str ": OK" ++ [x0a])) w
  else if f_D f then
    action (Open C privKeyFile (f_c f) (f_m f))
      (fun e => errText e ++ [x0a]) (Some (f_c f ++ str ": OK" ++ [x0a])) w
  else (1, emit w (EvErr (usageText arg0))).

(* main (main.go:45-144) with flag.Usage overridden by init (main.go:25-30): a
   malformed flag prints the usage on standard output and exits with 0 *)
Definition main (arg0 : bytes) (u : userInfo) (args : list bytes) (w : world) : Z * world :=
  match flagParse args with
  | Malformed msg =>
      let w := match msg with [] => w | _ => emit w (EvErr msg) end in
      (0, emit w (EvOut (usageText arg0)))
  | Parsed f _ => dispatch arg0 u f w
  end.
End WithCrypto.
