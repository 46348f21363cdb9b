(* Everything psignify prints, on standard output (EvOut) and standard error (EvErr), in order; and the exit status. *)
From Verif Require Export SpecReport SpecFlag Cmd.
Local Open Scope Z_scope.

Fixpoint texts (l : list event) : list event :=
  match l with
  | [] => []
  | EvOut t :: l => EvOut t :: texts l
  | EvErr t :: l => EvErr t :: texts l
  | _ :: l => texts l
  end.
(* between w and w', t is printed and nothing else *)
Definition prints (w w' : world) (t : list event) : Prop := exists evs, w_log w' = w_log w ++ evs /\ texts evs = t.

Definition line (t : bytes) : bytes := t ++ [x0a].
(* an error shown as s *)
Definition shown (e : error) (s : bytes) : Prop := forall t, error_text e t -> s = t.

(* an operation ends with o: what the program then prints and its exit status *)
Inductive report (failed : bytes -> bytes) (done : list event) : res unit -> Z -> list event -> Prop :=
| RepOk : report failed done (Ok tt) 0 done
| RepErr e s : shown e s -> report failed done (Err e) 1 [EvErr (line (failed s))]
| RepPanic : report failed done Panic 2 [].

(* asking for a passphrase once: the cursor moves on only if something is typed *)
Inductive asked (w : world) : list event -> Prop :=
| AskTyped pass : answers w (Ok pass) -> asked w [EvOut (str "Password: "); EvOut [x0a]]
| AskError e : answers w (Err e) -> asked w [EvOut (str "Password: ")]
| AskPanic : answers w Panic -> asked w [EvOut (str "Password: ")].

(* Sign asks if it can read the key and the key says it is encrypted *)
Inductive sign_asks (w : world) (kp : path) : list event -> Prop :=
| SANoFile e : read_error w 0 kp e -> sign_asks w kp []
| SANoKey kf e : reads w 0 kp kf -> private_error kf e -> sign_asks w kp []
| SAPlain kf kdf salt sum key : reads w 0 kp kf -> private_text kf kdf 0 salt sum key -> sign_asks w kp []
| SAAsk kf kdf r salt sum key t : reads w 0 kp kf -> private_text kf kdf r salt sum key -> r <> 0 -> asked w t -> sign_asks w kp t.

(* Open asks if the key can be read, the encrypted file has a first line, the output can be created, and the
   stored checksum is not that of the stored key *)
Inductive open_asks (hash : bytes -> bytes) (w : world) (sk ep mp : path) : list event -> Prop :=
| OANoFile : w_fs w sk = None -> open_asks hash w sk ep mp []
| OANoKey kf e : contents w sk kf -> private_error kf e -> open_asks hash w sk ep mp []
| OANoText : w_fs w ep = None -> open_asks hash w sk ep mp []
| OANoLine d : contents w ep d -> ~ In x0a d -> open_asks hash w sk ep mp []
| OANoName : mp = [] -> open_asks hash w sk ep mp []
| OASum kf kdf r salt sum key : contents w sk kf -> private_text kf kdf r salt sum key -> firstn 8 (hash key) = sum -> open_asks hash w sk ep mp []
| OAAsk kf kdf r salt sum key d t : contents w sk kf -> private_text kf kdf r salt sum key -> contents w ep d -> In x0a d -> mp <> [] ->
    firstn 8 (hash key) <> sum -> asked w t -> open_asks hash w sk ep mp t.

(* a new key pair, with the passphrase pass, when no system call fails *)
Inductive generate_outcome (w : world) (pass : bytes) (rounds : Z) : res unit -> Prop :=
| GRandom : (length (w_rng w) < 56)%nat -> generate_outcome w pass rounds (Err ERand)
| GRounds : (56 <= length (w_rng w))%nat -> pass <> [] -> rounds mod 4294967296 = 0 ->
    generate_outcome w pass rounds (Err (EMsg (str "bcrypt_pbkdf: number of rounds is too small")))
| GDone : (56 <= length (w_rng w))%nat -> pass = [] \/ rounds mod 4294967296 <> 0 -> generate_outcome w pass rounds (Ok tt).

Definition twice : list event := [EvOut (str "Password: "); EvOut [x0a]; EvOut (str "Confirm password: "); EvOut [x0a]].
(* the passphrase of a new key, typed twice; what the terminal answers *)
Inductive new_pass (w : world) : res bytes -> list event -> Prop :=
| NPSame pass tl : w_tty w = Ok pass :: Ok pass :: tl -> new_pass w (Ok pass) twice
| NPDiffer a b tl : w_tty w = Ok a :: Ok b :: tl -> a <> b -> new_pass w (Err (EMsg (str "passphrases don't match"))) twice
| NPFirst e : answers w (Err e) -> new_pass w (Err e) [EvOut (str "Password: ")]
| NPFirstPanic : answers w Panic -> new_pass w Panic [EvOut (str "Password: ")]
| NPSecond a tl e : w_tty w = Ok a :: tl -> hd (Err ETty) tl = Err e ->
    new_pass w (Err e) [EvOut (str "Password: "); EvOut [x0a]; EvOut (str "Confirm password: ")]
| NPSecondPanic a tl : w_tty w = Ok a :: tl -> hd (Err ETty) tl = Panic ->
    new_pass w Panic [EvOut (str "Password: "); EvOut [x0a]; EvOut (str "Confirm password: ")].

Definition usage (arg0 : bytes) : bytes :=
  x0a :: concat (map line
    [str "Usage: " ++ arg0 ++ str " -S -s seckey -m message [-x sigfile]";
     str "       " ++ arg0 ++ str " -V -p pubkey [-x sigfile] -m message";
     str "       " ++ arg0 ++ str " -G [-n] -p keyname";
     str "       " ++ arg0 ++ str " -E -p pubkey -m message [-c encrypted]";
     str "       " ++ arg0 ++ str " -D -s privkey -c encrypted -m message"]).

(* the first of -G -S -V -E -D that is set counts *)
Definition mode (ss : list setting) (c : byte) : Prop :=
  bool_value c ss = true /\
  exists before after, str "GSVED" = before ++ c :: after /\ forall d, In d before -> bool_value d ss = false.

Section Session.
Variable C : Crypto.
Variable secret : bytes -> bytes. (* what ToBox makes of a private key *)
Variable arg0 : bytes.
Variable u : userInfo.
Variable ss : list setting.
Variable w : world.
Let pubkey := or_default (string_value x70 ss) (defaultKeyBase u) (str ".pub").
Let seckey := or_default (string_value x73 ss) (defaultKeyBase u) (str ".sec").
Let message := string_value x6d ss.
Let sigfile := string_value x78 ss.
Let encrypted := string_value x63 ss.
Let derive := fun pass salt rounds => pbkdf C pass salt rounds 64.

Inductive session : Z -> list event -> Prop :=
| Generate_unnamed : mode ss x47 -> pubkey = [] -> session 1 [EvErr (line (str "Please provide the base name for the keypair."))]
| Generate_open o n t : mode ss x47 -> pubkey <> [] -> bool_value x6e ss = true -> generate_outcome w [] 42 o ->
    report (fun s => str "Failed to generate keypair: " ++ s) [] o n t -> session n t
| Generate_locked pass o n t p : mode ss x47 -> pubkey <> [] -> bool_value x6e ss = false -> new_pass w (Ok pass) p ->
    generate_outcome w pass 42 o -> report (fun s => str "Failed to generate keypair: " ++ s) [] o n t -> session n (p ++ t)
| Generate_error e s p : mode ss x47 -> pubkey <> [] -> bool_value x6e ss = false -> new_pass w (Err e) p ->
    shown e s -> session 1 (p ++ [EvErr (line s)])
| Generate_panic p : mode ss x47 -> pubkey <> [] -> bool_value x6e ss = false -> new_pass w Panic p -> session 2 p
| Sign_missing : mode ss x53 -> seckey = [] \/ message = [] -> session 1 [EvErr (line (str "Signing requires a message and private key."))]
| Signing p o n t : mode ss x53 -> seckey <> [] -> message <> [] -> sign_asks w seckey p ->
    sign_outcome (sha512 C) derive w seckey message (sigPathOf message sigfile) o ->
    report (fun s => str "Signing " ++ message ++ str " failed: " ++ s) [] o n t -> session n (p ++ t)
| Verifying o n t : mode ss x56 ->
    verify_outcome (fun k m s => ed_verify C k m s = true) w pubkey message (sigPathOf message sigfile) o ->
    report (fun _ => message ++ str ": invalid signature") [EvOut (line (message ++ str ": OK"))] o n t -> session n t
| Sealing o n t : mode ss x45 -> seal_outcome w pubkey message o ->
    report (fun s => s) [EvOut (line (message ++ str ": OK"))] o n t -> session n t
| Opening p o n t : mode ss x44 -> open_asks (sha512 C) w seckey encrypted message p ->
    open_outcome C secret derive w seckey encrypted message o ->
    report (fun s => s) [EvOut (line (encrypted ++ str ": OK"))] o n t -> session n (p ++ t)
| Nothing : (forall c, In c (str "GSVED") -> bool_value c ss = false) -> session 1 [EvErr (usage arg0)].
End Session.

(* how %q shows a text: most characters as they are, some by a letter, the other control characters in hexadecimal;
   what it does with bytes above 126 is not said *)
Definition escapes : list (byte * byte) :=
  [(x07, x61); (x08, x62); (x09, x74); (x0a, x6e); (x0b, x76); (x0c, x66); (x0d, x72); (x22, x22); (x5c, x5c)].
Inductive quoted : bytes -> bytes -> Prop :=
| QEnd : quoted [] []
| QPlain b t q : 32 <= b2z b <= 126 -> b <> x22 -> b <> x5c -> quoted t q -> quoted (b :: t) (b :: q)
| QLetter b e t q : In (b, e) escapes -> quoted t q -> quoted (b :: t) (x5c :: e :: q)
| QHex b hi lo i j t q : b2z b < 32 -> (forall e, ~ In (b, e) escapes) -> nth_error (str "0123456789abcdef") i = Some hi ->
    nth_error (str "0123456789abcdef") j = Some lo -> b2z b = 16 * Z.of_nat i + Z.of_nat j -> quoted t q ->
    quoted (b :: t) (x5c :: x78 :: hi :: lo :: q).
(* what is said of a command line that cannot be read; after it the usage is printed and the status is 0 *)
Inductive complaint : list bytes -> list event -> Prop :=
| CEq d r rest : dashes d -> complaint ((d ++ x3d :: r) :: rest) [EvErr (line (str "bad flag syntax: " ++ d ++ x3d :: r))]
| CDashes r rest : complaint ((str "---" ++ r) :: rest) [EvErr (line (str "bad flag syntax: ---" ++ r))]
| CUnknown d s n v rest : dashes d -> s <> [] -> (forall r, s <> x2d :: r /\ s <> x3d :: r) -> names s n v ->
    (forall c, n = [c] -> ~ string_flag c /\ ~ bool_flag c) -> n <> str "h" -> n <> str "help" ->
    complaint ((d ++ s) :: rest) [EvErr (line (str "flag provided but not defined: -" ++ n))]
| CHelp d s n v rest : dashes d -> names s n v -> n = str "h" \/ n = str "help" -> complaint ((d ++ s) :: rest) []
| CBool d c t q rest : dashes d -> bool_flag c -> (forall v, ~ bool_word t v) -> ((forall b, In b t -> b2z b <= 126) -> exists r, quoted t r /\ q = x22 :: r ++ [x22]) ->
    complaint ((d ++ c :: x3d :: t) :: rest) [EvErr (line (str "invalid boolean value " ++ q ++ str " for -" ++ c :: str ": parse error"))]
| CMissing d c : dashes d -> string_flag c -> complaint [d ++ [c]] [EvErr (line (str "flag needs an argument: -" ++ [c]))].
