(* What psignify does, whatever the operating system answers.  SpecPrint.v says how
   command lines are read and what texts there are, SpecCalls.v what the calls of the
   operations have to look like. *)
From Verif Require Export SpecPrint GenFacts SignFacts CmdCalls.
From Verif Require Export SpecCalls.
Local Open Scope Z_scope.

(* an operation ends with o: exit status, standard error, and what is still printed on standard output *)
Inductive concluded (failure : bytes -> bytes) (done : list step) : res unit -> Z -> bytes -> list step -> Prop :=
| ConOk : concluded failure done (Ok tt) 0 [] done
| ConErr e s : shown e s -> concluded failure done (Err e) 1 (line (failure s)) []
| ConPanic : concluded failure done Panic 2 [] [].

(* the calls made while a passphrase is typed twice *)
Definition typed_twice (a b : bytes) : list step :=
  asked a ++ [SOut (str "Confirm password: "); SPass (inl b); SOut [x0a]].
(* the passphrase for a new key is not obtained *)
Inductive no_pass (O : os) : error -> list step -> Prop :=
| NoFirst e : o_pass O [SOut (str "Password: ")] = inr e -> no_pass O e [SOut (str "Password: "); SPass (inr e)]
| NoSecond a e : answered O (asked a ++ [SOut (str "Confirm password: "); SPass (inr e)]) ->
    no_pass O e (asked a ++ [SOut (str "Confirm password: "); SPass (inr e)])
| NotSame a b : answered O (typed_twice a b) -> a <> b -> no_pass O (EMsg (str "passphrases don't match")) (typed_twice a b).

(* the calls h, made after the calls h0, of making a key pair with a passphrase *)
Definition generates (C : Crypto) (O : os) (h0 : list step) (k : path) (pass : bytes) (r : res unit) (h : list step) : Prop :=
  Forall (touches [] [k ++ str ".sec"; k ++ str ".pub"]) h /\ noticed nothing h r /\ in_use [] h = Some [] /\
  (r = Ok tt -> exists seed slt num priv pub, consistent_pair C pass None (seed ++ slt ++ num) priv pub /\
     length seed = 32%nat /\ length slt = 16%nat /\ length num = 8%nat /\ answered O (h0 ++ h) /\
     h = [SRand 32 (inl seed); SRand 16 (inl slt); SRand 8 (inl num);
          SWriteFile (k ++ str ".sec") (sec_file priv) 420 None; SWriteFile (k ++ str ".pub") (pub_file pub) 420 None]).
Definition signs (C : Crypto) (O : os) (k mp sp : path) (r : res unit) (h : list step) : Prop :=
  Forall (touches [k; mp] [sp]) h /\ noticed nothing h r /\ in_use [] h = Some [] /\
  forall n, pub_name k n -> (r = Ok tt <-> answered O h /\
    exists kf priv asks p m, readPrivateKeyFile kf = Ok priv /\ unlocked_by C priv asks p /\
      h = [SReadFile k (inl kf)] ++ asks ++
          [SReadFile mp (inl m); SWriteFile sp (signature_file n (keyAlgo p) (keyNum p) (ed_sign C (key p) m)) 420 None]).
Definition verifying (C : Crypto) (O : os) (k mp sp : path) (r : res unit) (h : list step) : Prop :=
  Forall (touches [k; mp; sp] []) h /\ noticed nothing h r /\ in_use [] h = Some [] /\
  (r = Ok tt <-> answered O h /\ exists pf m sf, h = [SReadFile k (inl pf); SReadFile mp (inl m); SReadFile sp (inl sf)] /\
     signature_text (fun k m s => ed_verify C k m s = true) pf m sf).
Definition seals (C : Crypto) (O : os) (pk mp ep : path) (r : res unit) (h : list step) : Prop :=
  in_use [] h = Some [] /\ Forall (touches [pk; mp] [enc_path mp ep]) h /\ sealing_tail h r /\
  (r = Ok tt -> sealed_calls C pk mp ep h).
Definition opens (C : Crypto) (O : os) (sk ep mp : path) (r : res unit) (h : list step) : Prop :=
  in_use [] h = Some [] /\ Forall (touches [sk; ep] [mp]) h /\ opening_tail mp h r /\
  (r = Ok tt -> exists out, In (SCreate mp 438 (inl out)) h) /\
  forall out, In (SCreate mp 438 (inl out)) h ->
  (written out h = [] /\ r <> Ok tt) \/
  exists kf priv fd asks p c t0 ts tl header ms l1 l2, readPrivateKeyFile kf = Ok priv /\ box_key_by C priv asks p /\
    h = [SReadFile sk (inl kf); SOpen ep (inl fd)] ++ l1 ++ [SCreate mp 438 (inl out)] ++ asks ++ l2 /\
    concat (pieces fd h) = c ++ [x0a] ++ t0 ++ concat ts ++ tl /\ lf_free c /\
    base64_of (no_crlf t0) header /\ length header = 72%nat /\
    slice 40 32 header = auth_sum C (slice 0 40 header) (shared_of C (box_secret C (key p)) header) /\
    boxed_texts C (shared_of C (box_secret C (key p)) header) 0 ts ms /\
    written out h = concat ms /\ Z.of_nat (length ms) <= count_of header /\
    (r = Ok tt -> tl = [] /\ Z.of_nat (length ms) = count_of header).

Section Run.
Variable C : Crypto.
Variable O : os.
Variable arg0 : bytes.
Variable u : userInfo.
Variable ss : list setting.
Let pubkey := or_default (string_value x70 ss) (defaultKeyBase u) (str ".pub").
Let seckey := or_default (string_value x73 ss) (defaultKeyBase u) (str ".sec").
Let message := string_value x6d ss.
Let sigfile := string_value x78 ss.
Let encrypted := string_value x63 ss.

(* status, standard error, calls *)
Inductive run_of : Z -> bytes -> list step -> Prop :=
| RGUnnamed : mode ss x47 -> pubkey = [] -> run_of 1 (line (str "Please provide the base name for the keypair.")) []
| RGOpen r n e h t : mode ss x47 -> pubkey <> [] -> bool_value x6e ss = true -> generates C O [] pubkey [] r h ->
    concluded (fun s => str "Failed to generate keypair: " ++ s) [] r n e t -> run_of n e (h ++ t)
| RGLocked pass r n e h t : mode ss x47 -> pubkey <> [] -> bool_value x6e ss = false -> answered O (typed_twice pass pass) ->
    generates C O (typed_twice pass pass) pubkey pass r h ->
    concluded (fun s => str "Failed to generate keypair: " ++ s) [] r n e t -> run_of n e (typed_twice pass pass ++ h ++ t)
| RGNoPass x s h : mode ss x47 -> pubkey <> [] -> bool_value x6e ss = false -> no_pass O x h -> shown x s -> run_of 1 (line s) h
| RSMissing : mode ss x53 -> seckey = [] \/ message = [] -> run_of 1 (line (str "Signing requires a message and private key.")) []
| RSign r n e h t : mode ss x53 -> seckey <> [] -> message <> [] -> signs C O seckey message (sigPathOf message sigfile) r h ->
    concluded (fun s => str "Signing " ++ message ++ str " failed: " ++ s) [] r n e t -> run_of n e (h ++ t)
| RVerify r n e h t : mode ss x56 -> verifying C O pubkey message (sigPathOf message sigfile) r h ->
    concluded (fun _ => message ++ str ": invalid signature") [SOut (line (message ++ str ": OK"))] r n e t -> run_of n e (h ++ t)
| RSeal r n e h t : mode ss x45 -> seals C O pubkey message encrypted r h ->
    concluded (fun s => s) [SOut (line (message ++ str ": OK"))] r n e t -> run_of n e (h ++ t)
| ROpen r n e h t : mode ss x44 -> opens C O seckey encrypted message r h ->
    concluded (fun s => s) [SOut (line (encrypted ++ str ": OK"))] r n e t -> run_of n e (h ++ t)
| RNothing : (forall c, In c (str "GSVED") -> bool_value c ss = false) -> run_of 1 (usage arg0) [].
End Run.
