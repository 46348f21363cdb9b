(* Histories: psignify run any number of times, with any arguments, by anyone, over any faults; in between, other
   programs change files of theirs. *)
From Verif Require Export SpecPrint.
Local Open Scope Z_scope.

(* the keys a command line is about (main.go:75-81) *)
Definition public_key (u : userInfo) (ss : list setting) : path := or_default (string_value x70 ss) (defaultKeyBase u) (str ".pub").
Definition secret_key (u : userInfo) (ss : list setting) : path := or_default (string_value x73 ss) (defaultKeyBase u) (str ".sec").
(* a name, or else one made from the name of the message *)
Definition name_or (name message : path) (ext : bytes) : path := match name with [] => message ++ ext | _ => name end.
Definition message_name (ss : list setting) : path := string_value x6d ss.
Definition signature_name (ss : list setting) : path := name_or (string_value x78 ss) (message_name ss) (str ".sig").
Definition sealed_name (ss : list setting) : path := name_or (string_value x63 ss) (message_name ss) (str ".enc").

(* the files a command line is there to write *)
Inductive is_for (u : userInfo) (ss : list setting) : path -> Prop :=
| ForSecret : mode ss x47 -> is_for u ss (public_key u ss ++ str ".sec")
| ForPublic : mode ss x47 -> is_for u ss (public_key u ss ++ str ".pub")
| ForSignature : mode ss x53 -> is_for u ss (signature_name ss)
| ForSealed : mode ss x45 -> is_for u ss (sealed_name ss)
| ForMessage : mode ss x44 -> is_for u ss (message_name ss).

Inductive happening : Type :=
| Psignify (u : userInfo) (args : list bytes) (status : Z)
| Others (ps : list path).

(* from the files fs, the happenings l lead to the files fs'; each run has its own terminal, random bytes and faults *)
Inductive history (C : Crypto) : (path -> option file) -> list happening -> (path -> option file) -> Prop :=
| HNil fs : history C fs [] fs
| HRun arg0 u args w n w' l fs : main C arg0 u args w = (n, w') -> history C (w_fs w') l fs ->
    history C (w_fs w) (Psignify u args n :: l) fs
| HOthers fs0 ps fs1 l fs : (forall p, ~ In p ps -> fs1 p = fs0 p) -> history C fs1 l fs -> history C fs0 (Others ps :: l) fs.

(* nothing in l is there to write p *)
Definition spares (p : path) (l : list happening) : Prop :=
  (forall u args n ss rest, In (Psignify u args n) l -> command_line ss args rest -> stops rest -> ~ is_for u ss p) /\
  (forall ps, In (Others ps) l -> ~ In p ps).
(* psignify only verifies, or is called wrongly *)
Definition only_verifies (l : list happening) : Prop :=
  (forall u args n ss rest c, In (Psignify u args n) l -> command_line ss args rest -> stops rest -> mode ss c -> c = x56) /\
  (forall ps, ~ In (Others ps) l).

(* psignify called with the settings ss *)
Definition called (C : Crypto) (u : userInfo) (ss : list setting) (w : world) (n : Z) (w' : world) : Prop :=
  exists arg0 args rest, command_line ss args rest /\ stops rest /\ main C arg0 u args w = (n, w').
(* the passphrase of a new key, and the one given for an old key *)
Definition chosen (ss : list setting) (w : world) (pass : bytes) : Prop :=
  bool_value x6e ss = true /\ pass = [] \/ bool_value x6e ss = false /\ exists t, w_tty w = Ok pass :: Ok pass :: t.
Definition given (w : world) (pass : bytes) : Prop := pass <> [] -> exists t, w_tty w = Ok pass :: t.
