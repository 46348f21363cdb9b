(* Specification of the command line, written independently of the flag parser:
   which arguments set which flag, and which are malformed. *)
From Verif Require Export Go.

Inductive setting :=
| SetS (c : byte) (v : bytes)   (* string flag -c *)
| SetB (c : byte) (v : bool).   (* boolean flag -c *)

Definition string_flag (c : byte) : Prop := In c (str "cmpsx").
Definition bool_flag (c : byte) : Prop := In c (str "nDEGSV").
Definition dashes (d : bytes) : Prop := d = str "-" \/ d = str "--".
Definition bool_word (t : bytes) (v : bool) : Prop :=
  In t (if v then [str "1"; str "t"; str "T"; str "true"; str "TRUE"; str "True"]
        else [str "0"; str "f"; str "F"; str "false"; str "FALSE"; str "False"]).

(* the ways to write a setting *)
Inductive renders : setting -> list bytes -> Prop :=
| ren_next d c v : dashes d -> string_flag c -> renders (SetS c v) [d ++ [c]; v]
| ren_eq d c v : dashes d -> string_flag c -> renders (SetS c v) [d ++ c :: x3d :: v]
| ren_bool d c : dashes d -> bool_flag c -> renders (SetB c true) [d ++ [c]]
| ren_bool_eq d c t v : dashes d -> bool_flag c -> bool_word t v -> renders (SetB c v) [d ++ c :: x3d :: t].

(* where the flags end *)
Inductive stops : list bytes -> Prop :=
| stop_end : stops []
| stop_dashes rest : stops (str "--" :: rest)
| stop_dash rest : stops (str "-" :: rest)
| stop_word a rest : (forall r, a <> x2d :: r) -> stops (a :: rest).

(* what comes after the dashes: an "=" at the first position is part of the name *)
Definition eq_free (s : bytes) : Prop := ~ In x3d s.
Inductive names (name : bytes) : bytes -> option bytes -> Prop :=
| names_bare : eq_free (tl name) -> names name name None
| names_eq n v : n <> [] -> eq_free (tl n) -> name = n ++ x3d :: v -> names name n (Some v).

Inductive malformed : list bytes -> Prop :=
| mal_eq d r rest : dashes d -> malformed ((d ++ x3d :: r) :: rest)
| mal_dashes r rest : malformed ((str "---" ++ r) :: rest)
| mal_unknown d s n v rest : dashes d -> s <> [] -> (forall r, s <> x2d :: r /\ s <> x3d :: r) -> names s n v ->
    (forall c, n = [c] -> ~ string_flag c /\ ~ bool_flag c) -> malformed ((d ++ s) :: rest)
| mal_bool d c t rest : dashes d -> bool_flag c -> (forall v, ~ bool_word t v) -> malformed ((d ++ c :: x3d :: t) :: rest)
| mal_missing d c : dashes d -> string_flag c -> malformed [d ++ [c]].

(* the last setting of a flag counts *)
Definition string_value (c : byte) (ss : list setting) : bytes :=
  fold_left (fun v s => match s with SetS c' v' => if beqb c' c then v' else v | SetB _ _ => v end) ss [].
Definition bool_value (c : byte) (ss : list setting) : bool :=
  fold_left (fun v s => match s with SetB c' v' => if beqb c' c then v' else v | SetS _ _ => v end) ss false.

(* a command line: settings, then the rest *)
Definition command_line (ss : list setting) (args rest : list bytes) : Prop :=
  exists argss, Forall2 renders ss argss /\ args = concat argss ++ rest.

(* an absolute path is given by its component names, each written after a slash; a plain name is not
   empty, has no slash and is not one of the two special names *)
Definition plain_name (c : bytes) : Prop := c <> [] /\ ~ In x2f c /\ c <> str "." /\ c <> str "..".
Definition rooted (cs : list bytes) : bytes := concat (map (fun c => x2f :: c) cs).

(* ---- what the command does: it runs m and then prints something; the exit status is m's outcome *)
Definition is_text (e : event) : Prop := match e with EvOut _ | EvErr _ => True | _ => False end.

(* running m, then printing something *)
Definition acts (m : M unit) (w : world) (n : Z) (w' : world) : Prop :=
  exists r w1 outs, m w = (r, w1) /\ w_fs w' = w_fs w1 /\ w_log w' = w_log w1 ++ outs /\ Forall is_text outs /\
    (n = 0 <-> r = Ok tt) /\ (n = 1 <-> exists e, r = Err e) /\ (n = 2 <-> r = Panic) /\
    ((exists e, r = Err e) -> exists t, outs = [EvErr t]).

(* the name of a key file: as given, or <base><ext> if none is given and there is a base *)
Definition or_default (v base ext : bytes) : bytes := match v, base with [], _ :: _ => base ++ ext | _, _ => v end.
