(* Go's flag package as used by cmd/psignify/main.go:59-71: FlagSet.parseOne and
   Parse of flag.CommandLine with the flags defined there.  Definitions only. *)
From Verif Require Export Go.

(* the variables of main (main.go:46-57) *)
Record flags := Flags {
  f_c : bytes; f_m : bytes; f_p : bytes; f_s : bytes; f_x : bytes;
  f_n : bool; f_D : bool; f_E : bool; f_G : bool; f_S : bool; f_V : bool
}.
Definition noFlags : flags := Flags [] [] [] [] [] false false false false false false.

Inductive flagKind := KString | KBool | KUnknown.

(* the formal flags (main.go:59-70) *)
Definition kindOf (name : bytes) : flagKind :=
  match name with
  | [c] =>
      if existsb (beqb c) (str "cmpsx") then KString
      else if existsb (beqb c) (str "nDEGSV") then KBool
      else KUnknown
  | _ => KUnknown
  end.

Definition setString (name value : bytes) (f : flags) : flags :=
  let '(Flags c m p s x n aD aE aG aS aV) := f in
  if bytes_eqb name (str "c") then Flags value m p s x n aD aE aG aS aV
  else if bytes_eqb name (str "m") then Flags c value p s x n aD aE aG aS aV
  else if bytes_eqb name (str "p") then Flags c m value s x n aD aE aG aS aV
  else if bytes_eqb name (str "s") then Flags c m p value x n aD aE aG aS aV
  else Flags c m p s value n aD aE aG aS aV.

Definition setBool (name : bytes) (v : bool) (f : flags) : flags :=
  let '(Flags c m p s x n aD aE aG aS aV) := f in
  if bytes_eqb name (str "n") then Flags c m p s x v aD aE aG aS aV
  else if bytes_eqb name (str "D") then Flags c m p s x n v aE aG aS aV
  else if bytes_eqb name (str "E") then Flags c m p s x n aD v aG aS aV
  else if bytes_eqb name (str "G") then Flags c m p s x n aD aE v aS aV
  else if bytes_eqb name (str "S") then Flags c m p s x n aD aE aG v aV
  else Flags c m p s x n aD aE aG aS v.

(* strconv.ParseBool *)
Definition ParseBool (s : bytes) : option bool :=
  if existsb (bytes_eqb s) [str "1"; str "t"; str "T"; str "true"; str "TRUE"; str "True"] then Some true
  else if existsb (bytes_eqb s) [str "0"; str "f"; str "F"; str "false"; str "FALSE"; str "False"] then Some false
  else None.

(* "for i := 1; i < len(name); i++ { if name[i] == '=' ..": the name and the
   value after the first '=' that is not at position 0 *)
Fixpoint split_eq (s : bytes) : bytes * option bytes :=
  match s with
  | [] => ([], None)
  | c :: r => if beqb c x3d then ([], Some r)
              else let '(n, v) := split_eq r in (c :: n, v)
  end.
Definition split_name (name : bytes) : bytes * option bytes :=
  match name with
  | [] => ([], None)
  | c :: r => let '(n, v) := split_eq r in (c :: n, v)
  end.

(* Result of parseOne: no more flags (with the remaining arguments), a flag was
   set, or failf/usage was called; the message goes to standard error ([] for
   -help, which only prints the usage). *)
Inductive one :=
| Stop (rest : list bytes)
| More (f : flags) (rest : list bytes)
| Bad (msg : bytes).

(* strconv.Quote, as %q uses it, on characters below 127.  Simplified: 127 and the bytes from 128 on stay as they
   are; Go shows them, or escapes for them, depending on what UTF-8 makes of them *)
Definition hexDigit (n : Z) : byte := nth (Z.to_nat n) (str "0123456789abcdef") x00.
Definition quoteByte (b : byte) : bytes :=
  let fix named (l m : bytes) : bytes :=
    match l, m with
    | c :: l, e :: m => if beqb b c then [x5c; e] else named l m
    | _, _ => if b2z b <? 32 then [x5c; x78; hexDigit (b2z b / 16); hexDigit (b2z b mod 16)] else [b]
    end in
  named [x07; x08; x0c; x0a; x0d; x09; x0b; x22; x5c] (str "abfnrtv" ++ [x22; x5c]).
Definition Quote (s : bytes) : bytes := [x22] ++ concat (map quoteByte s) ++ [x22].

(* [s] is the whole argument, [name] what follows its dashes *)
Definition parseFlag (s name : bytes) (rest : list bytes) (f : flags) : one :=
  match name with
  | [] => Bad (str "bad flag syntax: " ++ s ++ [x0a])
  | c :: _ =>
      if beqb c x2d || beqb c x3d then Bad (str "bad flag syntax: " ++ s ++ [x0a])
      else
        let '(name, value) := split_name name in
        match kindOf name with
        | KUnknown =>
            if bytes_eqb name (str "help") || bytes_eqb name (str "h") then Bad []
            else Bad (str "flag provided but not defined: -" ++ name ++ [x0a])
        | KBool =>
            match value with
            | None => More (setBool name true f) rest
            | Some v => match ParseBool v with
                        | Some b => More (setBool name b f) rest
                        | None => Bad (str "invalid boolean value " ++ Quote v ++
                                       str " for -" ++ name ++ str ": parse error" ++ [x0a])
                        end
            end
        | KString =>
            match value with
            | Some v => More (setString name v f) rest
            | None => match rest with
                      | v :: rest => More (setString name v f) rest
                      | [] => Bad (str "flag needs an argument: -" ++ name ++ [x0a])
                      end
            end
        end
  end.

Definition parseOne (args : list bytes) (f : flags) : one :=
  match args with
  | [] => Stop []
  | s :: rest =>
      match s with
      | c :: c2 :: r =>
          if negb (beqb c x2d) then Stop args
          else if beqb c2 x2d
               then match r with [] => Stop rest | _ => parseFlag s r rest f end
               else parseFlag s (c2 :: r) rest f
      | _ => Stop args
      end
  end.

(* FlagSet.Parse: parseOne until it stops; every step consumes an argument *)
Inductive parsed := Parsed (f : flags) (rest : list bytes) | Malformed (msg : bytes).
Fixpoint parseArgs (fuel : nat) (args : list bytes) (f : flags) : parsed :=
  match fuel with
  | O => Parsed f args
  | S fuel =>
      match parseOne args f with
      | Stop rest => Parsed f rest
      | Bad msg => Malformed msg
      | More f rest => parseArgs fuel rest f
      end
  end.
Definition flagParse (args : list bytes) : parsed := parseArgs (S (length args)) args noFlags.
