(* Which texts are base64, and which files are data files, told from the text alone.
   Independent of the model. *)
From Verif Require Export SpecB64 SpecFmt.
Local Open Scope Z_scope.

(* the six bits of a digit, most significant first *)
Definition bits6 (v : Z) : list bool := map (Z.testbit v) [5; 4; 3; 2; 1; 0].

(* t is base64 text of b: digits of the alphabet, filled up with at most two '=' to a multiple of
   four characters; the bits of the digits are those of b and less than a byte of others *)
Definition base64_of (t b : bytes) : Prop :=
  exists ds pad rest,
    Forall (fun d => 0 <= d < 64) ds /\ t = map spec_char ds ++ repeat x3d pad /\ (pad <= 2)%nat /\
    (length t mod 4 = 0)%nat /\ flat_map bits6 ds = bits_of b ++ rest /\ (length rest < 8)%nat.

(* lines: l is a line of a file in which [tl] follows it *)
Definition ends_line (l tl : bytes) : Prop := (tl = [] /\ l <> []) \/ exists r, tl = x0a :: r.
Definition a_comment (l : bytes) : Prop := exists c, l = str "untrusted comment: " ++ c.
(* longer lines stop the reader *)
Definition fits (l : bytes) : Prop := Z.of_nat (length l) <= 65535.
Definition line_of (l : bytes) : bytes := l ++ [x0a].

(* the file consists of comment lines, then a line with the base64 text of d, then anything; or it is
   empty or begins with a line that is too long, and d is empty *)
Definition holds (file d : bytes) : Prop :=
  (exists cs line tl,
     file = concat (map line_of cs) ++ line ++ tl /\
     Forall (fun c => lf_free c /\ a_comment c /\ fits c) cs /\
     lf_free line /\ ~ a_comment line /\ fits line /\ ends_line line tl /\
     base64_of (no_crlf line) d) \/
  (d = [] /\ (file = [] \/ exists line tl, file = line ++ tl /\ lf_free line /\ ~ fits line /\ ends_line line tl)).

(* ---- where a text that is not base64 goes wrong ---- *)
Definition a_break (c : byte) : Prop := c = x0a \/ c = x0d.
Definition a_digit (c : byte) : Prop := exists v, 0 <= v < 64 /\ c = spec_char v.
Definition breaks (t : bytes) : Prop := Forall a_break t.
(* digits and line breaks; k of the digits are left over from the groups of four *)
Definition digits_left (t : bytes) (k : nat) : Prop :=
  Forall (fun c => a_digit c \/ a_break c) t /\ (length (no_crlf t) mod 4 = k)%nat.
Definition size (t : bytes) : Z := Z.of_nat (length t).

(* the text s is not base64, and the error points at its byte n *)
Inductive faulty_at (s : bytes) : Z -> Prop :=
(* it ends within a group: as many bytes before its end as there are digits left over *)
| FEnd k : digits_left s k -> k <> 0%nat -> faulty_at s (size s - Z.of_nat k)
(* a character that has no place in base64 *)
| FChar pre k c r : s = pre ++ c :: r -> digits_left pre k -> ~ a_digit c -> ~ a_break c -> c <> x3d ->
    faulty_at s (size pre)
(* '=' after less than two digits of a group *)
| FEarly pre k r : s = pre ++ x3d :: r -> digits_left pre k -> (k < 2)%nat -> faulty_at s (size pre)
(* two digits and one '=', and no more: the end *)
| FHalf pre nl : s = pre ++ x3d :: nl -> digits_left pre 2 -> breaks nl -> faulty_at s (size s)
(* two digits, one '=' and another character: the byte before that character *)
| FWrong pre nl c r : s = pre ++ x3d :: nl ++ c :: r -> digits_left pre 2 -> breaks nl -> ~ a_break c -> c <> x3d ->
    faulty_at s (size (pre ++ x3d :: nl) - 1)
(* anything but line breaks after the end of the last group *)
| FAfter2 pre nl nl' c r : s = pre ++ x3d :: nl ++ x3d :: nl' ++ c :: r -> digits_left pre 2 -> breaks nl -> breaks nl' ->
    ~ a_break c -> faulty_at s (size (pre ++ x3d :: nl ++ x3d :: nl'))
| FAfter1 pre nl c r : s = pre ++ x3d :: nl ++ c :: r -> digits_left pre 3 -> breaks nl -> ~ a_break c ->
    faulty_at s (size (pre ++ x3d :: nl)).

(* the file is not a data file, and the error points at byte n of the line that is decoded: the first
   that is not a comment, without the carriage return at its end; or the last comment, if the lines end
   or are too long before that, in which case it is the space after "untrusted" *)
Definition misread (file : bytes) (n : Z) : Prop :=
  (exists cs line tl,
     file = concat (map line_of cs) ++ line ++ tl /\
     Forall (fun c => lf_free c /\ a_comment c /\ fits c) cs /\
     lf_free line /\ ~ a_comment line /\ fits line /\ ends_line line tl /\
     faulty_at (without_cr line) n) \/
  (n = 9 /\ exists cs, cs <> [] /\
     Forall (fun c => lf_free c /\ a_comment c /\ fits c) cs /\
     (file ++ [x0a] = concat (map line_of cs) \/
      exists line tl, file = concat (map line_of cs) ++ line ++ tl /\ lf_free line /\
        (line = [] /\ tl = [] \/ ~ fits line /\ ends_line line tl))).

(* pf is the file of a public key, sf a file with a signature of m by that key: the key's file holds
   "Ed", a key number and a key, the signature's at least ten bytes, which continued with zeros are "Ed",
   the same number and a signature that the key verifies *)
Definition signature_text (verifies : bytes -> bytes -> bytes -> Prop) (pf m sf : bytes) : Prop :=
  exists num k s d,
    length num = 8%nat /\ length k = 32%nat /\ length s = 64%nat /\
    holds pf (str "Ed" ++ num ++ k) /\
    holds sf d /\ (10 <= length d)%nat /\ zero_extend 74 d = str "Ed" ++ num ++ s /\
    verifies k m s.

(* newlines replaced by carriage return and newline *)
Definition to_crlf (t : bytes) : bytes := flat_map (fun c => if beqb c x0a then [x0d; x0a] else [c]) t.
