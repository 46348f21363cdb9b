(* Specification of RFC 4648 base64 and of the 72-column line format, written
   from the RFC and independent of the model: the text of a byte string is its
   bit string cut into 6-bit groups. *)
From Verif Require Export Go.

(* bits of a byte, most significant first *)
Definition bits_of_byte (b : byte) : list bool :=
  map (fun i => Z.testbit (b2z b) i) [7; 6; 5; 4; 3; 2; 1; 0].
Definition bits_of (l : bytes) : list bool := flat_map bits_of_byte l.

(* value of a bit string, most significant bit first *)
Definition bits_value (l : list bool) : Z :=
  fold_left (fun acc b => 2 * acc + Z.b2z b) l 0.

(* 6-bit groups, the last one filled up with zero bits *)
Fixpoint groups6 (l : list bool) : list Z :=
  match l with
  | [] => []
  | [a] => [bits_value [a; false; false; false; false; false]]
  | [a; b] => [bits_value [a; b; false; false; false; false]]
  | [a; b; c] => [bits_value [a; b; c; false; false; false]]
  | [a; b; c; d] => [bits_value [a; b; c; d; false; false]]
  | [a; b; c; d; e] => [bits_value [a; b; c; d; e; false]]
  | a :: b :: c :: d :: e :: f :: r => bits_value [a; b; c; d; e; f] :: groups6 r
  end.

(* RFC 4648, table 1 *)
Definition spec_char (v : Z) : byte :=
  if v <? 26 then z2b (65 + v)            (* A-Z *)
  else if v <? 52 then z2b (97 + (v - 26)) (* a-z *)
  else if v <? 62 then z2b (48 + (v - 52)) (* 0-9 *)
  else if v =? 62 then x2b                 (* + *)
  else x2f.                                (* / *)

Definition pad_to_4 (t : bytes) : bytes :=
  t ++ repeat x3d ((4 - length t mod 4) mod 4)%nat.

Definition spec_base64 (x : bytes) : bytes :=
  pad_to_4 (map spec_char (groups6 (bits_of x))).

(* blocks of 54 bytes and a last, shorter, possibly empty one *)
Fixpoint blocks54 (fuel : nat) (x : bytes) : list bytes :=
  match fuel with
  | O => [x]
  | S k => if (length x <? 54)%nat then [x] else firstn 54 x :: blocks54 k (skipn 54 x)
  end.

(* what an encoder should deliver for the data x: one line of base64 text per
   block (54 bytes make 72 characters) *)
Definition spec_encoded (x : bytes) : bytes :=
  flat_map (fun b => spec_base64 b ++ [x0a]) (blocks54 (length x) x).

(* lines of a text: maximal newline-free runs, in order *)
Fixpoint lines_acc (cur : bytes) (t : bytes) : list bytes :=
  match t with
  | [] => [rev cur]
  | c :: r => if beqb c x0a then rev cur :: lines_acc [] r else lines_acc (c :: cur) r
  end.
Definition lines (t : bytes) : list bytes := lines_acc [] t.

(* text without newlines / without CR and LF *)
Definition no_lf (t : bytes) : bytes := filter (fun c => negb (beqb c x0a)) t.
Definition no_crlf (t : bytes) : bytes :=
  filter (fun c => negb (beqb c x0a || beqb c x0d)) t.

(* characters of the alphabet *)
Definition is_alpha (c : byte) : bool :=
  let z := b2z c in
  ((65 <=? z) && (z <=? 90)) || ((97 <=? z) && (z <=? 122)) ||
  ((48 <=? z) && (z <=? 57)) || (z =? 43) || (z =? 47).

(* a line followed by a non-empty line is full *)
Fixpoint only_last_short (ls : list bytes) : Prop :=
  match ls with
  | a :: (b :: _) as r => (b <> [] -> length a = 72%nat) /\ only_last_short r
  | _ => True
  end.

(* A writer is honest for an observation of its output if every call appends a
   prefix of its argument, and all of it unless it reports an error. *)
Definition honest {S} (obs : S -> bytes) (wr : Writer S) : Prop :=
  forall p s n e s', wr p s = ((n, e), s') ->
    exists q r, p = q ++ r /\ obs s' = obs s ++ q /\ (e = None -> r = []).

(* a writer that never reports an error *)
Definition never_fails {S} (wr : Writer S) : Prop := forall p s, snd (fst (wr p s)) = None.

(* cutting x into pieces of the given sizes *)
Fixpoint cut (sizes : list nat) (x : bytes) : list bytes :=
  match sizes with
  | [] => []
  | n :: r => firstn n x :: cut r (skipn n x)
  end.
