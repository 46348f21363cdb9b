(* Go's encoding/base64, StdEncoding (RFC 4648 alphabet, '=' padding, not
   strict), as in the Go distribution (go 1.12 and later): Encode, EncodedLen,
   Decode, DecodeString.  Used by base64/coding.go:32-33,55,96,122 and
   signify/common.go:43,52-53. *)
From Verif Require Export Go.

(* const encodeStd *)
Definition encodeStd : bytes :=
  str "ABCDEFGHIJKLMNOPQRSTUVWXYZabcdefghijklmnopqrstuvwxyz0123456789+/".
Definition padChar : byte := x3d.

(* enc.encode[v] *)
Definition enc_char (v : Z) : byte := nth (Z.to_nat (Z.land v 63)) encodeStd x00.

(* EncodedLen(n) = (n+2)/3*4 *)
Definition EncodedLen (n : Z) : Z := (n + 2) / 3 * 4.
(* DecodedLen(n) = n/4*3 *)
Definition DecodedLen (n : Z) : Z := n / 4 * 3.

(* Encode: three bytes at a time,
   val := uint(src[0])<<16 | uint(src[1])<<8 | uint(src[2]), then four 6-bit
   groups; remainder of 1 or 2 bytes padded. *)
Definition val3 (a b c : byte) : Z :=
  Z.lor (Z.lor (Z.shiftl (b2z a) 16) (Z.shiftl (b2z b) 8)) (b2z c).

Fixpoint StdEncode (src : bytes) : bytes :=
  match src with
  | a :: b :: c :: r =>
      let v := val3 a b c in
      enc_char (Z.shiftr v 18) :: enc_char (Z.shiftr v 12) ::
      enc_char (Z.shiftr v 6) :: enc_char v :: StdEncode r
  | [a; b] =>
      let v := val3 a b x00 in
      [enc_char (Z.shiftr v 18); enc_char (Z.shiftr v 12); enc_char (Z.shiftr v 6); padChar]
  | [a] =>
      let v := val3 a x00 x00 in
      [enc_char (Z.shiftr v 18); enc_char (Z.shiftr v 12); padChar; padChar]
  | [] => []
  end.

(* enc.decodeMap[c]; None stands for 0xff *)
Fixpoint index_of (c : byte) (l : bytes) (i : Z) : option Z :=
  match l with
  | [] => None
  | x :: r => if beqb x c then Some i else index_of c r (i + 1)
  end.
Definition decodeMap (c : byte) : option Z := index_of c encodeStd 0.

Definition is_nl (c : byte) : bool := beqb c x0a || beqb c x0d.

Fixpoint skip_nl (src : bytes) : bytes :=
  match src with
  | c :: r => if is_nl c then skip_nl r else src
  | [] => []
  end.

(* outcome of decodeQuantum: rest of the source, decoded bytes (dlen-1 of them),
   error *)
Inductive quantum := Quantum (rest : bytes) (out : bytes) (e : option error).

(* "Convert 4x 6bit source bytes into 3 bytes" *)
Definition val4 (d : list Z) : Z :=
  Z.lor (Z.lor (Z.lor (Z.shiftl (nth 0 d 0) 18) (Z.shiftl (nth 1 d 0) 12))
               (Z.shiftl (nth 2 d 0) 6)) (nth 3 d 0).
Definition quantum_out (d : list Z) (dlen : nat) : bytes :=
  firstn (dlen - 1) [z2b (Z.shiftr (val4 d) 16); z2b (Z.shiftr (val4 d) 8); z2b (val4 d)].

(* The loop of decodeQuantum; [d] holds the j = length d characters decoded so
   far in this quantum.  [len] is len(src) of the whole source, of which [src] is
   still to be read, so that the index si of the first character of a rest l is
   len - length l. *)
Definition index_at (len : Z) (l : bytes) : Z := len - Z.of_nat (length l).
Fixpoint decodeQuantum (len : Z) (d : list Z) (src : bytes) : quantum :=
  match src with
  | [] =>
      match d with
      | [] => Quantum [] [] None                      (* j == 0 *)
      | _ => Quantum [] [] (Some (CorruptInput (index_at len [] - Z.of_nat (length d))))  (* si - j: padding is required *)
      end
  | c :: r =>
      match decodeMap c with
      | Some v =>
          let d' := d ++ [v] in
          if (length d' =? 4)%nat then Quantum r (quantum_out d' 4) None
          else decodeQuantum len d' r
      | None =>
          if is_nl c then decodeQuantum len d r
          else if negb (beqb c padChar) then Quantum r [] (Some (CorruptInput (index_at len r - 1)))
          else match length d with
               | 0%nat | 1%nat => Quantum r [] (Some (CorruptInput (index_at len r - 1)))
               | 2%nat =>
                   match skip_nl r with
                   | [] => Quantum [] [] (Some (CorruptInput len))
                   | c2 :: r2 =>
                       if negb (beqb c2 padChar) then Quantum (c2 :: r2) [] (Some (CorruptInput (index_at len (c2 :: r2) - 1)))
                       else let r3 := skip_nl r2 in
                            Quantum r3 (quantum_out d 2)
                              (match r3 with [] => None | _ => Some (CorruptInput (index_at len r3)) end)
                   end
               | _ =>
                   let r3 := skip_nl r in
                   Quantum r3 (quantum_out d 3)
                     (match r3 with [] => None | _ => Some (CorruptInput (index_at len r3)) end)
               end
      end
  end.

(* Decode(dst, src) with len(dst) = room: loop over quanta.  The assemble64 /
   assemble32 fast paths compute the same bytes and are not modelled separately
   (they also scribble zeros after the decoded bytes, inside dst).  Storing a
   decoded byte outside dst panics (index out of range).  Result: decoded bytes
   (n of them) and error.  Every quantum consumes at least one character, so the
   fuel [length src] given by [StdDecode] is enough (proved in
   GoBase64Facts.v); running out would be reported as a panic. *)
Fixpoint decode_loop (len : Z) (fuel : nat) (room : Z) (src : bytes) (acc : bytes) : rres :=
  match src with
  | [] => RRet acc None
  | _ =>
    match fuel with
    | O => RPanic
    | S k =>
        match decodeQuantum len [] src with
        | Quantum rest out e =>
            if room <? Z.of_nat (length out) then RPanic
            else match e with
                 | Some _ => RRet (acc ++ out) e
                 | None => decode_loop len k (room - Z.of_nat (length out)) rest (acc ++ out)
                 end
        end
    end
  end.

Definition StdDecode (room : Z) (src : bytes) : rres :=
  decode_loop (Z.of_nat (length src)) (length src) room src [].

(* DecodeString: dst has DecodedLen(len(s)) bytes; (dbuf[:n], err) *)
Definition DecodeString (s : bytes) : res bytes :=
  match StdDecode (DecodedLen (Z.of_nat (length s))) s with
  | RRet b None => Ok b
  | RRet _ (Some e) => Err e
  | RPanic => Panic
  end.
