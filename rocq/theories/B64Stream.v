(* Package base64: base64/coding.go.  Definitions only. *)
From Verif Require Export GoBase64.

(* coding.go:9-12 *)
Definition decodedSize : Z := 54.
(* declared, not used by the package *)
Definition encodedSize : Z := 72.

(* Encoder (coding.go:16-21) without the field w, the underlying writer, which
   is passed separately; its state of type S travels beside the encoder's. *)
Record enc := Enc { e_line : Z; e_buf : bytes; e_index : nat }.

(* NewEncoder (coding.go:23-28): buf: make([]byte, 3) *)
Definition NewEncoder : enc := Enc 0 [x00; x00; x00] 0.

(* w.buf[:k] *)
Definition enc_pending (e : enc) : bytes := firstn (e_index e) (e_buf e).

(* Encoder.Close (coding.go:30-44) *)
Definition enc_close {S} (wr : Writer S) (es : enc * S) : option error * (enc * S) :=
  let '(e, s) := es in
  if (0 <? e_index e)%nat then
    let out := StdEncode (enc_pending e) in
    let '((_, err), s) := wr out s in
    match err with
    | Some x => (Some x, (e, s))
    | None =>
        let e := Enc 0 (e_buf e) 0 in
        let '((_, err), s) := wr [x0a] s in
        (err, (e, s))
    end
  else
    let '((_, err), s) := wr [x0a] s in
    (err, (e, s)).

(* the loop of Encoder.Write (coding.go:50-74) *)
Fixpoint enc_write_loop {S} (wr : Writer S) (p : bytes) (written : Z) (e : enc) (s : S)
  : (Z * option error) * (enc * S) :=
  match p with
  | [] => ((written, None), (e, s))
  | b :: r =>
      let buf := set_nth (e_index e) b (e_buf e) in
      let index := (e_index e + 1)%nat in
      if (index =? 3)%nat then
        let out := StdEncode buf in
        let '((_, err), s) := wr out s in
        match err with
        | Some x => ((written, Some x), (Enc (e_line e) buf 0, s))
        | None =>
            let line := e_line e + 3 in
            let buf := [x00; x00; x00] in
            if line =? decodedSize then
              let '((_, err), s) := wr [x0a] s in
              match err with
              | Some x => ((written, Some x), (Enc line buf 0, s))
              | None => enc_write_loop wr r (written + 3) (Enc 0 buf 0) s
              end
            else enc_write_loop wr r (written + 3) (Enc line buf 0) s
        end
      else enc_write_loop wr r written (Enc (e_line e) buf index) s
  end.

(* Encoder.Write (coding.go:46-77) *)
Definition enc_write {S} (wr : Writer S) : Writer (enc * S) :=
  fun p es => enc_write_loop wr p 0 (fst es) (snd es).

(* Decoder.Read (coding.go:95-123).  The for loop may in principle run for ever
   (an endless supply of newlines), so the model has fuel; see [dec_read].
   c is the one-byte buffer reused for all reads, buf what was appended so far. *)
Fixpoint dec_loop {S} (fuel : nat) (rd : Reader S) (enclen : Z) (c : byte) (n : Z) (buf : bytes) (s : S)
  : option (res bytes) * S :=
  if n =? enclen then (Some (Ok buf), s)
  else match fuel with
  | O => (None, s)
  | Datatypes.S fuel =>
      match rd 1%nat s with
      | (RPanic, s) => (Some Panic, s)
      | (RRet got err, s) =>
          let c := match got with x :: _ => x | [] => c end in
          match err with
          | Some EOF => (Some (Ok buf), s)
          | Some e => (Some (Err e), s)
          | None =>
              if beqb c x0a then dec_loop fuel rd enclen c n buf s
              else dec_loop fuel rd enclen c (n + 1) (buf ++ [c]) s
          end
      end
  end.

(* Decoder.Read(p) with len(p) = n.  [fuel s] bounds the number of one-byte
   reads; the instances used below never run out (a run-out would show up as
   RPanic, and the absence of panics is proved). *)
Definition dec_read {S} (fuel : S -> Z -> nat) (rd : Reader S) : Reader S := fun n s =>
  let enclen := EncodedLen (Z.of_nat n) in
  match dec_loop (fuel s enclen) rd enclen x00 0 [] s with
  | (None, s) => (RPanic, s)
  | (Some Panic, s) => (RPanic, s)
  | (Some (Err e), s) => (RRet [] (Some e), s)
  | (Some (Ok buf), s) => (StdDecode (Z.of_nat n) buf, s)
  end.

(* ---- underlying readers and writers used in statements ---- *)

(* A scripted byte source: what successive one-byte reads do; after the script
   every read reports io.EOF.  Covers every behaviour the io.Reader contract
   allows for a one-byte buffer. *)
Inductive r1 :=
| RByte (b : byte)         (* (1, nil) *)
| RByteErr (b : byte) (e : error)  (* (1, err) *)
| RZero                    (* (0, nil) *)
| RErr (e : error).        (* (0, err) *)

Definition script_read : Reader (list r1) := fun _ l =>
  match l with
  | [] => (RRet [] (Some EOF), [])
  | RByte b :: r => (RRet [b] None, r)
  | RByteErr b e :: r => (RRet [b] (Some e), r)
  | RZero :: r => (RRet [] None, r)
  | RErr e :: r => (RRet [] (Some e), r)
  end.
Definition script_fuel (l : list r1) (enclen : Z) : nat := S (length l).
Definition dec_read_script : Reader (list r1) := dec_read script_fuel script_read.

(* bytes.Buffer as a writer: never fails *)
Definition buffer_write : Writer bytes := fun p s => ((Z.of_nat (length p), None), s ++ p).

(* A writer whose calls fail according to a schedule: [Some (k, e)] accepts the
   first k bytes and then returns e; after the schedule nothing fails. *)
Definition failing_write : Writer (bytes * list (option (nat * error))) := fun p s =>
  match snd s with
  | [] => ((Z.of_nat (length p), None), (fst s ++ p, []))
  | None :: r => ((Z.of_nat (length p), None), (fst s ++ p, r))
  | Some (k, e) :: r =>
      ((Z.of_nat (length (firstn k p)), Some e), (fst s ++ firstn k p, r))
  end.

(* ---- clients ---- *)
(* Write the segments in order, stopping at the first error *)
Fixpoint write_all {S} (wr : Writer S) (segs : list bytes) (es : enc * S) : option error * (enc * S) :=
  match segs with
  | [] => (None, es)
  | p :: r =>
      match enc_write wr p es with
      | ((_, Some e), es) => (Some e, es)
      | ((_, None), es) => write_all wr r es
      end
  end.
(* a fresh encoder, the segments, then Close *)
Definition encode_session {S} (wr : Writer S) (segs : list bytes) (s : S) : option error * S :=
  match write_all wr segs (NewEncoder, s) with
  | (Some e, (_, s)) => (Some e, s)
  | (None, es) => let '(e, es) := enc_close wr es in (e, snd es)
  end.

(* successive reads with buffers of the given sizes *)
Fixpoint read_seq {S} (rd : Reader S) (sizes : list nat) (s : S) : list rres :=
  match sizes with
  | [] => []
  | n :: r => let '(x, s) := rd n s in x :: read_seq rd r s
  end.

(* the segments on an existing encoder, then Close *)
Definition session_on {S} (wr : Writer S) (segs : list bytes) (es : enc * S) : option error * (enc * S) :=
  match write_all wr segs es with
  | (Some e, es) => (Some e, es)
  | (None, es) => enc_close wr es
  end.

(* schedule: the 18 quanta of a first line are accepted, the newline is refused with x *)
Definition newline_refused (x : error) : list (option (nat * error)) := repeat None 18 ++ [Some (0%nat, x)].
