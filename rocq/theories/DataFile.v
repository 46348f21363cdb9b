(* signify/common.go: the two-line "data file" format.  Definitions only. *)
From Verif Require Export GoBase64.

(* common.go:11 *)
Definition commentPrefix : bytes := str "untrusted comment: ".

(* common.go:13-16 *)
Record dataFile := DataFile { df_comment : bytes; df_data : bytes }.

(* dataFile.Encode (common.go:18-24); here df_data is already base64 text *)
Definition df_Encode (d : dataFile) : bytes :=
  df_comment d ++ [x0a] ++ df_data d ++ [x0a].

(* ---- bufio.Scanner with ScanLines, as used in common.go:31-33 ---- *)

(* Raw lines without their newline; a last line without newline counts if it is
   not empty.  [cur] is the reversed current line. *)
Fixpoint raw_lines (cur : bytes) (data : bytes) : list bytes :=
  match data with
  | [] => match cur with [] => [] | _ => [rev cur] end
  | c :: r => if beqb c x0a then rev cur :: raw_lines [] r else raw_lines (c :: cur) r
  end.

(* dropCR *)
Definition dropCR (l : bytes) : bytes :=
  match rev l with
  | c :: r => if beqb c x0d then rev r else l
  | [] => l
  end.

(* bufio.MaxScanTokenSize = 64*1024: the buffer must hold the line and its
   newline (or leave room to see the end of the input), so a raw line of more
   than 65535 bytes stops the scan (Scan returns false, ErrTooLong). *)
Definition maxLine : Z := 65535.

(* the for loop of readDataFileBytes (common.go:32-40) over the lines still to
   be scanned; state: variable line and dat.comment *)
Fixpoint scan_loop (lines : list bytes) (line comment : bytes) : bytes * bytes :=
  match lines with
  | [] => (line, comment)
  | raw :: rest =>
      if Z.of_nat (length raw) >? maxLine then (line, comment)
      else
        let line := dropCR raw in
        if has_prefix commentPrefix line
        then scan_loop rest line (comment ++ skipn (length commentPrefix) line)
        else (line, comment)
  end.

(* readDataFileBytes (common.go:26-49) *)
Definition readDataFileBytes (data : bytes) : res dataFile :=
  let '(line, comment) := scan_loop (raw_lines [] data) [] [] in
  match DecodeString line with
  | Ok d => Ok (DataFile comment d)
  | Err e => Err e
  | Panic => Panic
  end.

(* the bytes writeDataFile hands to ioutil.WriteFile (common.go:52-59) *)
Definition dataFileBytes (comment : bytes) (data : bytes) : bytes :=
  df_Encode (DataFile comment (StdEncode data)).

(* writeDataFile (common.go:51-60); 0644 = 420 *)
Definition writeDataFile (p : path) (comment data : bytes) : M unit :=
  WriteFile p (dataFileBytes comment data) 420.

(* zero (common.go:62-70): every byte XORed with itself, in place *)
Definition zero_bytes (b : bytes) : bytes := map (fun x => bxor x x) b.
Definition zero_buf (i : nat) (w : world) : world :=
  match nth_error (w_bufs w) i with
  | Some b => set_bufs w (set_nth i (zero_bytes b) (w_bufs w))
  | None => w
  end.
