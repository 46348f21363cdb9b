(* Property theorems for package base64 (C01-C08, C56). *)
From Verif Require Import B64StreamFacts EncReuse.

(* C01 *)
Theorem C01_encoder_output : forall (S : Type) (obs : S -> bytes) (wr : Writer S) segs s,
  honest obs wr -> never_fails wr ->
  exists s', encode_session wr segs s = (None, s') /\
             obs s' = obs s ++ spec_encoded (concat segs).
Proof. exact @encoder_output. Qed.
Print Assumptions C01_encoder_output.

Theorem C01_encoder_output_nil : forall (S : Type) (obs : S -> bytes) (wr : Writer S) segs s s',
  honest obs wr -> encode_session wr segs s = (None, s') ->
  obs s' = obs s ++ spec_encoded (concat segs).
Proof. exact @encoder_output_nil. Qed.
Print Assumptions C01_encoder_output_nil.

Example C01_instance : honest (fun s => s) buffer_write /\ never_fails buffer_write /\
  encode_session buffer_write [str "Hello"; []; str ", w"; str "orld"] [] =
  (None, str "SGVsbG8sIHdvcmxk" ++ [x0a]).
Proof. split; [exact buffer_honest|]. split; [intros p s; reflexivity|]. vm_compute. reflexivity. Qed.

(* C02 *)
Theorem C02_encoder_lines : forall segs t,
  encode_session buffer_write segs [] = (None, t) ->
  Forall (fun l => length l <= 72)%nat (lines t) /\ only_last_short (lines t) /\
  no_lf t = spec_base64 (concat segs).
Proof. exact encoder_lines. Qed.
Print Assumptions C02_encoder_lines.

Example C02_instance :
  map (@length byte) (lines (snd (encode_session buffer_write [repeat x41 60; repeat x42 60] [])))
  = [72; 72; 16; 0]%nat /\ fst (encode_session buffer_write [repeat x41 60; repeat x42 60] []) = None.
Proof. vm_compute. split; reflexivity. Qed.

(* C03 *)
Theorem C03_encode_decode : forall segs t sizes,
  encode_session buffer_write segs [] = (None, t) ->
  Forall (fun n => n mod 3 = 0)%nat sizes ->
  read_seq dec_read_script sizes (map RByte t) =
    map (fun b => RRet b None) (cut sizes (concat segs)) /\
  concat (cut sizes (concat segs)) = firstn (list_sum sizes) (concat segs).
Proof. exact encode_decode. Qed.
Print Assumptions C03_encode_decode.

Example C03_instance :
  read_seq dec_read_script [3; 6; 3]%nat (map RByte (snd (encode_session buffer_write [str "Hell"; str "o, me"] []))) =
  [RRet (str "Hel") None; RRet (str "lo, me") None; RRet [] None].
Proof. vm_compute. reflexivity. Qed.

(* C04 *)
Theorem C04_decoder_no_panic : forall n l, (n mod 3 = 0)%nat -> fst (dec_read_script n l) <> RPanic.
Proof. exact dec_read_total3. Qed.
Print Assumptions C04_decoder_no_panic.

Theorem C04_other_sizes_refuted : forall n, (n mod 3 <> 0)%nat ->
  exists x, fst (dec_read_script n (map RByte (spec_encoded x))) = RPanic.
Proof. exact dec_read_panics. Qed.
Print Assumptions C04_other_sizes_refuted.

Example C04_instance : fst (dec_read_script 4%nat (map RByte (str "QUJDREVG"))) = RPanic /\
  fst (dec_read_script 6%nat [RByte x51; RZero; RByteErr x41 EOF]) = RRet [] (Some (CorruptInput 0)).
Proof. vm_compute. split; reflexivity. Qed.

(* C05 *)
Theorem C05_write_count : forall (S : Type) (wr : Writer S) segs s e s' p,
  never_fails wr -> write_all wr segs (NewEncoder, s) = (None, (e, s')) ->
  fst (enc_write wr p (e, s')) =
    (3 * ((Z.of_nat (length (concat segs) mod 3) + Z.of_nat (length p)) / 3), None).
Proof. exact @write_count. Qed.
Print Assumptions C05_write_count.

Theorem C05_write_contract_refuted :
  (exists segs p n, fst (enc_write buffer_write p (snd (write_all buffer_write segs (NewEncoder, [])))) = (n, None)
                    /\ n < Z.of_nat (length p)) /\
  (exists segs p n, fst (enc_write buffer_write p (snd (write_all buffer_write segs (NewEncoder, [])))) = (n, None)
                    /\ n > Z.of_nat (length p)).
Proof. exact write_contract_refuted. Qed.
Print Assumptions C05_write_contract_refuted.

Example C05_instance :
  fst (enc_write buffer_write (str "efgh") (snd (write_all buffer_write [str "ab"; str "cd"] (NewEncoder, [])))) = (3, None).
Proof. vm_compute. reflexivity. Qed.

(* C06 *)
Theorem C06_no_eof : forall n l b, fst (dec_read_script n l) <> RRet b (Some EOF).
Proof. exact dec_read_never_eof. Qed.
Print Assumptions C06_no_eof.

Theorem C06_at_eof : forall n, dec_read_script n [] = (RRet [] None, []).
Proof. exact dec_read_at_eof. Qed.
Print Assumptions C06_at_eof.

Example C06_instance : read_seq dec_read_script [9; 9; 9]%nat (map RByte (str "QUJDREVG")) =
  [RRet (str "ABCDEF") None; RRet [] None; RRet [] None].
Proof. vm_compute. reflexivity. Qed.

(* C07 *)
Theorem C07_failure_prefix : forall (S : Type) (obs : S -> bytes) (wr : Writer S) segs s e s',
  honest obs wr -> encode_session wr segs s = (e, s') ->
  exists q r, spec_encoded (concat segs) = q ++ r /\ obs s' = obs s ++ q.
Proof. exact @encoder_failure. Qed.
Print Assumptions C07_failure_prefix.

Theorem C07_error_returned : forall segs sched e t sched',
  encode_session failing_write segs ([], sched) = (Some e, (t, sched')) ->
  exists pre k, (forall x, In x pre -> x = None) /\ sched = pre ++ Some (k, e) :: sched'.
Proof. exact encoder_error. Qed.
Print Assumptions C07_error_returned.

Theorem C07_nil_means_no_failure : forall segs sched t sched',
  encode_session failing_write segs ([], sched) = (None, (t, sched')) ->
  exists pre, (forall x, In x pre -> x = None) /\ sched = pre ++ sched'.
Proof. exact encoder_ok_no_fault. Qed.
Print Assumptions C07_nil_means_no_failure.

Example C07_instance : honest fst failing_write /\
  encode_session failing_write [str "abcdef"; str "ghi"] ([], [None; Some (2%nat, EFault); None]) =
  (Some EFault, (str "YWJjZG", [None])).
Proof. split; [exact failing_honest|]. vm_compute. reflexivity. Qed.

(* C08 *)
Theorem C08_encode_rfc4648 : forall x, StdEncode x = spec_base64 x.
Proof. exact StdEncode_spec. Qed.
Print Assumptions C08_encode_rfc4648.

Theorem C08_decode_encode : forall x, DecodeString (spec_base64 x) = Ok x.
Proof. exact (fun x => eq_ind _ (fun t => DecodeString t = Ok x) (DecodeString_StdEncode x) _ (StdEncode_spec x)). Qed.
Print Assumptions C08_decode_encode.

Theorem C08_encode_injective : forall x y, StdEncode x = StdEncode y -> x = y.
Proof. exact StdEncode_inj. Qed.
Print Assumptions C08_encode_injective.

Theorem C08_newlines_ignored : forall s t, no_crlf s = no_crlf t -> forall b, DecodeString s = Ok b <-> DecodeString t = Ok b.
Proof. exact DecodeString_newlines. Qed.
Print Assumptions C08_newlines_ignored.

Theorem C08_decoded_length : forall s b, DecodeString s = Ok b ->
  length b = (length (filter is_alpha s) * 3 / 4)%nat /\ (length (no_crlf s) mod 4 = 0)%nat.
Proof. exact DecodeString_length. Qed.
Print Assumptions C08_decoded_length.

Theorem C08_canonical_refuted : exists s t b,
  s <> t /\ no_crlf s = s /\ no_crlf t = t /\ DecodeString s = Ok b /\ DecodeString t = Ok b.
Proof. exact canonical_refuted. Qed.
Print Assumptions C08_canonical_refuted.

Example C08_instance : DecodeString (str "SGVs" ++ [x0d; x0a] ++ str "bG8=") = Ok (str "Hello") /\
  DecodeString (str "SGVsbG8") = Err (CorruptInput 4).
Proof. vm_compute. split; reflexivity. Qed.

(* C56 *)
Theorem C56_reader_behaviour_refuted :
  (exists l, dec_read_script 3%nat (l ++ [RByteErr x44 EOF]) = (RRet [] (Some (CorruptInput 0)), []) /\
             dec_read_script 3%nat (l ++ [RByte x44]) = (RRet (str "ABC") None, [])) /\
  (exists l1 l2, fst (dec_read_script 6%nat (l1 ++ l2)) = RRet (str "ABCDEF") None /\
                 fst (dec_read_script 6%nat (l1 ++ RZero :: l2)) <> RRet (str "ABCDEF") None).
Proof. exact reader_behaviour_refuted. Qed.
Print Assumptions C56_reader_behaviour_refuted.

(* C59 *)
Theorem C59_second_session : forall S (obs : S -> bytes) (wr : Writer S) segs1 segs2 s, honest obs wr -> never_fails wr ->
  let x1 := concat segs1 in let x2 := concat segs2 in
  exists es1 es2 out2, session_on wr segs1 (NewEncoder, s) = (None, es1) /\ session_on wr segs2 es1 = (None, es2) /\
    obs (snd es1) = obs s ++ spec_encoded x1 /\ obs (snd es2) = obs (snd es1) ++ out2 /\
    no_lf out2 = spec_base64 x2 /\
    (x2 = [] -> out2 = [x0a]) /\
    ((length x1 mod 3 <> 0)%nat -> out2 = spec_encoded x2) /\
    ((length x1 mod 3 = 0)%nat -> exists t, spec_encoded x1 = t ++ [x0a] /\ spec_encoded (x1 ++ x2) = t ++ out2).
Proof. exact second_session. Qed.
Print Assumptions C59_second_session.

Theorem C59_fresh_line_refuted : exists x1 x2 es1 es2,
  session_on buffer_write [x1] (NewEncoder, []) = (None, es1) /\
  session_on buffer_write [x2] es1 = (None, es2) /\ snd es2 <> snd es1 ++ spec_encoded x2.
Proof. exact reuse_refuted. Qed.
Print Assumptions C59_fresh_line_refuted.

Example C59_instance : honest (fun s => s) buffer_write /\ never_fails buffer_write /\
  snd (snd (session_on buffer_write [] (snd (session_on buffer_write [str "Hello"] (NewEncoder, []))))) =
    str "SGVsbG8=" ++ [x0a; x0a].
Proof. split; [exact buffer_honest|]. split; [intros p s; reflexivity|]. vm_compute. reflexivity. Qed.

(* C60 *)
Theorem C60_no_more_breaks_refuted : forall y x z, length y = 54%nat ->
  exists es n es', enc_write failing_write y (NewEncoder, ([], newline_refused x)) = ((51, Some x), es) /\
    enc_write failing_write z es = ((n, None), es') /\
    fst (snd es') = spec_base64 (y ++ firstn (3 * (length z / 3)) z).
Proof. exact no_more_breaks. Qed.
Print Assumptions C60_no_more_breaks_refuted.

Example C60_instance : exists es n es',
  enc_write failing_write (repeat x41 54) (NewEncoder, ([], newline_refused EFault)) = ((51, Some EFault), es) /\
  enc_write failing_write (repeat x42 60) es = ((n, None), es') /\
  fst (snd es') = spec_base64 (repeat x41 54 ++ repeat x42 60).
Proof. exact (C60_no_more_breaks_refuted (repeat x41 54) EFault (repeat x42 60) eq_refl). Qed.
