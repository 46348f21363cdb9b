(* Property theorems for the data file format (C09-C11). *)
From Verif Require Import DataFileFacts.

(* C09 *)
Theorem C09_round_trip : forall comment data,
  has_prefix (str "untrusted comment: ") comment = true -> lf_free comment ->
  Z.of_nat (length comment) <= 65535 -> Z.of_nat (length data) <= 49149 ->
  exists com, readDataFileBytes (dataFileBytes comment data) = Ok (DataFile com data).
Proof. exact data_file_round_trip. Qed.
Print Assumptions C09_round_trip.

Example C09_instance :
  dataFileBytes (str "untrusted comment: k") (str "payload") =
    str "untrusted comment: k" ++ [x0a] ++ str "cGF5bG9hZA==" ++ [x0a] /\
  readDataFileBytes (str "untrusted comment: k" ++ [x0a] ++ str "cGF5bG9hZA==" ++ [x0a]) =
    Ok (DataFile (str "k") (str "payload")).
Proof. split; vm_compute; reflexivity. Qed.

(* C10 *)
Theorem C10_payload_line : forall cs line tl,
  Forall comment_line cs -> lf_free line -> has_prefix (str "untrusted comment: ") line = false ->
  Z.of_nat (length line) <= 65535 -> line_end line tl ->
  exists com, readDataFileBytes (concat (map (fun c => c ++ [x0a]) cs) ++ line ++ tl) =
    match DecodeString (without_cr line) with
    | Ok d => Ok (DataFile com d)
    | Err e => Err e
    | Panic => Panic
    end.
Proof. exact payload_line. Qed.
Print Assumptions C10_payload_line.

Theorem C10_only_comments : forall cs, Forall comment_line cs -> cs <> [] ->
  readDataFileBytes (concat (map (fun c => c ++ [x0a]) cs)) = Err (CorruptInput 9).
Proof. exact only_comments. Qed.
Print Assumptions C10_only_comments.

Example C10_instance :
  comment_line (str "untrusted comment: a") /\
  readDataFileBytes (str "untrusted comment: a" ++ [x0a] ++ str "untrusted comment: b" ++ [x0a] ++
                     str "QUJD" ++ [x0a] ++ str "**") = Ok (DataFile (str "ab") (str "ABC")).
Proof.
  split; [|vm_compute; reflexivity].
  split; [|split; [reflexivity|vm_compute; discriminate]].
  unfold lf_free. vm_compute. intuition discriminate.
Qed.

(* C11 *)
Theorem C11_total : forall data, readDataFileBytes data <> Panic.
Proof. exact data_file_total. Qed.
Print Assumptions C11_total.

Theorem C11_long_line : forall line tl,
  lf_free line -> Z.of_nat (length line) > 65535 -> line_end line tl ->
  readDataFileBytes (line ++ tl) = Ok (DataFile [] []).
Proof. exact data_file_long_line. Qed.
Print Assumptions C11_long_line.

Example C11_instance : exists line,
  lf_free line /\ Z.of_nat (length line) > 65535 /\ line_end line [x0a].
Proof.
  exists (repeat x41 (Z.to_nat 65536)). split; [|split].
  - intro H. apply repeat_spec in H. discriminate.
  - rewrite repeat_length, Z2Nat.id; lia.
  - right. exists []. reflexivity.
Qed.
