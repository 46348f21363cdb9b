(* Property theorems: where the decoder says a text goes wrong (C87). *)
From Verif Require Import SpecText FaultFacts DecimalText SpecReport Cmd ReportExample PrintFacts.
Local Open Scope Z_scope.

(* the byte named in the error, for every text *)
Theorem C87_text : forall s n, DecodeString s = Err (CorruptInput n) <-> faulty_at s n.
Proof. exact fault_iff. Qed.
Print Assumptions C87_text.

(* every text is base64 or has exactly one faulty byte, which lies in it or just behind it *)
Theorem C87_either : forall s, (exists b, base64_of (no_crlf s) b) \/ exists n, faulty_at s n.
Proof. exact text_or_fault. Qed.
Print Assumptions C87_either.

Theorem C87_one : forall s n, faulty_at s n ->
  0 <= n <= size s /\ (forall m, faulty_at s m -> m = n) /\ forall b, ~ base64_of (no_crlf s) b.
Proof. exact fault_exclusive. Qed.
Print Assumptions C87_one.

(* nothing before that byte is wrong: it can be continued to a base64 text *)
Theorem C87_before : forall s n, faulty_at s n -> exists t b, base64_of (no_crlf (firstn (Z.to_nat n) s ++ t)) b.
Proof. exact fault_before. Qed.
Print Assumptions C87_before.

Example C87_text_instance :
  faulty_at (str "QUJDRE") 4 /\ faulty_at (str "QUJD!") 4 /\ faulty_at (str "Q===") 1 /\ faulty_at (str "QQ=" ++ [x0a]) 4 /\
  faulty_at (str "QQ=" ++ [x0a; x0a] ++ str "Q") 4 /\ faulty_at (str "QQ==" ++ [x0a] ++ str "Q") 5 /\ faulty_at (str "QUI=Q") 4 /\
  faulty_at (str "QU" ++ [x0a] ++ str "J") 1.
Proof. exact example_faults. Qed.

(* key and signature files *)
Theorem C87_file : forall file n, readDataFileBytes file = Err (CorruptInput n) <-> misread file n.
Proof. exact data_file_fault. Qed.
Print Assumptions C87_file.

Theorem C87_file_either : forall file, (exists d, holds file d) \/ exists n, misread file n.
Proof. exact held_or_misread. Qed.
Print Assumptions C87_file_either.

Example C87_file_instance :
  misread (str "hello") 4 /\ misread (str "untrusted comment: c" ++ [x0a] ++ str "QUJDR" ++ [x0d; x0a]) 4 /\
  misread (str "untrusted comment: c" ++ [x0a]) 9 /\ misread (str "untrusted comment: c") 9 /\
  misread (str "Untrusted comment: c" ++ [x0a] ++ str "QUJD" ++ [x0a]) 9.
Proof. exact example_misread. Qed.

(* what is printed of such an error, and of a file that does not exist *)
Theorem C87_message : forall e t, error_text e t -> errText e = t.
Proof. exact PrintFacts.shown_errText. Qed.
Print Assumptions C87_message.

Example C87_message_instance :
  w_log (snd (main toy (str "psignify") None sign_args (two (str "untrusted comment: k" ++ [x0a] ++ str "QUJDR" ++ [x0a]) []))) =
    [EvErr (str "Signing m failed: illegal base64 data at input byte 4" ++ [x0a])] /\
  w_log (snd (main toy (str "psignify") None sign_args (start [(str "m", str "hello")] [] []))) =
    [EvErr (str "Signing m failed: open k.sec: no such file or directory" ++ [x0a])].
Proof. split; vm_compute; reflexivity. Qed.
