(* Property theorems: psignify in terms of opening, reading, writing and closing (C94). *)
From Verif Require Import MemWitness CallExample PrintExample CmdCallEnds IoutilFacts IoutilExample.
From Verif Require Import SpecIoutil.
Local Open Scope Z_scope.

(* reading a whole file: open, ask for the size, read up to the end, close *)
Theorem C94_read : forall L room fuel p h, file_rules L ->
  exists c, snd (ReadFile_low L room fuel p h) = h ++ c /\ (answered L h -> answered L (h ++ c)) /\
  (forall fds, in_use fds c = Some fds) /\ Forall (fun s => ~ whole_file s) c /\
  (files_end L room fuel -> file_read_as p (sum_of (fst (ReadFile_low L room fuel p h))) c).
Proof. exact readfile_run. Qed.
Print Assumptions C94_read.

(* writing a whole file: create, write, close *)
Theorem C94_write : forall L p b m h,
  exists c, snd (WriteFile_low L p b m h) = h ++ c /\ (answered L h -> answered L (h ++ c)) /\
  (forall fds, in_use fds c = Some fds) /\ Forall (fun s => ~ whole_file s) c /\
  file_written_as p b m (error_of (fst (WriteFile_low L p b m h))) c.
Proof. exact writefile_run. Qed.
Print Assumptions C94_write.

(* a run of the program, call by call: every descriptor is closed *)
Theorem C94_session : forall C L room fuel stop arg0 u ss args rest n e h,
  LengthLaws C -> BoxTidy C -> rand_rules L -> file_rules L -> files_end L room fuel ->
  command_line ss args rest -> stops rest -> main_os C (over L room fuel) stop arg0 u args = (n, e, h) ->
  run_of C (over L room fuel) arg0 u ss n e h /\
  exists l, in_detail h l /\ answered L l /\ in_use [] l = Some [] /\ Forall (fun s => ~ whole_file s) l.
Proof. exact main_low. Qed.
Print Assumptions C94_session.

(* -V with status 0: each of the three files was read up to its end, and what was read holds a valid signature *)
Theorem C94_verified : forall C L room fuel stop arg0 u ss args rest e h,
  LengthLaws C -> BoxTidy C -> rand_rules L -> file_rules L -> files_end L room fuel ->
  command_line ss args rest -> stops rest -> main_os C (over L room fuel) stop arg0 u args = (0, e, h) -> mode ss x56 ->
  let k := or_default (string_value x70 ss) (defaultKeyBase u) (str ".pub") in
  let m := string_value x6d ss in
  exists pf mf sf c1 c2 c3, file_read_as k (inl pf) c1 /\ file_read_as m (inl mf) c2 /\
    file_read_as (sigPathOf m (string_value x78 ss)) (inl sf) c3 /\
    answered L (c1 ++ c2 ++ c3) /\ signature_text (fun k m s => ed_verify C k m s = true) pf mf sf.
Proof. exact main_low_verified. Qed.
Print Assumptions C94_verified.

(* -S with status 0: the whole text of the signature was taken, and closing the file went well *)
Theorem C94_signed : forall C L room fuel stop arg0 u ss args rest e h,
  LengthLaws C -> BoxTidy C -> rand_rules L -> file_rules L -> files_end L room fuel ->
  command_line ss args rest -> stops rest -> main_os C (over L room fuel) stop arg0 u args = (0, e, h) -> mode ss x53 ->
  let m := string_value x6d ss in
  forall name, pub_name (or_default (string_value x73 ss) (defaultKeyBase u) (str ".sec")) name ->
  exists p mf l c fd n, let text := signature_file name (keyAlgo p) (keyNum p) (ed_sign C (key p) mf) in
    file_read_as m (inl mf) c /\ Z.of_nat (length text) <= n /\
    answered L (l ++ c ++ [SCreate (sigPathOf m (string_value x78 ss)) 420 (inl fd); SWrite fd text n None; SClose fd None]).
Proof. exact main_low_signed. Qed.
Print Assumptions C94_signed.

(* what was read is the content, if that stays the same meanwhile *)
Theorem C94_content : forall L content p x r h c,
  serves L content -> answered L (h ++ c) -> file_read_as p r c -> steady content p x h c ->
  r = inl x \/ exists e, r = inr e /\ c = [SOpen p (inr e)].
Proof. exact steady_file. Qed.
Print Assumptions C94_content.

(* -V with status 0, and files that do not change *)
Theorem C94_steady : forall C L room fuel stop arg0 u ss args rest e h content held,
  LengthLaws C -> BoxTidy C -> rand_rules L -> file_rules L -> files_end L room fuel ->
  command_line ss args rest -> stops rest -> main_os C (over L room fuel) stop arg0 u args = (0, e, h) -> mode ss x56 ->
  serves L content -> (forall l p, content l p = held p) ->
  let k := or_default (string_value x70 ss) (defaultKeyBase u) (str ".pub") in
  let m := string_value x6d ss in
  signature_text (fun k m s => ed_verify C k m s = true) (held k) (held m) (held (sigPathOf m (string_value x78 ss))).
Proof. exact main_low_steady. Qed.
Print Assumptions C94_steady.

(* a message can be accepted that the file never held at any one time *)
Theorem C94_mixed_refuted : exists content L room fuel,
  serves L content /\ file_rules L /\ rand_rules L /\ files_end L room fuel /\
  fst (main_os toy (over L room fuel) (fun _ => 1000%nat) (str "psignify") None verify_args) = (0, []) /\
  forall h pf, ~ signature_text (fun k m s => ed_verify toy k m s = true) pf (content h (str "m")) (content h (str "m.sig")).
Proof. exact mixed_accepted. Qed.
Print Assumptions C94_mixed_refuted.

Example C94_instance :
  files_end (file_os still_content 1000) (fun _ => 1%nat) (fun _ => 1001%nat) /\
  file_rules (file_os still_content 1000) /\ rand_rules (file_os still_content 1000) /\ serves (file_os still_content 1000) still_content /\
  LengthLaws toy /\ BoxTidy toy /\ command_line verify_flags verify_args [] /\ stops [] /\ mode verify_flags x56 /\
  fst (low_main still_content 1000 verify_args) = (0, []) /\ length (low_calls still_content 1000 verify_args) = 133%nat /\
  fst (low_main still_content 1000 sign_args) = (0, []) /\
  (exists text, skipn 94 (low_calls still_content 1000 sign_args) =
    [SOpen (str "m") (inl 94%nat); SStat 94 (inr EFault); SRead 94 2 (str "he") None; SRead 94 2 (str "ll") None; SRead 94 2 (str "o") None;
     SRead 94 2 [] (Some EOF); SClose 94 None;
     SCreate (str "m.sig") 420 (inl 101%nat); SWrite 101 text 138 None; SClose 101 None]) /\
  fst (low_main still_content 100 sign_args) = (1, line (str "Signing m failed: short write")).
Proof. exact example_low. Qed.
