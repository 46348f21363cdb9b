(* Property theorems for the command (C47-C49, C58). *)
From Verif Require Import SealOpen SpecFlag Cmd FlagFacts SignWitness SealWitness.

(* C47 *)
Theorem C47_every_command_line : forall args, exists ss rest,
  command_line ss args rest /\ (stops rest \/ malformed rest).
Proof. exact every_command_line. Qed.
Print Assumptions C47_every_command_line.

Theorem C47_generate : forall C arg0 u ss args rest w n w', command_line ss args rest -> stops rest ->
  main C arg0 u args w = (n, w') -> bool_value x47 ss = true -> bool_value x6e ss = false ->
  let k := or_default (string_value x70 ss) (defaultKeyBase u) (str ".pub") in k <> [] ->
  (exists pass tl w1, w_tty w = Ok pass :: Ok pass :: tl /\ acts (GenerateKey C k pass None) w1 n w' /\
     w_fs w1 = w_fs w /\ w_rng w1 = w_rng w /\ w_faults w1 = w_faults w /\ w_tty w1 = tl) \/
  ((forall pass tl, w_tty w <> Ok pass :: Ok pass :: tl) /\ n <> 0 /\ w_fs w' = w_fs w).
Proof. exact main_generate. Qed.
Print Assumptions C47_generate.

Theorem C47_generate_n : forall C arg0 u ss args rest w n w', command_line ss args rest -> stops rest ->
  main C arg0 u args w = (n, w') -> bool_value x47 ss = true -> bool_value x6e ss = true ->
  let k := or_default (string_value x70 ss) (defaultKeyBase u) (str ".pub") in
  (k <> [] -> acts (GenerateKey C k [] None) w n w') /\ (k = [] -> n = 1 /\ exists t, w' = emit w (EvErr t)).
Proof. exact main_generate_n. Qed.
Print Assumptions C47_generate_n.

Theorem C47_generate_unnamed : forall C arg0 u ss args rest w n w', command_line ss args rest -> stops rest ->
  main C arg0 u args w = (n, w') -> bool_value x47 ss = true ->
  or_default (string_value x70 ss) (defaultKeyBase u) (str ".pub") = [] ->
  n = 1 /\ exists t, w' = emit w (EvErr t).
Proof. exact main_generate_unnamed. Qed.
Print Assumptions C47_generate_unnamed.

Theorem C47_sign : forall C arg0 u ss args rest w n w', command_line ss args rest -> stops rest ->
  main C arg0 u args w = (n, w') -> bool_value x47 ss = false -> bool_value x53 ss = true ->
  let sec := or_default (string_value x73 ss) (defaultKeyBase u) (str ".sec") in
  (sec <> [] /\ string_value x6d ss <> [] -> acts (Sign C sec (string_value x6d ss) (string_value x78 ss)) w n w') /\
  (sec = [] \/ string_value x6d ss = [] -> n = 1 /\ exists t, w' = emit w (EvErr t)).
Proof. exact main_sign. Qed.
Print Assumptions C47_sign.

Theorem C47_verify : forall C arg0 u ss args rest w n w', command_line ss args rest -> stops rest ->
  main C arg0 u args w = (n, w') ->
  bool_value x47 ss = false -> bool_value x53 ss = false -> bool_value x56 ss = true ->
  acts (Verify C (or_default (string_value x70 ss) (defaultKeyBase u) (str ".pub")) (string_value x6d ss) (string_value x78 ss)) w n w'.
Proof. exact main_verify. Qed.
Print Assumptions C47_verify.

Theorem C47_seal : forall C arg0 u ss args rest w n w', command_line ss args rest -> stops rest ->
  main C arg0 u args w = (n, w') ->
  bool_value x47 ss = false -> bool_value x53 ss = false -> bool_value x56 ss = false -> bool_value x45 ss = true ->
  acts (Seal C (or_default (string_value x70 ss) (defaultKeyBase u) (str ".pub")) (string_value x6d ss) (string_value x63 ss)) w n w'.
Proof. exact main_seal. Qed.
Print Assumptions C47_seal.

Theorem C47_open : forall C arg0 u ss args rest w n w', command_line ss args rest -> stops rest ->
  main C arg0 u args w = (n, w') ->
  bool_value x47 ss = false -> bool_value x53 ss = false -> bool_value x56 ss = false ->
  bool_value x45 ss = false -> bool_value x44 ss = true ->
  acts (Open C (or_default (string_value x73 ss) (defaultKeyBase u) (str ".sec")) (string_value x63 ss) (string_value x6d ss)) w n w'.
Proof. exact main_open. Qed.
Print Assumptions C47_open.

Theorem C47_none : forall C arg0 u ss args rest w n w', command_line ss args rest -> stops rest ->
  main C arg0 u args w = (n, w') ->
  bool_value x47 ss = false -> bool_value x53 ss = false -> bool_value x56 ss = false ->
  bool_value x45 ss = false -> bool_value x44 ss = false ->
  n = 1 /\ exists t, w' = emit w (EvErr t).
Proof. exact main_none. Qed.
Print Assumptions C47_none.

Example C47_instance :
  let args := [str "-V"; str "--m=m"; str "-S=false"; str "-p"; str "dir/k.pub"; str "--"; str "-G"] in
  command_line [SetB x56 true; SetS x6d (str "m"); SetB x53 false; SetS x70 (str "dir/k.pub")] args [str "--"; str "-G"] /\
  stops [str "--"; str "-G"] /\
  fst (main toy (str "psignify") None args (snd (Sign toy (str "dir/k.sec") (str "m") [] w_run1))) = 0 /\
  fst (main toy (str "psignify") None args w_run1) = 1.
Proof.
  split.
  { exists [[str "-V"]; [str "--m=m"]; [str "-S=false"]; [str "-p"; str "dir/k.pub"]]. split; [|reflexivity].
    repeat (apply Forall2_cons || apply Forall2_nil).
    - apply (ren_bool (str "-") x56); [left; reflexivity|vm_compute; auto 10].
    - apply (ren_eq (str "--") x6d (str "m")); [right; reflexivity|vm_compute; auto 10].
    - apply (ren_bool_eq (str "-") x53 (str "false") false); [left; reflexivity|vm_compute; auto 10|vm_compute; auto 10].
    - apply (ren_next (str "-") x70 (str "dir/k.pub")); [left; reflexivity|vm_compute; auto 10]. }
  split; [constructor|]. split; vm_compute; reflexivity.
Qed.

(* C48 *)
Theorem C48_malformed : forall C arg0 u ss args rest w n w', command_line ss args rest -> malformed rest ->
  main C arg0 u args w = (n, w') ->
  n = 0 /\ exists outs, Forall is_text outs /\
    w' = World (w_fs w) (w_faults w) (w_rng w) (w_tty w) (w_bufs w) (w_fds w) (w_log w ++ outs).
Proof. exact main_malformed. Qed.
Print Assumptions C48_malformed.

Theorem C48_zero_means_verified_refuted : exists C arg0 u ss args rest w w',
  LengthLaws C /\ EdCorrect C /\ command_line ss args rest /\ bool_value x47 ss = false /\
  bool_value x53 ss = false /\ bool_value x56 ss = true /\
  main C arg0 u args w = (0, w') /\
  forall w2, Verify C (string_value x70 ss) (string_value x6d ss) (string_value x78 ss) w <> (Ok tt, w2).
Proof. exact zero_unverified. Qed.
Print Assumptions C48_zero_means_verified_refuted.

Example C48_instance : malformed [str "-q"; str "x"] /\ malformed [str "-m"] /\ malformed [str "-V=yes"] /\ malformed [str "---V"] /\ malformed [str "-=V"].
Proof.
  split; [|split; [|split; [|split]]].
  - apply (mal_unknown (str "-") (str "q") (str "q") None); [left; reflexivity|discriminate|split; discriminate| |].
    + apply names_bare. intros [].
    + intros c E. injection E as <-. split; intro H; vm_compute in H; intuition discriminate.
  - apply (mal_missing (str "-") x6d); [left; reflexivity|vm_compute; auto 10].
  - apply (mal_bool (str "-") x56 (str "yes")); [left; reflexivity|vm_compute; auto 10|].
    intros [|] H; vm_compute in H; intuition discriminate.
  - exact (mal_dashes (str "V") []).
  - apply (mal_eq (str "-")). left. reflexivity.
Qed.

(* C49 *)
Theorem C49_generate_default : forall C arg0 u ss args rest w w', LengthLaws C ->
  command_line ss args rest -> stops rest -> main C arg0 u args w = (0, w') ->
  bool_value x47 ss = true -> string_value x70 ss = [] ->
  let b := defaultKeyBase u in b <> [] ->
  (exists priv pub, contents w' (b ++ str ".pub.sec") (sec_file priv) /\ contents w' (b ++ str ".pub.pub") (pub_file pub) /\
     readPrivateKeyFile (sec_file priv) = Ok priv /\ readPublicKeyFile (pub_file pub) = Ok pub) /\
  (forall q, q <> b ++ str ".pub.sec" -> q <> b ++ str ".pub.pub" -> w_fs w' q = w_fs w q).
Proof. exact main_generate_default. Qed.
Print Assumptions C49_generate_default.

Theorem C49_not_found : forall C arg0 u ss args rest w w' ss2 args2 rest2 arg0' n w2, LengthLaws C ->
  command_line ss args rest -> stops rest -> main C arg0 u args w = (0, w') ->
  bool_value x47 ss = true -> string_value x70 ss = [] ->
  let b := defaultKeyBase u in b <> [] -> w_fs w (b ++ str ".sec") = None ->
  command_line ss2 args2 rest2 -> stops rest2 -> main C arg0' u args2 w' = (n, w2) ->
  bool_value x47 ss2 = false -> bool_value x53 ss2 = true -> string_value x73 ss2 = [] ->
  n = 1 /\ w_fs w2 = w_fs w'.
Proof. exact default_not_found. Qed.
Print Assumptions C49_not_found.

Example C49_instance :
  let u := Some (str "/home/u", str "u") in
  let '(n, w1) := main toy (str "psignify") u [str "-G"; str "-n"] (start [(str "m", str "hi")] [] rng_new) in
  n = 0 /\ w_fs w1 (str "/home/u/.signify/u.pub.sec") <> None /\
  fst (main toy (str "psignify") u [str "-S"; str "-m"; str "m"] w1) = 1.
Proof. vm_compute. repeat split; discriminate. Qed.

(* C58 *)
Theorem C58_default_base : forall cs name, cs <> [] -> Forall plain_name cs -> plain_name name ->
  defaultKeyBase (Some (rooted cs, name)) = rooted cs ++ str "/.signify/" ++ name.
Proof. exact default_base. Qed.
Print Assumptions C58_default_base.

Example C58_instance : rooted [str "home"; str "u"] = str "/home/u" /\ plain_name (str "u") /\
  defaultKeyBase (Some (str "/home/u", str "u")) = str "/home/u/.signify/u".
Proof.
  split; [reflexivity|]. split; [|vm_compute; reflexivity].
  repeat split; try discriminate. intro X. vm_compute in X. intuition discriminate.
Qed.
