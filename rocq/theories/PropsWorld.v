(* Property theorems: the world of Go.v as one of the operating systems of Calls.v (C92). *)
From Verif Require Import SpecCmdCalls CallExample PrintExample WorldMain.
From Verif Require Import SpecWorldOs.
Local Open Scope Z_scope.

(* a world behaves as C88 asks of operating systems *)
Theorem C92_rules : forall w, rand_rules (os_of w) /\ file_rules (os_of w).
Proof. exact world_rules. Qed.
Print Assumptions C92_rules.

(* the operations return the same over it, by calls that lead to the same files, faults, random source, terminal and effects *)
Theorem C92_verify : forall C w k m s, exists r h w',
  Verify C k m s w = (r, w') /\ Verify_os C (os_of w) k m s [] = (r, h) /\ leads w h w' /\ on_stderr (w_log w') = on_stderr (w_log w).
Proof. exact world_verify. Qed.
Print Assumptions C92_verify.
Theorem C92_sign : forall C w, plain_world w -> forall k m s, exists r h w',
  Sign C k m s w = (r, w') /\ Sign_os C (os_of w) k m s [] = (r, h) /\ leads w h w' /\ on_stderr (w_log w') = on_stderr (w_log w).
Proof. exact world_sign. Qed.
Print Assumptions C92_sign.
Theorem C92_generate : forall C w k pass opts, exists r h w',
  GenerateKey C k pass opts w = (r, w') /\ GenerateKey_os C (os_of w) k pass opts [] = (r, h) /\ leads w h w' /\
  on_stderr (w_log w') = on_stderr (w_log w).
Proof. exact world_generate. Qed.
Print Assumptions C92_generate.
Theorem C92_seal : forall C w, plain_world w -> forall k m e, exists r h w',
  Seal C k m e w = (r, w') /\ Seal_os C (os_of w) k m e [] = (r, h) /\ leads w h w' /\ on_stderr (w_log w') = on_stderr (w_log w).
Proof. exact world_seal. Qed.
Print Assumptions C92_seal.
Theorem C92_open : forall C w, plain_world w -> forall k e m, exists r h w',
  Open C k e m w = (r, w') /\ Open_os C (os_of w) (last_fuel w) k e m [] = (r, h) /\ leads w h w' /\
  on_stderr (w_log w') = on_stderr (w_log w).
Proof. exact world_open. Qed.
Print Assumptions C92_open.

(* and so does the command *)
Theorem C92_command : forall C w arg0 u args, plain_world w -> exists n e h w',
  main C arg0 u args w = (n, w') /\ main_os C (os_of w) (last_fuel w) arg0 u args = (n, e, h) /\
  leads w h w' /\ on_stderr (w_log w') = on_stderr (w_log w) ++ e.
Proof. exact world_main. Qed.
Print Assumptions C92_command.

(* so the worlds, too, see nothing but what C91 describes *)
Theorem C92_session : forall C w arg0 u ss args rest, LengthLaws C -> BoxTidy C -> plain_world w -> command_line ss args rest -> stops rest ->
  exists n e h w', main C arg0 u args w = (n, w') /\ run_of C (os_of w) arg0 u ss n e h /\
  leads w h w' /\ on_stderr (w_log w') = on_stderr (w_log w) ++ e.
Proof. exact world_session. Qed.
Print Assumptions C92_session.

Example C92_instance :
  LengthLaws toy /\ BoxTidy toy /\ command_line signing_flags signing_args [] /\ stops [] /\ (forall faults, plain_world (signing_world faults)) /\
  signing_run [] = (0, [], signing_start ++ [SWriteFile (str "m.sig") l_sig 420 None]) /\
  signed [] = (0, Some (File l_sig 420)) /\
  signing_run cut_write = (1, line (str "Signing m failed: error"), signing_start ++ [SWriteFile (str "m.sig") l_sig 420 (Some EFault)]) /\
  signed cut_write = (1, Some (File (firstn 3 l_sig) 420)).
Proof. exact example_signing. Qed.
