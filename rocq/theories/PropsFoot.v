From Verif Require Import Cmd SealOpen CmdFacts TornWitness ConcWitness ConcGen ConcFacts SpecConc ConcCalls Footprint FootCalls FootWitness.
From Coq Require Import Permutation.
Import ListNotations.
Local Open Scope Z_scope.

(* C79 *)
Theorem C79_call : forall C c w v r w', BoxTidy C -> proper c -> alike (inputs c) w v -> run_call C c w = (r, w') ->
  exists v' evs, run_call C c v = (r, v') /\ w_log w' = w_log w ++ evs /\ v' = set_fs w' (w_fs v') /\
    w_fs w' = replay (w_fs w) evs /\ w_fs v' = replay (w_fs v) evs /\
    forall x, (In x (outputs c) /\ data_at (w_fs w') x = data_at (w_fs v') x) \/ (w_fs w' x = w_fs w x /\ w_fs v' x = w_fs v x).
Proof. exact call_depends. Qed.
Print Assumptions C79_call.

Theorem C79_command : forall C arg0 u args w v n w', alike (command_reads u args) w v -> main C arg0 u args w = (n, w') ->
  exists v', main C arg0 u args v = (n, v') /\ alike (command_reads u args) w' v'.
Proof. exact main_depends. Qed.
Print Assumptions C79_command.

Theorem C79_any_order : forall C fs runs order l, BoxTidy C -> Forall (ran C fs) runs -> ForallOrdPairs independent runs ->
  Permutation runs order -> interleaving (map (fun r => process (r_log r)) runs) l ->
  let '(rs, fs') := in_turn C fs (map (fun r => (r_call r, r_start r)) order) in
  rs = map r_res order /\ forall x, fs' x = acts fs l x.
Proof. exact serial. Qed.
Print Assumptions C79_any_order.

(* a signature verified before it is made *)
Theorem C79_dependent_refuted : exists C fs a b, LengthLaws C /\ EdCorrect C /\
  fst (in_turn C fs [a; b]) = [Ok tt; Ok tt] /\ fst (in_turn C fs [b; a]) = [Err (ENotExist (str "m.sig")); Ok tt].
Proof. exact dependent_refuted. Qed.
Print Assumptions C79_dependent_refuted.

(* two sealings with different outputs; worlds that differ in a third file *)
Example C79_instance :
  Forall (ran toy two_fs) two_runs /\ ForallOrdPairs independent two_runs /\
  (exists l, interleaving (map (fun r => process (r_log r)) two_runs) l) /\
  alike (inputs (CSign (str "k.sec") (str "m") [])) w_two (set_fs w_two (fs_create two_fs (str "n") 0)) /\
  fs_create two_fs (str "n") 0 (str "n") <> two_fs (str "n") /\
  command_reads None [str "-V"; str "-p"; str "k.pub"; str "-m"; str "m"] = [str "k.pub"; str "m"; str "m.sig"].
Proof. exact foot_instance. Qed.
