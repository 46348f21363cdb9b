From Verif Require Import TornWitness ConcWitness ConcCalls ConcGen ConcFacts SpecConc SealWitness SignWitness RealCrypto.
Import ListNotations.
Local Open Scope Z_scope.

(* C78 *)
Theorem C78_alone : forall C fs r, BoxTidy C -> ran C fs r ->
  forall x, acts fs (process (r_log r)) x = w_fs (r_end r) x.
Proof. exact alone. Qed.
Print Assumptions C78_alone.

Theorem C78_disjoint : forall C fs runs l, BoxTidy C -> Forall (ran C fs) runs ->
  interleaving (map (fun r => process (r_log r)) runs) l ->
  (forall x, (forall r, In r runs -> ~ In x (outputs (r_call r))) -> acts fs l x = fs x) /\
  (forall pre r post x, runs = pre ++ r :: post -> (forall r', In r' pre \/ In r' post -> ~ In x (outputs (r_call r'))) ->
     acts fs l x = w_fs (r_end r) x).
Proof. exact at_once. Qed.
Print Assumptions C78_disjoint.

Theorem C78_generate : forall C fs jobs l, LengthLaws C -> Forall (did C fs) jobs ->
  interleaving (map (fun j => process (j_log j)) jobs) l ->
  (forall x, (forall j, In j jobs -> x <> sec_path (j_name j) /\ x <> pub_path (j_name j)) -> acts fs l x = fs x) /\
  (forall j, In j jobs -> exists a b, In a jobs /\ In b jobs /\ j_name a = j_name j /\ j_name b = j_name j /\
     acts fs l (sec_path (j_name j)) = w_fs (j_end a) (sec_path (j_name j)) /\
     acts fs l (pub_path (j_name j)) = w_fs (j_end b) (pub_path (j_name j))).
Proof. exact concurrent. Qed.
Print Assumptions C78_generate.

Theorem C78_generate_mixed : forall C fs a b, LengthLaws C -> did C fs a -> did C fs b -> j_name a = j_name b ->
  exists l, interleaving [process (j_log a); process (j_log b)] l /\
    acts fs l (sec_path (j_name a)) = w_fs (j_end a) (sec_path (j_name a)) /\
    acts fs l (pub_path (j_name a)) = w_fs (j_end b) (pub_path (j_name a)).
Proof. exact concurrent_mixed. Qed.
Print Assumptions C78_generate_mixed.

Theorem C78_matching_pair_refuted : exists C a b fs l w w' mp e w2,
  LengthLaws C /\ EdCorrect C /\ did C fs a /\ did C fs b /\ j_name a = j_name b /\
  interleaving [process (j_log a); process (j_log b)] l /\
  w_fs w = acts fs l /\ no_faults w /\ Sign C (sec_path (j_name a)) mp [] w = (Ok tt, w') /\
  Verify C (pub_path (j_name a)) mp [] w' = (Err e, w2).
Proof. exact mixed_refuted. Qed.
Print Assumptions C78_matching_pair_refuted.

Theorem C78_one_of_two_sealings_refuted : exists C pk sk m n q out w w1 w2 l w3 e,
  LengthLaws C /\ BoxTidy C /\ BoxCorrect C /\ no_faults w /\ w_log w = [] /\
  Seal C pk m q w = (Ok tt, w1) /\ Seal C pk n q w = (Ok tt, w2) /\
  interleaving [process (w_log w1); process (w_log w2)] l /\
  Open C sk q out (set_fs w (acts (w_fs w) l)) = (Err e, w3).
Proof. exact spoiled_refuted. Qed.
Print Assumptions C78_one_of_two_sealings_refuted.

(* two key generations under one name, and two sealings with different outputs, each of them
   a run from the same files *)
Example C78_instance :
  did seedy conc_fs job_a /\ did seedy conc_fs job_b /\
  map target (process (j_log job_a)) = [str "k.sec"; str "k.sec"; str "k.pub"; str "k.pub"] /\
  ran toy two_fs (Run (CSeal (str "k.pub") (str "m") (str "c")) w_two (Ok tt) (snd seal_m) (w_log (snd seal_m))) /\
  ran toy two_fs (Run (CSeal (str "k.pub") (str "n") (str "d")) w_two (Ok tt) (snd seal_d) (w_log (snd seal_d))) /\
  outputs (CSeal (str "k.pub") (str "m") (str "c")) = [str "c"] /\ outputs (CSeal (str "k.pub") (str "n") (str "d")) = [str "d"].
Proof.
  split; [apply did_ab|]. split; [apply did_ab|]. split; [vm_compute; reflexivity|].
  split; [exact ran_m|]. split; [exact ran_d|]. split; reflexivity.
Qed.
