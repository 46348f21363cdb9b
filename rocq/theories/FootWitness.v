(* Concrete runs for the dependence of calls on files. *)
From Verif Require Import Cmd SealOpen CmdFacts TornWitness SealWitness ConcWitness ConcGen ConcFacts SpecConc ConcCalls Footprint FootCalls.
Import ListNotations.
Local Open Scope Z_scope.

Definition lone : world := World (fun _ => None) [] [] [] [] [] [].
Definition call_sign : call * world := (CSign (str "k.sec") (str "m") [], lone).
Definition call_verify : call * world := (CVerify (str "k.pub") (str "m") [], lone).

Lemma dependent_refuted : exists C fs a b, LengthLaws C /\ EdCorrect C /\
  fst (in_turn C fs [a; b]) = [Ok tt; Ok tt] /\ fst (in_turn C fs [b; a]) = [Err (ENotExist (str "m.sig")); Ok tt].
Proof.
  exists seedy, (w_fs (j_end job_a)), call_sign, call_verify. split; [exact seedy_lengths|]. split; [exact seedy_ed|]. split; vm_compute; reflexivity.
Qed.

Definition run_m : run := Run (CSeal (str "k.pub") (str "m") (str "c")) w_two (Ok tt) (snd seal_m) (w_log (snd seal_m)).
Definition run_d : run := Run (CSeal (str "k.pub") (str "n") (str "d")) w_two (Ok tt) (snd seal_d) (w_log (snd seal_d)).
Definition two_runs : list run := [run_m; run_d].

Lemma independent_md : independent run_m run_d.
Proof.
  intro x. cbn [run_m run_d r_call outputs inputs]. unfold enc_path. cbn. split; intros [<-|[]] H; repeat (destruct H as [H|H]; [discriminate H|]); exact H.
Qed.

Lemma foot_instance :
  Forall (ran toy two_fs) two_runs /\ ForallOrdPairs independent two_runs /\
  (exists l, interleaving (map (fun r => process (r_log r)) two_runs) l) /\
  alike (inputs (CSign (str "k.sec") (str "m") [])) w_two (set_fs w_two (fs_create two_fs (str "n") 0)) /\
  fs_create two_fs (str "n") 0 (str "n") <> two_fs (str "n") /\
  command_reads None [str "-V"; str "-p"; str "k.pub"; str "-m"; str "m"] = [str "k.pub"; str "m"; str "m.sig"].
Proof.
  split; [constructor; [exact ran_m|constructor; [exact ran_d|constructor]]|].
  split; [constructor; [constructor; [exact independent_md|constructor]|constructor; [constructor|constructor]]|].
  split; [exists (firstn 1 (process (r_log run_m)) ++ process (r_log run_d) ++ skipn 1 (process (r_log run_m))); apply (il_within (process (r_log run_m)) (process (r_log run_d)) 1)|].
  split; [split; [reflexivity|]; intros p [<-|[<-|[]]]; vm_compute; reflexivity|].
  split; [intro H; apply (f_equal (option_map (fun f => length (f_data f)))) in H; vm_compute in H; discriminate H|vm_compute; reflexivity].
Qed.
