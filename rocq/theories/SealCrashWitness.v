(* Seal over an earlier encrypted file, interrupted after the file was emptied. *)
From Verif Require Import SealCrash SealWitness.
Import ListNotations.

Definition old_sealed : bytes := sealed_file (sealed_body toy (repeat x07 32) (repeat x00 32) [str "hello"]).
Definition w_again : world :=
  World (files [(str "k.pub", pub_file toy_pub); (str "k.sec", sec_file toy_priv); (str "m", str "other"); (str "m.enc", old_sealed)])
        [] (repeat x05 32) [] [] [] [].
Definition again_run : res unit * world := seal_box toy (repeat x00 32) (str "m") [] w_again.
Definition emptied : path -> option file := fs_create (w_fs w_again) (str "m.enc") 438.

Lemma again_seal : Seal toy (str "k.pub") (str "m") [] w_again = again_run.
Proof.
  apply (Seal_box toy _ _ _ _ w_again toy_pub).
  - apply (LoadPublicKey_runs _ _ (pub_file toy_pub)); [reflexivity|exists 420; reflexivity|vm_compute; reflexivity].
  - apply toy_ToBox.
  - intros d (mo & H). cbn in H. injection H as <- _. discriminate.
Qed.

Lemma again_outcome : fst again_run = Ok tt /\
  w_fs (snd again_run) (str "m.enc") = Some (File (sealed_file (sealed_body toy (repeat x00 32) (repeat x00 32) [str "other"])) 420).
Proof. split; vm_compute; reflexivity. Qed.

Lemma open_run_eq w : Open toy (str "k.sec") (str "m.enc") (str "out") w = open_run w.
Proof. reflexivity. Qed.
Lemma again_opens : Open toy (str "k.sec") (str "m.enc") (str "out") w_again = (Ok tt, snd (open_run w_again)).
Proof.
  rewrite open_run_eq.
  assert (R : fst (open_run w_again) = Ok tt) by (vm_compute; reflexivity).
  exact (eq_trans (surjective_pairing (open_run w_again)) (f_equal (fun r => (r, snd (open_run w_again))) R)).
Qed.

Lemma not_atomic : exists C pk sk mp q out w w' evs fs' old new left v v',
  LengthLaws C /\ BoxTidy C /\ BoxCorrect C /\ no_faults w /\ q = enc_path mp [] /\
  Open C sk q out w = (Ok tt, v) /\ contents v out (str "hello") /\
  Seal C pk mp [] w = (Ok tt, w') /\ w_log w' = w_log w ++ evs /\ crash_state (w_fs w) evs fs' /\
  contents w q old /\ contents w' q new /\ contents (set_fs w fs') q left /\ left <> old /\ left <> new /\
  fst (Open C sk q out (set_fs w fs')) = Err v'.
Proof.
  destruct (Seal_log toy (str "k.pub") (str "m") [] w_again (fst again_run) (snd again_run)) as [(L & _)|(ps & L & _)].
  { rewrite again_seal. apply surjective_pairing. }
  { exfalso. revert L. vm_compute. discriminate. }
  exists toy, (str "k.pub"), (str "k.sec"), (str "m"), (str "m.enc"), (str "out"), w_again, (snd again_run).
  exists (EvCreate (str "m.enc") 438 :: map (EvAppend (str "m.enc")) ps), emptied, old_sealed.
  exists (sealed_file (sealed_body toy (repeat x00 32) (repeat x00 32) [str "other"])), [], (snd (open_run w_again)).
  exists EOF.
  destruct again_outcome as (R & F).
  split; [exact toy_lengths|]. split; [exact toy_tidy|]. split; [exact toy_box|]. split; [reflexivity|]. split; [reflexivity|].
  split; [exact again_opens|]. split; [exists 438; vm_compute; reflexivity|].
  split; [exact (eq_trans again_seal (eq_trans (surjective_pairing again_run) (f_equal (fun r => (r, snd again_run)) R)))|].
  split; [exact L|]. split.
  { exists [EvCreate (str "m.enc") 438], (map (EvAppend (str "m.enc")) ps). split; [reflexivity|]. left. reflexivity. }
  split; [exists 420; reflexivity|]. split; [exists 420; exact F|]. split; [exists 420; vm_compute; reflexivity|].
  split; [vm_compute; discriminate|]. split; [vm_compute; discriminate|]. rewrite open_run_eq. vm_compute. reflexivity.
Qed.
