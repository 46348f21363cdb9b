(* Runs at the same time that spoil each other's files. *)
From Verif Require Import ConcCalls ConcGen ConcFacts SpecConc TornWitness SealWitness SealCrash SealFacts OpenFacts.
Local Open Scope Z_scope.

(* ---- two key generations under one name ---- *)
Definition conc_fs : path -> option file := files [(str "m", str "hello")].
Definition start_a : world := World conc_fs [] (repeat x05 56) [] [] [] [].
Definition start_b : world := World conc_fs [] (repeat x0b 56) [] [] [] [].
Definition run_job (C : Crypto) (k : path) (w : world) : job :=
  let w' := snd (GenerateKey C k [] None w) in Job k [] None w w' (skipn (length (w_log w)) (w_log w')).
Lemma run_job_did C k w : fst (GenerateKey C k [] None w) = Ok tt -> w_log w = [] -> did C (w_fs w) (run_job C k w).
Proof.
  intros H L. unfold did, run_job. cbn [j_name j_pass j_opts j_start j_end j_log]. rewrite L. cbn [length skipn app].
  split; [rewrite <- H; apply surjective_pairing|split; reflexivity].
Qed.
Definition job_a : job := run_job seedy (str "k") start_a.
Definition job_b : job := run_job seedy (str "k") start_b.
Lemma did_ab : did seedy conc_fs job_a /\ did seedy conc_fs job_b.
Proof.
  split; [apply (run_job_did seedy (str "k") start_a)|apply (run_job_did seedy (str "k") start_b)]; try reflexivity; vm_compute; reflexivity.
Qed.

Definition mixed : list fsop :=
  let a := process (j_log job_a) in let b := process (j_log job_b) in
  firstn 2 b ++ a ++ skipn 2 b.
Definition mixed_world : world := World (acts conc_fs mixed) [] [] [] [] [] [].
Definition mixed_signed : world := snd (Sign seedy (str "k.sec") (str "m") [] mixed_world).

Definition mixed_verified : world := snd (Verify seedy (str "k.pub") (str "m") [] mixed_signed).
Lemma pair_is {A B} (x : A * B) a : fst x = a -> x = (a, snd x).
Proof. intros <-. apply surjective_pairing. Qed.
Lemma mixed_signs : Sign seedy (sec_path (j_name job_a)) (str "m") [] mixed_world = (Ok tt, mixed_signed).
Proof. refine (pair_is (Sign seedy (str "k.sec") (str "m") [] mixed_world) (Ok tt) _). vm_compute. reflexivity. Qed.
Lemma mixed_fails : Verify seedy (pub_path (j_name job_a)) (str "m") [] mixed_signed = (Err (EMsg (str "signify: key number mismatch")), mixed_verified).
Proof. refine (pair_is (Verify seedy (str "k.pub") (str "m") [] mixed_signed) (Err (EMsg (str "signify: key number mismatch"))) _). vm_compute. reflexivity. Qed.

Lemma mixed_refuted : exists C a b fs l w w' mp e w2,
  LengthLaws C /\ EdCorrect C /\ did C fs a /\ did C fs b /\ j_name a = j_name b /\
  interleaving [process (j_log a); process (j_log b)] l /\
  w_fs w = acts fs l /\ no_faults w /\ Sign C (sec_path (j_name a)) mp [] w = (Ok tt, w') /\
  Verify C (pub_path (j_name a)) mp [] w' = (Err e, w2).
Proof.
  exists seedy, job_a, job_b, conc_fs, mixed, mixed_world, mixed_signed, (str "m"), (EMsg (str "signify: key number mismatch")), mixed_verified.
  split; [exact seedy_lengths|]. split; [exact seedy_ed|]. split; [apply did_ab|]. split; [apply did_ab|]. split; [reflexivity|].
  split.
  { unfold mixed. set (pa := process (j_log job_a)). set (pb := process (j_log job_b)). vm_compute in pa, pb. subst pa pb. cbn [firstn skipn app].
    do 2 apply (il_step [_]). do 4 apply (il_step []). do 2 apply (il_step [_]). apply il_done. repeat constructor. }
  split; [reflexivity|]. split; [reflexivity|].
  split; [exact mixed_signs|exact mixed_fails].
Qed.

(* ---- two messages sealed to the same file ---- *)
Definition two_fs : path -> option file :=
  files [(str "k.pub", pub_file toy_pub); (str "k.sec", sec_file toy_priv); (str "m", str "hello"); (str "n", str "good morning, everyone")].
Definition w_two : world := World two_fs [] (repeat x05 32) [] [] [] [].
Definition seal_m : res unit * world := seal_box toy (repeat x00 32) (str "m") (str "c") w_two.
Definition seal_n : res unit * world := seal_box toy (repeat x00 32) (str "n") (str "c") w_two.

Lemma two_seal mp m q : contents w_two mp m -> m <> [] ->
  Seal toy (str "k.pub") mp q w_two = seal_box toy (repeat x00 32) mp q w_two.
Proof.
  intros Cm Hm. apply (Seal_box toy _ _ _ _ w_two toy_pub).
  - apply (LoadPublicKey_runs _ _ (pub_file toy_pub)); [reflexivity|exists 420; reflexivity|vm_compute; reflexivity].
  - apply toy_ToBox.
  - intros d Cd. rewrite (contents_fun _ _ _ _ Cd Cm). exact Hm.
Qed.

Lemma seal_m_eq : Seal toy (str "k.pub") (str "m") (str "c") w_two = seal_m.
Proof. apply (two_seal (str "m") (str "hello")); [exists 420; reflexivity|discriminate]. Qed.
Lemma seal_n_eq : Seal toy (str "k.pub") (str "n") (str "c") w_two = seal_n.
Proof. apply (two_seal (str "n") (str "good morning, everyone")); [exists 420; reflexivity|discriminate]. Qed.

(* the shorter file is opened first and written last *)
Definition seal_order : list fsop :=
  let a := process (w_log (snd seal_m)) in let b := process (w_log (snd seal_n)) in
  firstn 1 a ++ b ++ skipn 1 a.
Definition spoiled : world := set_fs w_two (acts (w_fs w_two) seal_order).

Lemma il_within (a b : list fsop) n : interleaving [a; b] (firstn n a ++ b ++ skipn n a).
Proof.
  assert (R : forall l : list fsop, interleaving [l; []] l).
  { induction l as [|x l IH]; [apply il_done; repeat constructor|apply (il_step []), IH]. }
  assert (B : forall b l : list fsop, interleaving [l; b] (b ++ l)).
  { induction b0 as [|x b0 IH]; intro l; [apply R|]. apply (il_step [l] x b0 []). apply IH. }
  revert a. induction n as [|n IH]; intro a; [exact (B b a)|]. destruct a as [|x a]; [exact (B b [])|]. cbn [firstn skipn app]. apply (il_step []), IH.
Qed.

Definition open_spoiled : res unit * world := Open toy (str "k.sec") (str "c") (str "out") spoiled.

Lemma open_spoiled_eq : Open toy (str "k.sec") (str "c") (str "out") (set_fs w_two (acts (w_fs w_two) seal_order)) = open_spoiled.
Proof. unfold open_spoiled, spoiled. reflexivity. Qed.

Lemma two_outcome : fst seal_m = Ok tt /\ fst seal_n = Ok tt /\ fst open_spoiled = Err (CorruptInput 51).
Proof. split; [vm_compute; reflexivity|]. split; vm_compute; reflexivity. Qed.

Lemma spoiled_refuted : exists C pk sk m n q out w w1 w2 l w3 e,
  LengthLaws C /\ BoxTidy C /\ BoxCorrect C /\ no_faults w /\ w_log w = [] /\
  Seal C pk m q w = (Ok tt, w1) /\ Seal C pk n q w = (Ok tt, w2) /\
  interleaving [process (w_log w1); process (w_log w2)] l /\
  Open C sk q out (set_fs w (acts (w_fs w) l)) = (Err e, w3).
Proof.
  destruct two_outcome as (R1 & R2 & R3).
  exists toy, (str "k.pub"), (str "k.sec"), (str "m"), (str "n"), (str "c"), (str "out"), w_two, (snd seal_m), (snd seal_n), seal_order, (snd open_spoiled), (CorruptInput 51).
  split; [exact toy_lengths|]. split; [exact toy_tidy|]. split; [exact toy_box|]. split; [reflexivity|]. split; [reflexivity|].
  split; [exact (eq_trans seal_m_eq (pair_is seal_m _ R1))|]. split; [exact (eq_trans seal_n_eq (pair_is seal_n _ R2))|].
  split; [apply il_within|]. exact (eq_trans open_spoiled_eq (pair_is open_spoiled _ R3)).
Qed.

Definition seal_d : res unit * world := seal_box toy (repeat x00 32) (str "n") (str "d") w_two.
Lemma seal_d_eq : Seal toy (str "k.pub") (str "n") (str "d") w_two = seal_d.
Proof. apply (two_seal (str "n") (str "good morning, everyone")); [exists 420; reflexivity|discriminate]. Qed.
Lemma seal_d_ok : fst seal_d = Ok tt.
Proof. vm_compute. reflexivity. Qed.
Lemma ran_m : ran toy two_fs (Run (CSeal (str "k.pub") (str "m") (str "c")) w_two (Ok tt) (snd seal_m) (w_log (snd seal_m))).
Proof. destruct two_outcome as (R1 & _). split; [exact (eq_trans seal_m_eq (pair_is seal_m _ R1))|]. split; [reflexivity|]. split; [reflexivity|exact I]. Qed.
Lemma ran_d : ran toy two_fs (Run (CSeal (str "k.pub") (str "n") (str "d")) w_two (Ok tt) (snd seal_d) (w_log (snd seal_d))).
Proof. split; [exact (eq_trans seal_d_eq (pair_is seal_d _ seal_d_ok))|]. split; [reflexivity|]. split; [reflexivity|exact I]. Qed.
