(* Concrete runs in which a file has been cut short. *)
From Verif Require Export Torn SignWitness.
Local Open Scope Z_scope.

(* signatures that depend on the secret: the seed and the message *)
Definition seedy : Crypto := {|
  sha512 := fun m => fit 64 m;
  pbkdf := fun p s r n => fit n (p ++ s);
  ed_public := fun seed => fit 32 seed;
  ed_sign := fun k m => fit 64 (firstn 32 k ++ m);
  ed_verify := fun p m s => bytes_eqb s (fit 64 (p ++ m));
  x25519_base := fun _ => repeat x00 32;
  box_precompute := fun _ _ => repeat x07 32;
  box_seal := fun m n k => m ++ toy_tag n;
  box_open := toy_open;
  auth_sum := fun m k => fit 32 (rev m)
|}.
Lemma seedy_lengths : LengthLaws seedy.
Proof.
  constructor; intros; cbn [seedy sha512 pbkdf ed_public ed_sign x25519_base box_precompute box_seal auth_sum];
    rewrite ?app_length; unfold toy_tag; rewrite ?length_fit; reflexivity.
Qed.
Lemma seedy_ed : EdCorrect seedy.
Proof.
  intros seed m L. cbn [seedy ed_verify ed_sign ed_public]. unfold ed_private. cbn [seedy ed_public].
  assert (F : fit 32 seed = seed) by (apply fit_exact; exact L).
  rewrite F, firstn_app, firstn_all2, L, Nat.sub_diag by lia. cbn [firstn]. rewrite app_nil_r. apply bytes_eqb_refl.
Qed.

Definition w_torn : world := start [(str "m", str "hello")] [] rng_old.
Definition w_torn1 : world := snd (GenerateKey seedy (str "k") [] None w_torn).
Definition torn_pair : Private * Public :=
  match pair_of (w_fs w_torn1) (str "k") with Some x => x | None => (Priv [] [] 0 [] [] [] [], Pub [] [] []) end.

Lemma torn_accepted_refuted : exists p k q, priv_wf p /\ (k < length (sec_file p))%nat /\
  readPrivateKeyFile (firstn k (sec_file p)) = Ok q /\ q <> p.
Proof.
  exists (fst torn_pair), 95%nat. eexists. split; [vm_compute; repeat split; discriminate|]. split; [vm_compute; lia|].
  split; [vm_compute; reflexivity|]. vm_compute. discriminate.
Qed.

Definition torn_evs : list event := skipn (length (w_log w_torn)) (w_log w_torn1).
Definition torn_fs : path -> option file :=
  replay (w_fs w_torn) (firstn 1 torn_evs ++ [EvAppend (str "k.sec") (firstn 95 (sec_file (fst torn_pair)))]).

(* killed while it writes the secret key, GenerateKey leaves a key that is taken for a complete one and signs *)
Lemma crash_signs_refuted : exists C k w w' evs fs' p q w1 mp w2,
  LengthLaws C /\ EdCorrect C /\ GenerateKey C k [] None w = (Ok tt, w') /\ GenerateKeypair C [] None w = (Ok (p, q), w1) /\
  w_log w' = w_log w ++ evs /\ crash_state (w_fs w) evs fs' /\
  Sign C (sec_path k) mp [] (World fs' [] [] [] [] [] []) = (Ok tt, w2) /\
  exists f p', fs' (sec_path k) = Some f /\ readPrivateKeyFile (f_data f) = Ok p' /\ p' <> p.
Proof.
  exists seedy, (str "k"), w_torn, w_torn1, torn_evs, torn_fs, (fst torn_pair), (snd torn_pair). eexists. exists (str "m"). eexists.
  split; [exact seedy_lengths|]. split; [exact seedy_ed|]. split; [unfold w_torn1 at 1; apply surj; vm_compute; reflexivity|].
  split; [apply surj; vm_compute; reflexivity|]. split; [vm_compute; reflexivity|]. split.
  { exists (firstn 1 torn_evs), (skipn 1 torn_evs). split; [symmetry; apply firstn_skipn|]. right.
    exists (str "k.sec"), (firstn 95 (sec_file (fst torn_pair))), (skipn 95 (sec_file (fst torn_pair))), (skipn 2 torn_evs).
    split; [vm_compute; reflexivity|reflexivity]. }
  split; [apply surj; vm_compute; reflexivity|].
  do 2 eexists. split; [vm_compute; reflexivity|]. split; [vm_compute; reflexivity|]. vm_compute. discriminate.
Qed.

(* what a key file cut short signs, the public key of the pair does not accept *)
Definition w_cut : world :=
  start [(str "m", str "hello"); (str "k.sec", firstn 103 (sec_file (fst torn_pair))); (str "k.pub", pub_file (snd torn_pair))] [] [].
Lemma torn_signs_refuted : exists C k w w' p q cut mp v v' e v2,
  LengthLaws C /\ EdCorrect C /\ GenerateKey C k [] None w = (Ok tt, w') /\
  contents w' (sec_path k) (sec_file p) /\ contents w' (pub_path k) (pub_file q) /\
  contents v (sec_path k) (firstn cut (sec_file p)) /\ contents v (pub_path k) (pub_file q) /\ no_faults v /\
  Sign C (sec_path k) mp [] v = (Ok tt, v') /\ Verify C (pub_path k) mp [] v' = (Err e, v2).
Proof.
  exists seedy, (str "k"), w_torn, w_torn1, (fst torn_pair), (snd torn_pair), 103%nat, (str "m"), w_cut. do 3 eexists.
  split; [exact seedy_lengths|]. split; [exact seedy_ed|]. split; [unfold w_torn1 at 1; apply surj; vm_compute; reflexivity|].
  split; [eexists; vm_compute; reflexivity|]. split; [eexists; vm_compute; reflexivity|].
  split; [eexists; vm_compute; reflexivity|]. split; [eexists; vm_compute; reflexivity|].
  split; [reflexivity|]. split; [apply surj; vm_compute; reflexivity|]. apply surj. vm_compute. reflexivity.
Qed.

(* killed while it writes the signature, Sign leaves a file on which Verify crashes *)
Lemma torn_verify_refuted : exists C k w w' mp v evs fs' v2,
  LengthLaws C /\ EdCorrect C /\ GenerateKey C k [] None w = (Ok tt, w') /\
  Sign C (sec_path k) mp [] w' = (Ok tt, v) /\ w_log v = w_log w' ++ evs /\ crash_state (w_fs w') evs fs' /\
  Verify C (pub_path k) mp [] (World fs' [] [] [] [] [] []) = (Panic, v2).
Proof.
  exists seedy, (str "k"), w_torn, w_torn1, (str "m"). eexists.
  exists (skipn (length (w_log w_torn1)) (w_log (snd (Sign seedy (str "k.sec") (str "m") [] w_torn1)))).
  exists (replay (w_fs w_torn1) (firstn 1 (skipn (length (w_log w_torn1)) (w_log (snd (Sign seedy (str "k.sec") (str "m") [] w_torn1)))))). eexists.
  split; [exact seedy_lengths|]. split; [exact seedy_ed|]. split; [unfold w_torn1 at 1; apply surj; vm_compute; reflexivity|].
  split; [apply surj; vm_compute; reflexivity|]. split; [vm_compute; reflexivity|].
  split; [eexists; eexists; split; [symmetry; apply firstn_skipn|left; reflexivity]|].
  apply surj. vm_compute. reflexivity.
Qed.
