(* Concrete texts for PropsText.v. *)
From Verif Require Export TextKeys RealCrypto VectorFacts SealWitness.
Local Open Scope Z_scope.

(* unused bits may be anything, padding may not be left out *)
Lemma example_text : base64_of (str "AQ==") [x01] /\ base64_of (str "AR==") [x01] /\ base64_of [] [] /\
  (forall b, ~ base64_of (str "AQ=") b) /\ (forall b, ~ base64_of (str "AQ") b) /\ (forall b, ~ base64_of (str "A===") b) /\
  (forall b, ~ base64_of (str "AQ==AQ==") b).
Proof.
  split; [apply ref_decode_iff; vm_compute; reflexivity|]. split; [apply ref_decode_iff; vm_compute; reflexivity|].
  split; [apply ref_decode_iff; vm_compute; reflexivity|].
  repeat split; intros b H; apply ref_decode_iff in H; vm_compute in H; discriminate H.
Qed.

Definition a_file : bytes := str "untrusted comment: one" ++ [x0a] ++ str "untrusted comment: two" ++ [x0a] ++ str "AQ==" ++ [x0a] ++ str "rest".
Lemma example_holds : holds a_file [x01] /\ holds (to_crlf a_file) [x01] /\ Z.of_nat (length a_file) <= 65534 /\
  (forall d, ~ holds (str "hello") d) /\ holds [] [].
Proof.
  split; [apply data_file_iff; eexists; vm_compute; reflexivity|].
  split; [apply data_file_iff; eexists; vm_compute; reflexivity|]. split; [vm_compute; discriminate|].
  split; [|apply data_file_iff; eexists; vm_compute; reflexivity].
  intros d H. apply data_file_iff in H. destruct H as [c H]. vm_compute in H. discriminate H.
Qed.

(* the files in signify/testdata *)
Lemma example_testdata : signature_text (Ed25519_accepts SHA512) sig_test_pub sig_test_msg sig_test_sig.
Proof.
  destruct (proj1 (Verify_text real (str "test.pub") (str "message.txt") [] _) repo_verifies) as (_ & pf & m & sf & C1 & C2 & C3 & T).
  assert (pf = sig_test_pub) as -> by (apply (contents_fun _ _ _ _ C1); exists 420; reflexivity).
  assert (m = sig_test_msg) as -> by (apply (contents_fun _ _ _ _ C2); exists 420; reflexivity).
  assert (sf = sig_test_sig) as -> by (apply (contents_fun _ _ _ _ C3); exists 420; reflexivity).
  revert T. apply signature_text_ext. intros k s Lk Ls. symmetry. exact (rfc_pointwise real real_signatures k sig_test_msg s Lk Ls).
Qed.
Lemma example_found : finds_signature (Ed25519_accepts SHA512) w_repo (str "test.pub") (str "message.txt") (str "message.txt.sig").
Proof.
  split; [constructor|]. exists sig_test_pub, sig_test_msg, sig_test_sig. do 3 (split; [exists 420; reflexivity|]). exact example_testdata.
Qed.
Lemma example_keys :
  (exists n k, readPublicKeyFile sig_test_pub = Ok (Pub (str "Ed") n k)) /\
  (exists n s, readSignatureFile sig_test_sig = Ok (Sig (str "Ed") n s)) /\
  (exists s c n k, readPrivateKeyFile box_test_sec = Ok (Priv (str "Ed") (str "BK") 0 s c n k)).
Proof.
  split; [do 2 eexists; exact reads_sig_pub|]. split; [do 2 eexists; exact reads_sig_sig|].
  do 4 eexists. exact reads_box_sec.
Qed.

(* a sealed message, converted *)
Definition w_sent : world := snd (seal_run (str "hello") [] []).
Definition sent_file : bytes := sealed_file (sealed_body toy (repeat x07 32) (repeat x00 32) [str "hello"]).
Definition w_received : world := start [(str "k.sec", sec_file toy_priv); (str "m.enc", to_crlf sent_file)] [] [].
Lemma example_received : LengthLaws toy /\ Seal toy (str "k.pub") (str "m") [] (w_msg (str "hello") []) = (Ok tt, w_sent) /\
  contents w_sent (str "m.enc") sent_file /\ contents w_received (str "m.enc") (to_crlf sent_file) /\
  contents w_received (str "k.sec") (sec_file toy_priv) /\ readPrivateKeyFile (sec_file toy_priv) = Ok toy_priv /\
  exists p, unlocked toy toy_priv (w_tty w_received) p.
Proof.
  split; [exact toy_lengths|]. split; [unfold w_sent; rewrite toy_seal by discriminate; apply surj; vm_compute; reflexivity|].
  split; [exists 438; unfold w_sent, sent_file; vm_compute; reflexivity|]. split; [exists 420; reflexivity|]. split; [exists 420; reflexivity|].
  split; [vm_compute; reflexivity|]. exists toy_priv. left. split; [vm_compute; reflexivity|reflexivity].
Qed.
