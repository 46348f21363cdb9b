(* Concrete files for the exchange with OpenBSD's signify. *)
From Verif Require Export Interop SignWitness.
Local Open Scope Z_scope.

(* a key pair made here and a signature made there, and the other way round *)
Lemma interop_instance C : LengthLaws C ->
  (exists s p f, key_files C (str "pw") s p /\ ob_sign C (str "pw") s (str "verify with k.pub") (str "hello") = Some f /\ signed C (str "pw") s (str "hello") f) /\
  (exists s p f w w', ob_generate C (str "pw") (repeat x11 32) (repeat x22 8) (repeat x33 16) 42 (str "signify") = Some (s, p) /\
     key_files C (str "pw") s p /\ Sign C (str "k.sec") (str "m") [] w = (Ok tt, w') /\ contents w' (str "m.sig") f /\ signed C (str "pw") s (str "hello") f).
Proof.
  intro LL. split.
  - destruct (GenerateKey_runs C (str "k") (str "pw") (Some 3) (start [] [] (repeat x11 56)) LL) as (w1 & G & _);
      [exact (le_n 56)|right; discriminate|reflexivity|].
    destruct (GenerateKey_success _ _ _ _ _ _ LL G) as (priv & pub & w0 & _ & S1 & S2 & _).
    assert (K : key_files C (str "pw") (sec_file priv) (pub_file pub)).
    { eapply made_here; [exact G|eexists; exact S1|eexists; exact S2|reflexivity]. }
    destruct (usable C (str "pw") (sec_file priv) (pub_file pub) (str "hello") LL K) as [U _].
    destruct (U (str "verify with k.pub") eq_refl) as (f & F).
    exists (sec_file priv), (pub_file pub), f. split; [exact K|]. split; [exact F|].
    apply (signed_there C _ _ _ (str "verify with k.pub")); [split; vm_compute; intuition discriminate|discriminate|exact F].
  - assert (E : exists s p, ob_generate C (str "pw") (repeat x11 32) (repeat x22 8) (repeat x33 16) 42 (str "signify") = Some (s, p)).
    { eexists. eexists. reflexivity. }
    destruct E as (s & p & E). 
    assert (K : key_files C (str "pw") s p).
    { apply (made_there C (str "pw") (repeat x11 32) (repeat x22 8) (repeat x33 16) 42 (str "signify") s p); try reflexivity; [discriminate| |exact E]. split; vm_compute; intuition discriminate. }
    destruct (usable C (str "pw") s p (str "hello") LL K) as [_ U].
    pose (w := start [(str "k.sec", s); (str "m", str "hello")] [Ok (str "pw")] []).
    destruct (U w (str "k.sec") (str "m") []) as (w' & Sg); [exists 420; reflexivity|exists 420; reflexivity|reflexivity|right; exists []; reflexivity|discriminate|].
    assert (Pn : pub_name (str "k.sec") (str "k.pub")).
    { exists (str "k"). split; [left; reflexivity|]. split; [vm_compute; intuition discriminate|]. exists []. split; [reflexivity|left; reflexivity]. }
    destruct (Sign_success C _ _ _ _ _ _ LL Pn Sg) as (q & m & _ & F).
    eexists s, p, _, w, w'. split; [exact E|]. split; [exact K|]. split; [exact Sg|]. split; [eexists; exact F|].
    eapply (signed_here C (str "pw") s (str "hello") (str "k.sec") (str "m") [] w w' (str "k.pub"));
      [exists 420; reflexivity|exists 420; reflexivity|right; exists []; reflexivity|exact Pn|split; vm_compute; intuition discriminate|reflexivity|exact Sg|eexists; exact F].
Qed.

(* the same key in three files *)
Definition ob_pub : bytes := str "untrusted comment: k" ++ [x0a] ++ str "RWQAAAAAAAAAAAAAAAAAAAAAAAAAAAAAAAAAAAAAAAAAAAAAAAAAAAAA" ++ [x0a].
Definition ob_pub_space : bytes := str "untrusted comment: k" ++ [x0a] ++ str "RWQAAAAAAAAAAAAAAAAAAAAAAAAA AAAAAAAAAAAAAAAAAAAAAAAAAAAA" ++ [x0a].
Definition ob_pub_bare : bytes := str "RWQAAAAAAAAAAAAAAAAAAAAAAAAAAAAAAAAAAAAAAAAAAAAAAAAAAAAA".
Lemma ob_pub_read : ob_read 42 ob_pub = Some (str "k", str "Ed" ++ repeat x00 40).
Proof. vm_compute. reflexivity. Qed.
Lemma ob_pub_here : readPublicKeyFile ob_pub = Ok (Pub (str "Ed") (repeat x00 8) (repeat x00 32)).
Proof. vm_compute. reflexivity. Qed.
Lemma ob_pub_clean : no_blanks ob_pub.
Proof.
  intros line text [b rest] E1 E2 c I S.
  change (split_line ob_pub) with (Some (str "untrusted comment: k", str "RWQAAAAAAAAAAAAAAAAAAAAAAAAAAAAAAAAAAAAAAAAAAAAAAAAAAAAA" ++ [x0a])) in E1.
  apply some_pair in E1. destruct E1 as [_ <-].
  change (split_line (str "RWQAAAAAAAAAAAAAAAAAAAAAAAAAAAAAAAAAAAAAAAAAAAAAAAAAAAAA" ++ [x0a])) with (Some (str "RWQAAAAAAAAAAAAAAAAAAAAAAAAAAAAAAAAAAAAAAAAAAAAAAAAAAAAA", @nil byte)) in E2.
  apply some_pair in E2. destruct E2 as [<- _]. cbn [fst] in I.
  assert (F : forallb (fun c => negb (ob_space c)) (str "RWQAAAAAAAAAAAAAAAAAAAAAAAAAAAAAAAAAAAAAAAAAAAAAAAAAAAAA") = true) by (vm_compute; reflexivity).
  rewrite forallb_forall in F. specialize (F c I). rewrite S in F. discriminate.
Qed.
Lemma only_there_refuted : exists f c b e, ob_read 42 f = Some (c, b) /\ readPublicKeyFile f = Err e.
Proof. exists ob_pub_space, (str "k"), (str "Ed" ++ repeat x00 40). eexists. split; vm_compute; reflexivity. Qed.
Lemma only_here_refuted : exists f pk, readPublicKeyFile f = Ok pk /\ ob_read 42 f = None.
Proof. exists ob_pub_bare, (Pub (str "Ed") (repeat x00 8) (repeat x00 32)). split; vm_compute; reflexivity. Qed.
