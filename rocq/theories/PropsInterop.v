(* C81: key pairs and signatures exchanged with OpenBSD's signify. *)
From Verif Require Import InteropWitness RealCrypto.
Local Open Scope Z_scope.

(* every file OpenBSD's reader accepts is read here as the same bytes *)
Theorem C81_reads : forall n f c buf, ob_read n f = Some (c, buf) -> no_blanks f ->
  exists com, readDataFileBytes f = Ok (DataFile com buf).
Proof. exact ob_read_here. Qed.
Print Assumptions C81_reads.
Example C81_reads_instance : ob_read 42 ob_pub = Some (str "k", str "Ed" ++ repeat x00 40) /\ no_blanks ob_pub /\
  readPublicKeyFile ob_pub = Ok (Pub (str "Ed") (repeat x00 8) (repeat x00 32)).
Proof. exact (conj ob_pub_read (conj ob_pub_clean ob_pub_here)). Qed.

(* a key pair made by either program is the same key to OpenBSD and here *)
Theorem C81_unlocks : forall C pass s p, LengthLaws C -> key_files C pass s p ->
  exists seed num c, length seed = 32%nat /\ length num = 8%nat /\
    ob_unlock C pass s = Some (num, seed ++ ed_public C seed) /\
    ob_read 42 p = Some (c, str "Ed" ++ num ++ ed_public C seed) /\
    readPublicKeyFile p = Ok (Pub (str "Ed") num (ed_public C seed)).
Proof. exact unlocks. Qed.
Print Assumptions C81_unlocks.

(* both programs can sign with it *)
Theorem C81_usable : forall C pass s p m, LengthLaws C -> key_files C pass s p ->
  (forall comment, Z.of_nat (length comment) < 1004 -> exists f, ob_sign C pass s comment m = Some f) /\
  (forall w k mp sp, contents w k s -> contents w mp m -> w_faults w = [] ->
     (pass = [] \/ exists tl, w_tty w = Ok pass :: tl) -> sigPathOf mp sp <> [] ->
     exists w', Sign C k mp sp w = (Ok tt, w')).
Proof. exact usable. Qed.
Print Assumptions C81_usable.

(* both programs accept what either signed *)
Theorem C81_exchange : forall C pass s p m f (accepts : bytes -> bytes -> bytes -> Prop),
  LengthLaws C -> EdCorrect C -> (forall k x y, ed_verify C k x y = true -> accepts k x y) ->
  key_files C pass s p -> signed C pass s m f ->
  ob_verifies accepts p f m /\
  forall v a b d, contents v a p -> contents v b m -> contents v (sigPathOf b d) f -> undisturbed 3 v ->
    exists v', Verify C a b d v = (Ok tt, v').
Proof. exact exchange. Qed.
Print Assumptions C81_exchange.

Theorem C81_exchange_real : forall C pass s p m f,
  LengthLaws C -> conforms_ed25519 C -> conforms_signatures C ->
  key_files C pass s p -> signed C pass s m f -> ob_verifies (ob_accepts (sha512 C)) p f m.
Proof. exact exchange_real. Qed.
Print Assumptions C81_exchange_real.
Example C81_instance :
  LengthLaws real /\ conforms_ed25519 real /\ conforms_signatures real /\
  (exists s p f, key_files real (str "pw") s p /\ ob_sign real (str "pw") s (str "verify with k.pub") (str "hello") = Some f /\ signed real (str "pw") s (str "hello") f) /\
  (exists s p f w w', ob_generate real (str "pw") (repeat x11 32) (repeat x22 8) (repeat x33 16) 42 (str "signify") = Some (s, p) /\
     key_files real (str "pw") s p /\ Sign real (str "k.sec") (str "m") [] w = (Ok tt, w') /\ contents w' (str "m.sig") f /\ signed real (str "pw") s (str "hello") f).
Proof. exact (conj real_lengths (conj real_ed (conj real_signatures (interop_instance real real_lengths)))). Qed.

(* on files both can read, Verify accepts exactly the signatures OpenBSD accepts whose S is reduced *)
Theorem C81_verify_agrees : forall C pf sf m c p c' s v a b d, conforms_signatures C ->
  ob_read 42 pf = Some (c, p) -> ob_read 74 sf = Some (c', s) -> Z.of_nat (length c') < 1024 -> no_blanks pf -> no_blanks sf ->
  contents v a pf -> contents v b m -> contents v (sigPathOf b d) sf -> undisturbed 3 v ->
  ((exists v', Verify C a b d v = (Ok tt, v')) <->
   ob_verifies (ob_accepts (sha512 C)) pf sf m /\ le_val (skipn 42 s) < ell).
Proof. exact verify_agrees. Qed.
Print Assumptions C81_verify_agrees.

(* so for every signature there is another file that only OpenBSD accepts *)
Theorem C81_extra_signatures : forall C pass s p m f,
  LengthLaws C -> conforms_ed25519 C -> conforms_signatures C ->
  key_files C pass s p -> signed C pass s m f ->
  exists g, ob_verifies (ob_accepts (sha512 C)) p g m /\
    forall v a b d, contents v a p -> contents v b m -> contents v (sigPathOf b d) g ->
      forall v', Verify C a b d v <> (Ok tt, v').
Proof. exact extra_signatures. Qed.
Print Assumptions C81_extra_signatures.

(* the sets of readable files differ in both directions *)
Theorem C81_only_there_refuted : exists f c b e, ob_read 42 f = Some (c, b) /\ readPublicKeyFile f = Err e.
Proof. exact only_there_refuted. Qed.
Print Assumptions C81_only_there_refuted.
Theorem C81_only_here_refuted : exists f pk, readPublicKeyFile f = Ok pk /\ ob_read 42 f = None.
Proof. exact only_here_refuted. Qed.
Print Assumptions C81_only_here_refuted.
