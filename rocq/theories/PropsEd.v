(* Property theorems: Ed25519 signatures, C70, and C24/C25 with a library that
   implements RFC 8032. *)
From Verif Require Import EdSigFacts SignWitness PointBytes.
Local Open Scope Z_scope.

(* C70: the routines of the package, composed as golang.org/x/crypto/ed25519 does *)
Theorem C70_sign : forall hash seed m, (forall x, length (hash x) = 64%nat) -> length seed = 32%nat ->
  lib_Sign hash (seed ++ lib_Public hash seed) m = Ed25519_sign hash seed m.
Proof. exact (fun hash seed m H L => eq_ind_r (fun A => lib_Sign hash (seed ++ A) m = Ed25519_sign hash seed m) (lib_Sign_ok hash H seed m L) (lib_Public_ok hash H seed)). Qed.
Print Assumptions C70_sign.

Theorem C70_verify : forall hash pub m sig, (forall x, length (hash x) = 64%nat) -> length pub = 32%nat ->
  (lib_Verify hash pub m sig = true <-> Ed25519_accepts hash pub m sig).
Proof. exact (fun hash pub m sig H => lib_Verify_ok hash H pub m sig). Qed.
Print Assumptions C70_verify.

Theorem C70_complete : forall hash seed m, Ed25519_accepts hash (Ed25519_public hash seed) m (Ed25519_sign hash seed m).
Proof. exact sign_accepted. Qed.
Print Assumptions C70_complete.

(* the second half of a signature is determined by the first, the key and the message *)
Theorem C70_strict : forall hash pub m R s s', length R = 32%nat ->
  Ed25519_accepts hash pub m (R ++ s) -> Ed25519_accepts hash pub m (R ++ s') -> s = s'.
Proof. exact accepted_unique. Qed.
Print Assumptions C70_strict.

Example C70_instance : forall seed m, length seed = 32%nat ->
  lib_Verify (sha512 toy) (lib_Public (sha512 toy) seed) m (lib_Sign (sha512 toy) (seed ++ lib_Public (sha512 toy) seed) m) = true /\
  lib_Verify (sha512 toy) (lib_Public (sha512 toy) seed) m (firstn 32 (lib_Sign (sha512 toy) (seed ++ lib_Public (sha512 toy) seed) m) ++ repeat xff 32) = false.
Proof.
  intros seed m L. rewrite (C70_sign _ _ _ toy_hash64 L), (lib_Public_ok _ toy_hash64). split.
  - apply C70_verify; [exact toy_hash64|apply point_bytes_length|apply C70_complete].
  - apply Bool.not_true_is_false. intro H. apply C70_verify in H; [|exact toy_hash64|apply point_bytes_length].
    destruct H as (L64 & H & _). rewrite skipn_app in H. rewrite app_length, repeat_length in L64.
    replace (length (firstn 32 (Ed25519_sign (sha512 toy) seed m))) with 32%nat in H by lia.
    rewrite skipn_all2 in H by lia. vm_compute in H. discriminate H.
Qed.

(* C24 *)
Theorem C24_sign_then_verify_rfc : forall C k pass opts w w1 v m mp s n,
  LengthLaws C -> conforms_ed25519 C -> conforms_signatures C ->
  GenerateKey C k pass opts w = (Ok tt, w1) ->
  w_fs v (sec_path k) = w_fs w1 (sec_path k) -> w_fs v (pub_path k) = w_fs w1 (pub_path k) ->
  contents v mp m -> w_faults v = [] ->
  (pass <> [] -> exists tl, w_tty v = Ok pass :: tl) ->
  last_component (pub_path k) n -> lf_free n -> Z.of_nat (length n) <= 65000 ->
  sigPathOf mp s <> [] -> sigPathOf mp s <> pub_path k -> sigPathOf mp s <> mp ->
  exists v1 v2, Sign C (sec_path k) mp s v = (Ok tt, v1) /\
    w_tty v1 = (match pass with [] => w_tty v | _ => tl (w_tty v) end) /\
    Verify C (pub_path k) mp s v1 = (Ok tt, v2).
Proof. exact sign_then_verify_rfc. Qed.
Print Assumptions C24_sign_then_verify_rfc.

Example C24_rfc_instance : LengthLaws toy_sig /\ conforms_ed25519 toy_sig /\ conforms_signatures toy_sig /\
  exists w1, GenerateKey toy_sig (str "dir/k") (str "pw") (Some 3) w_run = (Ok tt, w1).
Proof.
  split; [exact toy_sig_lengths|]. split; [exact toy_sig_ed|]. split; [exact toy_sig_conforms|].
  destruct (GenerateKey_runs toy_sig (str "dir/k") (str "pw") (Some 3) w_run toy_sig_lengths) as (w1 & G & _).
  - vm_compute. repeat constructor.
  - right. vm_compute. discriminate.
  - reflexivity.
  - exists w1. exact G.
Qed.

(* C25 *)
Theorem C25_accepts_rfc : forall C a b c w, conforms_signatures C ->
  (exists w', Verify C a b c w = (Ok tt, w')) <->
  undisturbed 3 w /\
  exists pf m sf pk sg, contents w a pf /\ contents w b m /\ contents w (sigPathOf b c) sf /\
    readPublicKeyFile pf = Ok pk /\ readSignatureFile sf = Ok sg /\
    p_keyAlgo pk = str "Ed" /\ pkAlgo sg = str "Ed" /\ p_keyNum pk = s_keyNum sg /\
    Ed25519_accepts (sha512 C) (p_key pk) m (sig sg).
Proof. exact Verify_rfc_iff. Qed.
Print Assumptions C25_accepts_rfc.

Example C25_rfc_instance : conforms_signatures toy_sig /\ exists w w', Verify toy_sig (str "dir/k.pub") (str "m") [] w = (Ok tt, w').
Proof.
  split; [exact toy_sig_conforms|].
  destruct C24_rfc_instance as (LL & CE & CS & w1 & G).
  assert (Hm : w_fs w1 (str "m") = w_fs w_run (str "m")) by (apply (GenerateKey_other _ _ _ _ _ _ _ _ G); discriminate).
  destruct (C24_sign_then_verify_rfc toy_sig (str "dir/k") (str "pw") (Some 3) w_run w1
    (World (w_fs w1) [] [] [Ok (str "pw")] [] [] []) (str "attack at dawn") (str "m") [] (str "k.pub") LL CE CS G)
    as (v1 & v2 & _ & _ & V); try reflexivity; try discriminate.
  - exists 420. exact Hm.
  - intros _. exists []. reflexivity.
  - split; [vm_compute; intuition discriminate|]. exists (str "dir/"). split; [reflexivity|]. right. exists (str "dir"). reflexivity.
  - vm_compute. intuition discriminate.
  - exists v1, v2. exact V.
Qed.
