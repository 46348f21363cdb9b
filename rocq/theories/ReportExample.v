(* Concrete reports for PropsReport.v. *)
From Verif Require Export ReportFacts ReportSeal SealWitness TextExample.
Local Open Scope Z_scope.

Definition stored (d : bytes) : bytes := dataFileBytes (str "untrusted comment: c") d.
Definition num1 : bytes := str "number 1".
Definition num2 : bytes := str "number 2".
Definition pub_bytes (a n : bytes) : bytes := a ++ n ++ repeat x07 32.
Definition sig_bytes (a n : bytes) : bytes := a ++ n ++ repeat x07 64.
Definition three (pf sf : bytes) : world := start [(str "p", pf); (str "m", str "hello"); (str "m.sig", sf)] [] [].
Definition verdict (C : Crypto) (pf sf : bytes) : res unit := fst (Verify C (str "p") (str "m") [] (three pf sf)).

Lemma example_verify : forall C,
  verdict C (stored (str "ABC")) [] = Err (EMsg (str "signify: invalid public key length 3")) /\
  verdict C (str "hello") [] = Err (CorruptInput 4) /\
  verdict C (stored (pub_bytes (str "RW") num1)) (stored (sig_bytes (str "Ed") num1)) = Err (EMsg (str "signify: unknown key algo RW")) /\
  verdict C (stored (pub_bytes (str "Ed") num1)) (stored (sig_bytes (str "RW") num1)) = Err (EMsg (str "signify: not an Ed25519 signature (RW)")) /\
  verdict C (stored (pub_bytes (str "Ed") num1)) (stored (sig_bytes (str "Ed") num2)) = Err (EMsg (str "signify: key number mismatch")) /\
  verdict C (stored (pub_bytes (str "Ed") num1)) (stored (str "Ed")) = Panic /\
  fst (Verify C (str "p") (str "m2") [] (three (stored (pub_bytes (str "Ed") num1)) [])) = Err (ENotExist (str "m2")).
Proof. intro C. do 6 (split; [vm_compute; reflexivity|]). vm_compute. reflexivity. Qed.

(* "Ed", KDF, rounds, salt, checksum, number, key *)
Definition sec_bytes (kdf : bytes) (r : Z) (sum : bytes) : bytes :=
  str "Ed" ++ kdf ++ be_encode 4 r ++ repeat x05 16 ++ sum ++ num1 ++ repeat x07 64.
Definition two (kf : bytes) (tty : list (res bytes)) : world := start [(str "k.sec", kf); (str "m", str "hello")] tty [].
Definition signing (C : Crypto) (kf : bytes) (tty : list (res bytes)) : res unit := fst (Sign C (str "k.sec") (str "m") [] (two kf tty)).
Lemma example_sign : forall C,
  signing C (stored (sec_bytes (str "XX") 3 num2)) [Ok (str "pw")] = Err (EMsg (str "signify: unsupported KDF algorithm XX")) /\
  signing C (stored (sec_bytes (str "BK") 3 num2)) [Ok []] = Err (EMsg (str "bcrypt_pbkdf: empty password")) /\
  signing C (stored (sec_bytes (str "BK") 3 num2)) [] = Err ETty /\
  signing C (stored (str "EdBK")) [] = Err EOF /\
  signing C (stored (str "EdBK0")) [] = Err ErrUnexpectedEOF /\
  signing toy (stored (sec_bytes (str "BK") 3 num2)) [Ok (str "pw")] = Err (EMsg (str "signify: invalid private key checksum")) /\
  signing toy (stored (sec_bytes (str "XX") 0 num2)) [] = Ok tt.
Proof. intro C. do 6 (split; [vm_compute; reflexivity|]). vm_compute. reflexivity. Qed.

Definition sign_flags : list setting := [SetB x53 true; SetS x73 (str "k.sec"); SetS x6d (str "m")].
Definition sign_args : list bytes := [str "-S"; str "-s"; str "k.sec"; str "-m"; str "m"].
Lemma example_command :
  command_line sign_flags sign_args [] /\ stops [] /\ signs sign_flags /\
  sign_outcome (sha512 toy) (fun pass salt r => pbkdf toy pass salt r 64) (two (stored (sec_bytes (str "XX") 3 num2)) [Ok (str "pw")])
    (str "k.sec") (str "m") (str "m.sig") (Err (EMsg (str "signify: unsupported KDF algorithm XX"))) /\
  fst (main toy (str "psignify") None sign_args (two (stored (sec_bytes (str "XX") 3 num2)) [Ok (str "pw")])) = 1 /\
  w_log (snd (main toy (str "psignify") None sign_args (two (stored (sec_bytes (str "XX") 3 num2)) [Ok (str "pw")]))) =
    [EvOut (str "Password: "); EvOut [x0a]; EvErr (str "Signing m failed: signify: unsupported KDF algorithm XX" ++ [x0a])].
Proof.
  split; [exists ([[str "-S"]; [str "-s"; str "k.sec"]; [str "-m"; str "m"]]); split; [repeat constructor; flag|reflexivity]|].
  split; [constructor|]. split; [split; reflexivity|].
  split; [apply (Sign_outcome toy (str "k.sec") (str "m") [] (two (stored (sec_bytes (str "XX") 3 num2)) [Ok (str "pw")])); vm_compute; reflexivity|].
  split; vm_compute; reflexivity.
Qed.

(* opening, with no password asked for *)
Definition opening (ef : bytes) : res unit :=
  fst (Open toy (str "k.sec") (str "e") (str "out") (start [(str "k.sec", sec_file toy_priv); (str "e", ef)] [] [])).
Definition toy_body : bytes := sealed_body toy (box_precompute toy (repeat x00 32) (box_secret toy (repeat x21 32 ++ toy_pk))) (repeat x00 32) [str "hello"].
Definition flip_last (d : bytes) : bytes := removelast d ++ [if beqb (last d x00) x41 then x42 else x41].
Lemma example_open :
  opening (str "no line end") = Err EOF /\
  opening (comment_text ++ str "!!!!") = Err (CorruptInput 0) /\
  opening comment_text = Err (EMsg (str "signify/crypto: couldn't read the full header (read 0)")) /\
  opening (comment_text ++ str "AAAA") = Err (EMsg (str "signify/crypto: couldn't read the full header (read 3)")) /\
  opening (sealed_file (flip_last (firstn 72 toy_body))) = Err (EMsg (str "signify/crypto: failed to authenticate the message header")) /\
  opening (sealed_file (firstn 72 toy_body)) = Err (EChunk 0) /\
  opening (sealed_file toy_body) = Ok tt.
Proof. do 6 (split; [vm_compute; reflexivity|]). vm_compute. reflexivity. Qed.

(* sealing *)
Definition sealing (pf m rng : bytes) : res unit :=
  fst (Seal toy (str "k.pub") (str "m") [] (start [(str "k.pub", pf); (str "m", m)] [] rng)).
Lemma example_seal :
  sealing (stored (str "ABC")) (str "hello") [] = Err (EMsg (str "signify: invalid public key length 3")) /\
  sealing (stored (pub_bytes (str "Ed") num1)) [] [] = Ok tt /\
  sealing (stored (str "Ed" ++ num1 ++ x02 :: repeat x00 31)) (str "hello") (repeat x05 32) = Err (EMsg (str "signify: invalid public key")) /\
  sealing (pub_file toy_pub) (str "hello") (repeat x05 31) = Err ERand /\
  sealing (pub_file toy_pub) (str "hello") (repeat x05 32) = Ok tt.
Proof.
  assert (Q : enc_path (str "m") [] <> str "m") by discriminate.
  assert (NF : forall pf m rng, no_faults (start [(str "k.pub", pf); (str "m", m)] [] rng)) by reflexivity.
  assert (CK : forall pf m rng, contents (start [(str "k.pub", pf); (str "m", m)] [] rng) (str "k.pub") pf) by (intros; exists 420; reflexivity).
  assert (CM : forall pf m rng, contents (start [(str "k.pub", pf); (str "m", m)] [] rng) (str "m") m) by (intros; exists 420; reflexivity).
  split; [vm_compute; reflexivity|]. split; [vm_compute; reflexivity|]. split; [|split].
  - refine (Seal_stops toy _ _ [] _ _ (Pub (str "Ed") num1 (x02 :: repeat x00 31)) _ _ (NF _ _ _) (CK _ _ _) _ (CM _ _ _) _ Q (or_introl (two_ToBox _ _))).
    + vm_compute. reflexivity.
    + discriminate.
  - refine (Seal_stops toy _ _ [] _ _ toy_pub _ _ (NF _ _ _) (CK _ _ _) _ (CM _ _ _) _ Q (or_intror (conj (ex_intro _ _ (toy_ToBox _)) (conj _ eq_refl)))).
    + vm_compute. reflexivity.
    + discriminate.
    + apply Nat.ltb_lt. reflexivity.
  - destruct (pieces_exist (str "hello")) as (ms & Fp & Cat).
    destruct (Seal_runs toy (str "k.pub") (str "m") [] (start [(str "k.pub", pub_file toy_pub); (str "m", str "hello")] [] (repeat x05 32)) (pub_file toy_pub) toy_pub (str "hello") (repeat x00 32) ms) as (w' & E & _).
    all: try assumption. 1: apply NF. 1: apply CK. 1: vm_compute; reflexivity. 1: apply toy_ToBox. 1: apply CM. 1: discriminate. 1: reflexivity.
    1: apply Nat.leb_le; reflexivity.
    unfold sealing. rewrite E. reflexivity.
Qed.
