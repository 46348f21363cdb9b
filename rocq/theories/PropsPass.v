(* Property theorems: what the passphrase changes and what it leaves visible (C89). *)
From Verif Require Import SealWitness SpecPass PassFacts.
Local Open Scope Z_scope.

(* the public key file does not depend on the passphrase or the number of rounds *)
Theorem C89_public : forall C, LengthLaws C -> forall k1 k2 pass1 pass2 o1 o2 w1 w2 v1 v2,
  GenerateKey C k1 pass1 o1 w1 = (Ok tt, v1) -> GenerateKey C k2 pass2 o2 w2 = (Ok tt, v2) -> same_draw w1 w2 ->
  exists f, contents v1 (pub_path k1) f /\ contents v2 (pub_path k2) f.
Proof. exact same_public. Qed.
Print Assumptions C89_public.

(* of the secret key file only the number of rounds and the key do *)
Theorem C89_secret : forall C, LengthLaws C -> forall k1 k2 pass1 pass2 o1 o2 w1 w2 v1 v2,
  GenerateKey C k1 pass1 o1 w1 = (Ok tt, v1) -> GenerateKey C k2 pass2 o2 w2 = (Ok tt, v2) -> same_draw w1 w2 ->
  exists d1 d2 r1 r2 common x1 x2, file_holds v1 (sec_path k1) d1 /\ file_holds v2 (sec_path k2) d2 /\
    secret_parts d1 r1 common x1 /\ secret_parts d2 r2 common x2.
Proof. exact same_secret_parts. Qed.
Print Assumptions C89_secret.

(* the two files show half of the bytes derived from the passphrase, and a checksum of the key itself *)
Theorem C89_shown : forall C, LengthLaws C -> forall k pass opts w v,
  GenerateKey C k pass opts w = (Ok tt, v) -> pass <> [] ->
  exists ds dp, file_holds v (sec_path k) ds /\ file_holds v (pub_path k) dp /\ length ds = 104%nat /\ length dp = 42%nat /\
    slice 4 4 ds = be_encode 4 (rounds_of opts mod 2 ^ 32) /\
    slice 24 8 ds = firstn 8 (sha512 C (firstn 32 (w_rng w) ++ slice 10 32 dp)) /\
    xor_bytes (slice 72 32 ds) (slice 10 32 dp) = skipn 32 (pbkdf C pass (slice 8 16 ds) (rounds_of opts mod 2 ^ 32) 64).
Proof. exact shown. Qed.
Print Assumptions C89_shown.

(* signatures do not depend on the passphrase *)
Theorem C89_signature : forall C, LengthLaws C -> forall k pass1 pass2 o1 o2 w1 w2 w1' w2' v1 v2 mp m s u1 u2 r1 r2,
  GenerateKey C k pass1 o1 w1 = (Ok tt, w1') -> GenerateKey C k pass2 o2 w2 = (Ok tt, w2') -> same_draw w1 w2 ->
  w_fs v1 (sec_path k) = w_fs w1' (sec_path k) -> w_fs v2 (sec_path k) = w_fs w2' (sec_path k) ->
  contents v1 mp m -> contents v2 mp m -> typed pass1 v1 -> typed pass2 v2 ->
  w_faults v1 = [] -> w_faults v2 = [] -> sigPathOf mp s <> [] ->
  Sign C (sec_path k) mp s v1 = (r1, u1) -> Sign C (sec_path k) mp s v2 = (r2, u2) ->
  r1 = Ok tt /\ r2 = Ok tt /\ exists f, contents u1 (sigPathOf mp s) f /\ contents u2 (sigPathOf mp s) f.
Proof. exact same_signature. Qed.
Print Assumptions C89_signature.

(* nor does what Open says to a file *)
Theorem C89_opening : forall C, LengthLaws C -> forall k pass1 pass2 o1 o2 w1 w2 w1' w2' v1 v2 ep mp,
  GenerateKey C k pass1 o1 w1 = (Ok tt, w1') -> GenerateKey C k pass2 o2 w2 = (Ok tt, w2') -> same_draw w1 w2 ->
  not_mistaken C pass1 o1 (w_rng w1) -> not_mistaken C pass2 o2 (w_rng w2) ->
  w_fs v1 (sec_path k) = w_fs w1' (sec_path k) -> w_fs v2 (sec_path k) = w_fs w2' (sec_path k) ->
  w_fs v1 ep = w_fs v2 ep -> typed pass1 v1 -> typed pass2 v2 ->
  no_faults v1 -> no_faults v2 -> ep <> mp ->
  fst (Open C (sec_path k) ep mp v1) = fst (Open C (sec_path k) ep mp v2).
Proof. exact same_opening. Qed.
Print Assumptions C89_opening.

Example C89_instance : LengthLaws toy /\
  (let w := start [] [] (repeat x07 56) in
   fst (GenerateKey toy (str "k") (str "pw") (Some 3) w) = Ok tt /\ fst (GenerateKey toy (str "k") [] None w) = Ok tt /\
   same_draw w w /\ not_mistaken toy (str "pw") (Some 3) (w_rng w) /\ not_mistaken toy [] None (w_rng w) /\
   let f1 := snd (GenerateKey toy (str "k") (str "pw") (Some 3) w) in
   let f2 := snd (GenerateKey toy (str "k") [] None w) in
   w_fs f1 (str "k.pub") = w_fs f2 (str "k.pub") /\ w_fs f1 (str "k.sec") <> w_fs f2 (str "k.sec")).
Proof.
  split; [exact toy_lengths|]. cbv zeta. split; [vm_compute; reflexivity|]. split; [vm_compute; reflexivity|].
  split; [reflexivity|]. split; [intros _; vm_compute; discriminate|]. split; [intros X; exfalso; apply X; reflexivity|].
  split; [vm_compute; reflexivity|]. vm_compute. discriminate.
Qed.
