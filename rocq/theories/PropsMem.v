From Verif Require Import MemWitness SealMem SpecMem SealOpen SealWitness RealCrypto.
Import ListNotations.
Local Open Scope Z_scope.

(* C80 *)
Theorem C80_seal : forall A C (rd : Reader A) epriv pub edpub len a out, pub_ToBox pub = Ok edpub -> 0 < len < 2 ^ 63 ->
  let shared := box_precompute C edpub epriv in let n := (len + 16384) / 16385 in
  exists ms a1 r a', delivered rd (Z.to_nat 16385) a ms a1 /\
    mem_seal C epriv pub rd len a out = (r, (a', out ++ sealed_header C shared (x25519_base C epriv) n ++ boxes C shared 0 ms)) /\
    ((r = Ok tt /\ Z.of_nat (length ms) = n /\ a' = a1) \/ (Z.of_nat (length ms) < n /\ stopped rd (Z.to_nat 16385) a1 r a')).
Proof. exact (fun A C rd => seal_any A C rd). Qed.
Print Assumptions C80_seal.

Theorem C80_open : forall A C (rd : Reader A) edpriv a out r a' out', BoxTidy C -> BoxCorrect C -> mem_open C edpriv rd a out = (r, (a', out')) ->
  (out' = out /\ stopped rd 72 a r a') \/
  exists h a0, rd 72%nat a = (RRet h None, a0) /\
  ((length h <> 72%nat /\ r = Err (short_header (length h)) /\ a' = a0 /\ out' = out) \/
   (length h = 72%nat /\
    ((skipn 40 h <> auth_sum C (firstn 40 h) (shared_of C edpriv h) /\ r = Err bad_header /\ a' = a0 /\ out' = out) \/
     (skipn 40 h = auth_sum C (firstn 40 h) (shared_of C edpriv h) /\
      exists cs ms a1, delivered rd (Z.to_nat 16401) a0 cs a1 /\ boxed C (shared_of C edpriv h) 0 cs ms /\ out' = out ++ concat ms /\
      ((r = Ok tt /\ Z.of_nat (length cs) = count_of h /\ a' = a1) \/
       (Z.of_nat (length cs) < count_of h /\
        (stopped rd (Z.to_nat 16401) a1 r a' \/
         exists c, rd (Z.to_nat 16401) a1 = (RRet c None, a') /\ (forall m, c <> box_seal C m (nonce (Z.of_nat (length cs))) (shared_of C edpriv h)) /\
           r = Err (EChunk (Z.of_nat (length cs)))))))))).
Proof. exact (fun A C rd => open_any A C rd). Qed.
Print Assumptions C80_open.

Theorem C80_round_trip : forall C pass opts w priv pub w0 epriv m v, LengthLaws C -> BoxTidy C -> BoxCorrect C -> DHCorrect C -> ToBoxAgree C ->
  GenerateKeypair C pass opts w = (Ok (priv, pub), w0) -> not_mistaken C pass opts (w_rng w) -> length epriv = 32%nat ->
  m <> [] -> Z.of_nat (length m) < 2 ^ 63 -> (pass <> [] -> exists tl, w_tty v = Ok pass :: tl) ->
  exists sealed v', mem_seal C epriv pub mem_read (Z.of_nat (length m)) m [] = (Ok tt, ([], sealed)) /\
    mem_open_with C priv mem_read sealed [] v = (Ok tt, ([], m), v').
Proof. exact mem_round_trip. Qed.
Print Assumptions C80_round_trip.

(* with the primitives of C71 *)
Theorem C80_round_trip_real : forall pass opts w priv pub w0 epriv m v,
  GenerateKeypair real pass opts w = (Ok (priv, pub), w0) -> not_mistaken real pass opts (w_rng w) -> length epriv = 32%nat ->
  m <> [] -> Z.of_nat (length m) < 2 ^ 63 -> (pass <> [] -> exists tl, w_tty v = Ok pass :: tl) ->
  exists sealed v', mem_seal real epriv pub mem_read (Z.of_nat (length m)) m [] = (Ok tt, ([], sealed)) /\
    mem_open_with real priv mem_read sealed [] v = (Ok tt, ([], m), v').
Proof. exact (fun pass opts w priv pub w0 epriv m v => mem_round_trip real pass opts w priv pub w0 epriv m v real_lengths real_tidy real_box real_dh real_agree). Qed.
Print Assumptions C80_round_trip_real.

Theorem C80_short_reads_refuted : exists C pub epriv edpriv (segs : list bytes) rest sealed m,
  LengthLaws C /\ BoxTidy C /\ BoxCorrect C /\ DHCorrect C /\
  mem_seal C epriv pub pipe_read (Z.of_nat (length (concat segs))) segs [] = (Ok tt, (rest, sealed)) /\
  mem_open C edpriv mem_read sealed [] = (Ok tt, ([], m)) /\ is_prefix m (concat segs) /\ m <> concat segs.
Proof. exact pipe_seal_refuted. Qed.
Print Assumptions C80_short_reads_refuted.

Theorem C80_any_delivery_refuted : exists C pub epriv edpriv m sealed segs n s,
  LengthLaws C /\ BoxTidy C /\ BoxCorrect C /\ DHCorrect C /\
  mem_seal C epriv pub mem_read (Z.of_nat (length m)) m [] = (Ok tt, ([], sealed)) /\
  mem_open C edpriv mem_read sealed [] = (Ok tt, ([], m)) /\
  concat segs = sealed /\ mem_open C edpriv pipe_read segs [] = (Err (short_header n), s).
Proof. exact pipe_open_refuted. Qed.
Print Assumptions C80_any_delivery_refuted.

Theorem C80_empty_refuted : exists C pub epriv edpriv e s,
  LengthLaws C /\ BoxTidy C /\ BoxCorrect C /\ DHCorrect C /\
  mem_seal C epriv pub mem_read 0 [] [] = (Ok tt, ([], [])) /\ mem_open C edpriv mem_read [] [] = (Err e, s).
Proof. exact empty_refuted. Qed.
Print Assumptions C80_empty_refuted.

(* a key that converts, a reader that delivers two segments, and the header and box of a message of five bytes *)
Example C80_instance :
  pub_ToBox toy_pub = Ok (repeat x00 32) /\
  delivered pipe_read (Z.to_nat 16385) two_segments two_segments [] /\
  mem_seal toy (repeat x05 32) toy_pub mem_read 5 (str "hello") [] = (Ok tt, ([], hello_sealed)) /\ length hello_sealed = 93%nat /\
  mem_open toy (repeat x05 32) mem_read hello_sealed [] = (Ok tt, ([], str "hello")) /\ ToBoxAgree toy.
Proof.
  split; [exact toy_pub_box|]. split; [eapply del_cons; [reflexivity|eapply del_cons; [reflexivity|apply del_nil]]|].
  split; [exact whole_seal|]. split; [reflexivity|]. split; [exact whole_open_run|exact toy_agree].
Qed.
