(* Property theorems: whatever the operating system answers (C88). *)
From Verif Require Import CallExample CallFacts CallKeys CallSeal CallOpen SealWitness.
From Verif Require Import SpecCalls.
Local Open Scope Z_scope.

(* Verify *)
Theorem C88_verify : forall C O a b c h, Verify_os C O a b c [] = (Ok tt, h) <->
  answered O h /\ exists pf m sf, h = [SReadFile a (inl pf); SReadFile b (inl m); SReadFile (sigPathOf b c) (inl sf)] /\
    signature_text (fun k m s => ed_verify C k m s = true) pf m sf.
Proof. exact verify_ok. Qed.
Print Assumptions C88_verify.

Theorem C88_verify_calls : forall C O a b c r h, Verify_os C O a b c [] = (r, h) ->
  Forall (touches [a; b; sigPathOf b c] []) h /\ noticed nothing h r /\ in_use [] h = Some [].
Proof. exact verify_noticed. Qed.
Print Assumptions C88_verify_calls.

Example C88_verify_instance :
  verify_os (str "k.pub") = (Ok tt, [SReadFile (str "k.pub") (inl (pub_file toy_pub)); SReadFile (str "m") (inl (str "hello"));
                                     SReadFile (str "m.sig") (inl m_sig)]) /\
  verify_os (str "x") = (Err (ENotExist (str "x")), [SReadFile (str "x") (inr (ENotExist (str "x")))]).
Proof. exact example_verify. Qed.

(* Sign *)
Theorem C88_sign : forall C O k mp s h n, LengthLaws C -> pub_name k n -> Sign_os C O k mp s [] = (Ok tt, h) <->
  answered O h /\ exists kf priv asks p m, readPrivateKeyFile kf = Ok priv /\ unlocked_by C priv asks p /\
    h = [SReadFile k (inl kf)] ++ asks ++
        [SReadFile mp (inl m); SWriteFile (sigPathOf mp s) (signature_file n (keyAlgo p) (keyNum p) (ed_sign C (key p) m)) 420 None].
Proof. exact sign_ok. Qed.
Print Assumptions C88_sign.

Theorem C88_sign_calls : forall C O k mp s r h, Sign_os C O k mp s [] = (r, h) ->
  Forall (touches [k; mp] [sigPathOf mp s]) h /\ noticed nothing h r /\ in_use [] h = Some [].
Proof. exact sign_noticed. Qed.
Print Assumptions C88_sign_calls.

Example C88_sign_instance : LengthLaws toy /\
  snd (sign_os (str "k.sec") never) = [SReadFile (str "k.sec") (inl (sec_file toy_priv)); SReadFile (str "m") (inl (str "hello"));
                                       SWriteFile (str "m.sig") m_sig 420 None] /\
  fst (sign_os (str "k.sec") never) = Ok tt /\ fst (sign_os (str "k.sec") (fail_at 0)) = Err EFault /\
  fst (sign_os (str "l.sec") never) = Ok tt /\ firstn 3 (skipn 1 (snd (sign_os (str "l.sec") never))) = asked (str "right").
Proof. split; [exact toy_lengths|exact example_sign]. Qed.

(* GenerateKey *)
Theorem C88_generate : forall C O k pass opts h, LengthLaws C -> rand_rules O -> GenerateKey_os C O k pass opts [] = (Ok tt, h) ->
  answered O h /\ exists seed slt num priv pub, consistent_pair C pass opts (seed ++ slt ++ num) priv pub /\
    length seed = 32%nat /\ length slt = 16%nat /\ length num = 8%nat /\
    h = [SRand 32 (inl seed); SRand 16 (inl slt); SRand 8 (inl num);
         SWriteFile (sec_path k) (sec_file priv) 420 None; SWriteFile (pub_path k) (pub_file pub) 420 None].
Proof. exact generate_ok. Qed.
Print Assumptions C88_generate.

Theorem C88_generate_calls : forall C O k pass opts r h, GenerateKey_os C O k pass opts [] = (r, h) ->
  Forall (touches [] [sec_path k; pub_path k]) h /\ noticed nothing h r /\ in_use [] h = Some [].
Proof. exact generate_noticed. Qed.
Print Assumptions C88_generate_calls.

Example C88_generate_instance : (forall fs size ps fails, rand_rules (small_os fs size ps fails)) /\
  fst (generate_os never) = Ok tt /\ length (snd (generate_os never)) = 5%nat /\
  fst (generate_os (fail_at 0)) = Err EFault /\ length (snd (generate_os (fail_at 0))) = 4%nat.
Proof. split; [exact small_rand|exact example_generate]. Qed.

(* Seal *)
Theorem C88_seal : forall C O pk mp ep h, file_rules O -> Seal_os C O pk mp ep [] = (Ok tt, h) -> sealed_calls C pk mp ep h.
Proof. exact seal_content. Qed.
Print Assumptions C88_seal.

Theorem C88_seal_calls : forall C O pk mp ep r h, file_rules O -> Seal_os C O pk mp ep [] = (r, h) ->
  in_use [] h = Some [] /\ Forall (touches [pk; mp] [enc_path mp ep]) h /\ sealing_tail h r.
Proof. exact seal_calls. Qed.
Print Assumptions C88_seal_calls.

(* nil from Seal does not mean that every write succeeded *)
Theorem C88_seal_dropped_refuted : exists C O pk mp ep h, file_rules O /\ rand_rules O /\ Seal_os C O pk mp ep [] = (Ok tt, h) /\
  exists fd b n e, In (SWrite fd b n (Some e)) h.
Proof. exact seal_dropped. Qed.
Print Assumptions C88_seal_dropped_refuted.

Example C88_seal_instance : (forall fs size ps fails, file_rules (small_os fs size ps fails)) /\
  fst (seal_os 5 [str "hello"] never) = Ok tt /\ written 4 (snd (seal_os 5 [str "hello"] never)) = hello_text /\
  fst (seal_os 5 [str "hello, world"] never) = Ok tt /\ pieces 3 (snd (seal_os 5 [str "hello, world"] never)) = [str "hello, world"] /\
  fst (seal_os 0 [str "hello"] never) = Ok tt /\ written 4 (snd (seal_os 0 [str "hello"] never)) = sealed_file [] /\
  fst (seal_os 5 [] never) = Err EOF /\
  fst (seal_os 5 [str "hello"] (fail_at 3)) = Err EFault /\
  fst (seal_os 4 [str "hell"] (fail_at 33)) = Ok tt.
Proof. split; [exact small_rules|exact example_seal]. Qed.

(* Open *)
Theorem C88_open : forall C O, file_rules O -> forall fuel sk ep mp r h, BoxTidy C -> Open_os C O fuel sk ep mp [] = (r, h) ->
  (r = Ok tt -> exists out, In (SCreate mp 438 (inl out)) h) /\
  forall out, In (SCreate mp 438 (inl out)) h ->
  (written out h = [] /\ r <> Ok tt) \/
  exists kf priv fd asks p c t0 ts tl header ms l1 l2, readPrivateKeyFile kf = Ok priv /\ box_key_by C priv asks p /\
    h = [SReadFile sk (inl kf); SOpen ep (inl fd)] ++ l1 ++ [SCreate mp 438 (inl out)] ++ asks ++ l2 /\
    concat (pieces fd h) = c ++ [x0a] ++ t0 ++ concat ts ++ tl /\ lf_free c /\
    base64_of (no_crlf t0) header /\ length header = 72%nat /\
    slice 40 32 header = auth_sum C (slice 0 40 header) (shared_of C (box_secret C (key p)) header) /\
    boxed_texts C (shared_of C (box_secret C (key p)) header) 0 ts ms /\
    written out h = concat ms /\ Z.of_nat (length ms) <= count_of header /\
    (r = Ok tt -> tl = [] /\ Z.of_nat (length ms) = count_of header).
Proof. exact open_content. Qed.
Print Assumptions C88_open.

Theorem C88_open_calls : forall C O, file_rules O -> forall fuel sk ep mp r h, BoxTidy C -> Open_os C O fuel sk ep mp [] = (r, h) ->
  in_use [] h = Some [] /\ Forall (touches [sk; ep] [mp]) h /\ opening_tail mp h r.
Proof. exact open_calls. Qed.
Print Assumptions C88_open_calls.

Example C88_open_instance : BoxTidy toy /\
  fst (open_os hello_text never) = Ok tt /\ written 4 (snd (open_os hello_text never)) = str "hello" /\
  fst (open_os (firstn 60 hello_text) never) = Err (CorruptInput 16) /\ written 4 (snd (open_os (firstn 60 hello_text) never)) = [] /\
  existsb creates_out (snd (open_os (firstn 60 hello_text) never)) = true /\
  fst (open_os hello_text (fail_at 0)) = Err EFault.
Proof. split; [exact toy_tidy|exact example_open]. Qed.
