(* A small operating system, for runs of the operations of Calls.v. *)
From Verif Require Import SealWitness MemWitness CallFacts CallKeys CallSeal CallOpen.
From Verif Require Import SpecCalls.
Local Open Scope Z_scope.

(* files are read whole; reads through a descriptor take the pieces one after the other; the
   terminal answers "right"; the write number k fails with the error fails k *)
Definition is_SRead (s : step) : bool := match s with SRead _ _ _ _ => true | _ => false end.
Definition is_SWrite (s : step) : bool := match s with SWrite _ _ _ _ => true | _ => false end.
Definition small_os (fs : list (path * bytes)) (size : Z) (ps : list bytes) (fails : nat -> option error) : os := {|
  o_readfile := fun h p => match find (fun x => bytes_eqb (fst x) p) fs with Some x => inl (snd x) | None => inr (ENotExist p) end;
  o_writefile := fun h p b m => fails 0%nat;
  o_open := fun h p => inl 3%nat;
  o_create := fun h p m => inl 4%nat;
  o_stat := fun h fd => inl (Z.max 0 (Z.min size 1000));
  o_read := fun h fd n => match nth_error ps (length (filter is_SRead h)) with
                          | Some (x :: b) => if Z.of_nat (length (x :: b)) <=? Z.of_nat n then (x :: b, None) else ([], Some EFault)
                          | _ => ([], Some EOF)
                          end;
  o_write := fun h fd b => (Z.of_nat (length b), fails (length (filter is_SWrite h)));
  o_close := fun h fd => Some EFault;
  o_rand := fun h n => inl (repeat x05 n);
  o_pass := fun h => inl (str "right") |}.
Lemma small_rules fs size ps fails : file_rules (small_os fs size ps fails).
Proof.
  split.
  - intros h fd n b r E _. cbn [small_os o_read] in E. destruct (nth_error ps _) as [[|x b']|]; [injection E as <- <-; reflexivity| |injection E as <- <-; reflexivity].
    destruct (Z.leb_spec (Z.of_nat (length (x :: b'))) (Z.of_nat n)) as [L|L]; injection E as <- <-; [cbn [length] in *; lia|reflexivity].
  - intros h fd z E. cbn [small_os o_stat] in E. injection E as <-. lia.
Qed.
Lemma small_rand fs size ps fails : rand_rules (small_os fs size ps fails).
Proof. intros h n b E. cbn [small_os o_rand] in E. injection E as <-. apply repeat_length. Qed.

Definition never (k : nat) : option error := None.
Definition fail_at (n k : nat) : option error := if Nat.eqb k n then Some EFault else None.
Definition key_files : list (path * bytes) :=
  [(str "k.pub", pub_file toy_pub); (str "k.sec", sec_file toy_priv); (str "l.sec", sec_file toy_locked); (str "m", str "hello")].
Definition seal_os (size : Z) (ps : list bytes) (fails : nat -> option error) : res unit * list step :=
  Seal_os toy (small_os key_files size ps fails) (str "k.pub") (str "m") [] [].
Definition hello_text : bytes := sealed_file (sealed_body toy (repeat x07 32) (repeat x00 32) [str "hello"]).
Definition open_os (text : bytes) (fails : nat -> option error) : res unit * list step :=
  Open_os toy (small_os key_files 5 (map (fun x => [x]) text) fails) (fun _ => 1000%nat) (str "k.sec") (str "m.enc") (str "out") [].

(* Seal_os with the result of ToBox put in *)
Definition seal_with (edpub : bytes) {X : Type} (draw : nat -> MS X bytes) (message : Reader X) (messageLen : Z) (w : Writer X) : MS X unit := fun s =>
  if messageLen =? 0 then (Ok tt, s)
  else match draw 32%nat s with
  | (Err e, s) => (Err e, s)
  | (Panic, s) => (Panic, s)
  | (Ok epriv, s) =>
      match w (sealHeader toy (chunksFor messageLen) (x25519_base toy epriv) (box_precompute toy edpub epriv)) s with
      | ((_, Some e), s) => (Err e, s)
      | ((_, None), s) =>
        match for_loop (chunksFor messageLen) (seal_step toy X (box_precompute toy edpub epriv) message w) (zeroNonce, s) with
        | inl (_, s) => (Ok tt, s)
        | inr r => r
        end
      end
  end.
Definition seal_with_os (edpub : bytes) (O : os) (messagePath : path) : H unit :=
  hbind (h_open O messagePath) (fun fd =>
  hdefer (h_close O fd)
    (hbind (h_stat O fd) (fun messageLen =>
     hbind (h_create O (messagePath ++ str ".enc") 438) (fun out =>
     hdefer (h_close O out) (fun h =>
       match h_write O out (str "untrusted comment: psignify encrypted file" ++ [x0a]) h with
       | ((_, Some e), h) => (Err e, h)
       | ((_, None), h) =>
           let '(r, es) := seal_with edpub (X := enc * list step) (beside_rand O) (beside_reader (h_read O fd)) messageLen
                                (enc_write (h_write O out)) (NewEncoder, h) in
           let '(_, es) := enc_close (h_write O out) es in
           (r, snd es)
       end))))).
Lemma toy_pub_read : readPublicKeyFile (pub_file toy_pub) = Ok toy_pub.
Proof. vm_compute. reflexivity. Qed.
Lemma seal_os_eq size ps fails : seal_os size ps fails =
  seal_with_os (repeat x00 32) (small_os key_files size ps fails) (str "m") [SReadFile (str "k.pub") (inl (pub_file toy_pub))].
Proof.
  unfold seal_os, Seal_os, LoadPublicKey_os. set (O := small_os key_files size ps fails).
  assert (R : o_readfile O [] (str "k.pub") = inl (pub_file toy_pub)) by reflexivity. clearbody O.
  unfold hbind at 1. unfold hbind at 1. unfold h_readfile at 1. rewrite R. cbn [got]. unfold hlift at 1. rewrite toy_pub_read. cbn [app].
  unfold seal. rewrite toy_pub_box. reflexivity.
Qed.

(* the size is taken when the file is opened: what was added since is left out or comes along *)
Lemma example_seal :
  fst (seal_os 5 [str "hello"] never) = Ok tt /\ written 4 (snd (seal_os 5 [str "hello"] never)) = hello_text /\
  fst (seal_os 5 [str "hello, world"] never) = Ok tt /\ pieces 3 (snd (seal_os 5 [str "hello, world"] never)) = [str "hello, world"] /\
  fst (seal_os 0 [str "hello"] never) = Ok tt /\ written 4 (snd (seal_os 0 [str "hello"] never)) = sealed_file [] /\
  fst (seal_os 5 [] never) = Err EOF /\
  fst (seal_os 5 [str "hello"] (fail_at 3)) = Err EFault /\
  fst (seal_os 4 [str "hell"] (fail_at 33)) = Ok tt.
Proof.
  rewrite !seal_os_eq.
  split; [vm_compute; reflexivity|]. split; [vm_compute; reflexivity|]. split; [vm_compute; reflexivity|].
  split; [vm_compute; reflexivity|]. split; [vm_compute; reflexivity|]. split; [vm_compute; reflexivity|].
  split; [vm_compute; reflexivity|]. split; [vm_compute; reflexivity|]. vm_compute. reflexivity.
Qed.

Definition creates_out (s : step) : bool := match s with SCreate p _ (inl 4%nat) => bytes_eqb p (str "out") | _ => false end.
Lemma example_open :
  fst (open_os hello_text never) = Ok tt /\ written 4 (snd (open_os hello_text never)) = str "hello" /\
  fst (open_os (firstn 60 hello_text) never) = Err (CorruptInput 16) /\ written 4 (snd (open_os (firstn 60 hello_text) never)) = [] /\
  existsb creates_out (snd (open_os (firstn 60 hello_text) never)) = true /\
  fst (open_os hello_text (fail_at 0)) = Err EFault.
Proof.
  split; [vm_compute; reflexivity|]. split; [vm_compute; reflexivity|]. split; [vm_compute; reflexivity|].
  split; [vm_compute; reflexivity|]. split; [vm_compute; reflexivity|]. vm_compute. reflexivity.
Qed.

(* signing with a locked key, verifying, and generating *)
Definition sign_os (k : path) (fails : nat -> option error) : res unit * list step :=
  Sign_os toy (small_os key_files 0 [] fails) k (str "m") [] [].
Definition m_sig : bytes := signature_file (str "k.pub") (str "Ed") (repeat x13 8) (fit 64 (str "hello")).
Definition verify_os (p : path) : res unit * list step :=
  Verify_os toy (small_os ((str "m.sig", m_sig) :: key_files) 0 [] never) p (str "m") [] [].
Definition generate_os (fails : nat -> option error) : res unit * list step :=
  GenerateKey_os toy (small_os [] 0 [] fails) (str "k") (str "pw") (Some 3) [].
Lemma example_verify :
  verify_os (str "k.pub") = (Ok tt, [SReadFile (str "k.pub") (inl (pub_file toy_pub)); SReadFile (str "m") (inl (str "hello"));
                                     SReadFile (str "m.sig") (inl m_sig)]) /\
  verify_os (str "x") = (Err (ENotExist (str "x")), [SReadFile (str "x") (inr (ENotExist (str "x")))]).
Proof. split; vm_compute; reflexivity. Qed.
Lemma example_sign :
  snd (sign_os (str "k.sec") never) = [SReadFile (str "k.sec") (inl (sec_file toy_priv)); SReadFile (str "m") (inl (str "hello"));
                                       SWriteFile (str "m.sig") m_sig 420 None] /\
  fst (sign_os (str "k.sec") never) = Ok tt /\ fst (sign_os (str "k.sec") (fail_at 0)) = Err EFault /\
  fst (sign_os (str "l.sec") never) = Ok tt /\ firstn 3 (skipn 1 (snd (sign_os (str "l.sec") never))) = asked (str "right").
Proof.
  split; [vm_compute; reflexivity|]. split; [vm_compute; reflexivity|]. split; [vm_compute; reflexivity|].
  split; vm_compute; reflexivity.
Qed.
Lemma example_generate :
  fst (generate_os never) = Ok tt /\ length (snd (generate_os never)) = 5%nat /\
  fst (generate_os (fail_at 0)) = Err EFault /\ length (snd (generate_os (fail_at 0))) = 4%nat.
Proof. split; [vm_compute; reflexivity|]. split; [vm_compute; reflexivity|]. split; vm_compute; reflexivity. Qed.

(* what the theorems say, with noticed instead of ends *)
Lemma verify_noticed C O a b c r h : Verify_os C O a b c [] = (r, h) ->
  Forall (touches [a; b; sigPathOf b c] []) h /\ noticed nothing h r /\ in_use [] h = Some [].
Proof. intro H. destruct (verify_calls _ _ _ _ _ _ _ H) as (A & B & D). split; [exact A|]. split; [apply ends_noticed, B|exact D]. Qed.
Lemma sign_noticed C O k mp s r h : Sign_os C O k mp s [] = (r, h) ->
  Forall (touches [k; mp] [sigPathOf mp s]) h /\ noticed nothing h r /\ in_use [] h = Some [].
Proof. intro H. destruct (sign_calls _ _ _ _ _ _ _ H) as (A & B & D). split; [exact A|]. split; [apply ends_noticed, B|exact D]. Qed.
Lemma generate_noticed C O k pass opts r h : GenerateKey_os C O k pass opts [] = (r, h) ->
  Forall (touches [] [sec_path k; pub_path k]) h /\ noticed nothing h r /\ in_use [] h = Some [].
Proof. intro H. destruct (generate_calls _ _ _ _ _ _ _ H) as (A & B & D). split; [exact A|]. split; [apply ends_noticed, B|exact D]. Qed.

(* nil from Seal does not mean that every write succeeded *)
Lemma seal_os_pair size ps fails r h : fst (seal_os size ps fails) = r -> snd (seal_os size ps fails) = h ->
  Seal_os toy (small_os key_files size ps fails) (str "k.pub") (str "m") [] [] = (r, h).
Proof. unfold seal_os. destruct (Seal_os _ _ _ _ _ _) as [r0 h0]. intros <- <-. reflexivity. Qed.
Definition failing_write (s : step) : bool := match s with SWrite _ _ _ (Some _) => true | _ => false end.
Lemma dropped_in : existsb failing_write (snd (seal_os 4 [str "hell"] (fail_at 33))) = true.
Proof. rewrite seal_os_eq. vm_compute. reflexivity. Qed.
Lemma dropped_ok : fst (seal_os 4 [str "hell"] (fail_at 33)) = Ok tt.
Proof. rewrite seal_os_eq. vm_compute. reflexivity. Qed.
Lemma seal_dropped : exists C O pk mp ep h, file_rules O /\ rand_rules O /\ Seal_os C O pk mp ep [] = (Ok tt, h) /\
  exists fd b n e, In (SWrite fd b n (Some e)) h.
Proof.
  destruct (proj1 (existsb_exists _ _) dropped_in) as (s & I & Q).
  destruct s as [| | | | | |fd b n [e|]| | | |]; try discriminate Q.
  eexists toy, _, _, _, [], _. split; [apply small_rules|]. split; [apply small_rand|].
  split; [exact (seal_os_pair _ _ _ _ _ dropped_ok eq_refl)|]. exists fd, b, n, e. exact I.
Qed.
