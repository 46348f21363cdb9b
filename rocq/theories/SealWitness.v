(* Concrete runs of Seal and Open with the toy primitives: witnesses for refuted
   expectations and instances of the theorems. *)
From Coq Require Import FunctionalExtensionality.
From Verif Require Import SealOpen GoBase64Facts DecodeFacts.
From Verif Require Export RoundTrip SignWitness.

(* ---- C42: sealing a file onto itself ---- *)
Lemma fs_create_erase fs1 fs2 p m f1 f2 : fs1 p = Some f1 -> fs2 p = Some f2 -> f_mode f1 = f_mode f2 ->
  (forall x, x <> p -> fs1 x = fs2 x) -> fs_create fs1 p m = fs_create fs2 p m.
Proof.
  intros H1 H2 Hm Hx. apply functional_extensionality. intro x.
  destruct (list_eq_dec byte_eq_dec x p) as [->|Hn].
  - rewrite !fs_create_same. unfold file_mode. rewrite H1, H2, Hm. reflexivity.
  - rewrite !fs_create_other by exact Hn. apply Hx, Hn.
Qed.

Definition same_but (p : path) (w1 w2 : world) : Prop :=
  exists d1 d2 m, w_fs w1 p = Some (File d1 m) /\ w_fs w2 p = Some (File d2 m) /\ length d1 = length d2 /\
    (forall x, x <> p -> w_fs w1 x = w_fs w2 x) /\ w2 = set_fs w1 (w_fs w2).

Lemma pop_swap w g : pop_fault (set_fs w g) = (fst (pop_fault w), set_fs (snd (pop_fault w)) g).
Proof. destruct w as [? fl ? ? ? ? ?]. destruct fl; reflexivity. Qed.
Lemma pop_keeps w : w_fs (snd (pop_fault w)) = w_fs w.
Proof. destruct w as [? fl ? ? ? ? ?]. destruct fl; reflexivity. Qed.
Lemma pop_keeps_fds w : w_fds (snd (pop_fault w)) = w_fds w.
Proof. destruct w as [? fl ? ? ? ? ?]. destruct fl; reflexivity. Qed.

Lemma load_swap k w g : g k = w_fs w k ->
  LoadPublicKey k (set_fs w g) = (fst (LoadPublicKey k w), set_fs (snd (LoadPublicKey k w)) g) /\
  w_fs (snd (LoadPublicKey k w)) = w_fs w.
Proof.
  intro Hk. unfold LoadPublicKey, ReadFile, bind, lift. rewrite pop_swap. pose proof (pop_keeps w) as P.
  destruct (pop_fault w) as [x v]. cbn [fst snd] in *. cbn [w_fs set_fs]. rewrite Hk, P.
  destruct x; try (split; [reflexivity|exact P]); destruct (w_fs w k) as [fl|]; (split; [reflexivity|exact P]).
Qed.
Lemma open_swap k w g : (g k = None <-> w_fs w k = None) ->
  open_read k (set_fs w g) = (fst (open_read k w), set_fs (snd (open_read k w)) g) /\
  w_fs (snd (open_read k w)) = w_fs w /\
  (forall fd, fst (open_read k w) = Ok fd -> handle (snd (open_read k w)) fd k 0).
Proof.
  intro Hk. unfold open_read. rewrite pop_swap. pose proof (pop_keeps w) as P.
  destruct (pop_fault w) as [x v]. cbn [fst snd] in *. cbn [w_fs set_fs]. rewrite P.
  assert (X : forall fd, Ok (length (w_fds v)) = Ok fd -> handle (set_fds v (w_fds v ++ [(k, 0%nat)])) fd k 0).
  { intros fd E. injection E as <-. unfold handle. cbn. rewrite nth_error_app2, Nat.sub_diag by lia. reflexivity. }
  destruct x.
  2: split; [reflexivity|split; [exact P|discriminate]].
  all: destruct (w_fs w k) as [fl|] eqn:E1; destruct (g k) as [fl2|] eqn:E2;
    try (split; [reflexivity|split; [exact P|first [exact X|discriminate]]]).
  all: exfalso; destruct Hk as [Hk1 Hk2];
    first [discriminate (Hk1 eq_refl)|discriminate (Hk2 eq_refl)].
Qed.
Lemma size_swap fd k off w g a b : handle w fd k off -> w_fs w k = Some a -> g k = Some b -> length (f_data a) = length (f_data b) ->
  file_size fd (set_fs w g) = (fst (file_size fd w), set_fs (snd (file_size fd w)) g) /\
  w_fs (snd (file_size fd w)) = w_fs w.
Proof.
  intros Hh Ha Hb Hl. unfold file_size. rewrite pop_swap. pose proof (pop_keeps w) as P. pose proof (pop_keeps_fds w) as Q.
  destruct (pop_fault w) as [x v]. cbn [fst snd] in *. cbn [w_fs set_fs w_fds]. rewrite Q, Hh, P, Ha, Hb, Hl.
  destruct x; (split; [reflexivity|exact P]).
Qed.

Lemma Seal_in_place C pk mp ep w1 w2 r1 w1' r2 w2' : enc_path mp ep = mp -> pk <> mp -> same_but mp w1 w2 ->
  Seal C pk mp ep w1 = (r1, w1') -> Seal C pk mp ep w2 = (r2, w2') ->
  r1 = r2 /\ ((r1 <> Ok tt /\ w_fs w1' = w_fs w1 /\ w_fs w2' = w_fs w2) \/ w1' = w2').
Proof.
  intros Hep Hpk (d1 & d2 & m & F1 & F2 & Hl & Hx & Hw) H1 H2. rewrite Seal_eq, Hep in H1, H2.
  set (g := w_fs w2) in *. rewrite Hw in H2. 
  match goal with |- ?G => assert (Early : forall r x, (r, x) = (r1, w1') -> (r, set_fs x g) = (r2, w2') ->
     r <> Ok tt -> w_fs x = w_fs w1 -> G) end.
  { intros r x E1 E2 E3 G1. injection E1 as <- <-. injection E2 as <- <-. split; [reflexivity|].
    left. split; [exact E3|]. split; [exact G1|reflexivity]. }
  destruct (load_swap pk w1 g (eq_sym (Hx pk Hpk))) as [L1 L2]. rewrite L1 in H2. clear L1.
  destruct (LoadPublicKey pk w1) as [rl v1]. cbn [fst snd] in *.
  destruct rl as [pub|e|]; [|exact (Early _ _ H1 H2 ltac:(discriminate) L2)..].
  destruct (open_swap mp v1 g) as (O1 & O2 & O3). { rewrite L2, F1, F2. split; discriminate. }
  rewrite O1 in H2. clear O1. destruct (open_read mp v1) as [ro v2]. cbn [fst snd] in *. rewrite L2 in O2.
  destruct ro as [fd|e|]; [|exact (Early _ _ H1 H2 ltac:(discriminate) O2)..]. specialize (O3 fd eq_refl).
  destruct (size_swap fd mp 0 v2 g (File d1 m) (File d2 m) O3 ltac:(rewrite O2; exact F1) F2 Hl) as [S1 S2].
  rewrite S1 in H2. clear S1. destruct (file_size fd v2) as [rs v3]. cbn [fst snd] in *. rewrite O2 in S2.
  destruct rs as [L|e|]; [|exact (Early _ _ H1 H2 ltac:(discriminate) S2)..].
  unfold create_file in H1, H2. rewrite pop_swap in H2. pose proof (pop_keeps v3) as P. rewrite S2 in P.
  destruct (pop_fault v3) as [x v4]. cbn [fst snd] in *.
  assert (Same : do_create mp 438 (set_fs v4 g) = do_create mp 438 v4).
  { unfold do_create. cbn [w_fs set_fs]. rewrite P.
    rewrite (fs_create_erase (w_fs w1) g mp 438 (File d1 m) (File d2 m) F1 F2 eq_refl Hx). reflexivity. }
  destruct x; [|exact (Early _ _ H1 H2 ltac:(discriminate) P)|].
  all: destruct mp as [|c mp]; [exact (Early _ _ H1 H2 ltac:(discriminate) P)|];
    rewrite Same in H2; rewrite H1 in H2; injection H2 as <- <-; split; [reflexivity|right; reflexivity].
Qed.

(* after sealing a non-empty file onto itself, nothing distinguishes it from the
   sealing of some other message *)
Lemma Seal_in_place_lost C pk mp ep w m w' : enc_path mp ep = mp -> pk <> mp -> contents w mp m -> m <> [] ->
  Seal C pk mp ep w = (Ok tt, w') ->
  exists w2 m2, m2 <> m /\ contents w2 mp m2 /\ same_but mp w w2 /\ Seal C pk mp ep w2 = (Ok tt, w').
Proof.
  intros Hep Hpk (mo & Fm) Hm H. destruct m as [|c m]; [contradiction|].
  set (c2 := if beqb c x00 then x01 else x00).
  assert (Hc : c2 <> c) by (subst c2; destruct (beqb c x00) eqn:E; [apply beqb_eq in E; subst c; discriminate|intro X; rewrite <- X in E; discriminate]).
  set (g := fun q => if bytes_eqb q mp then Some (File (c2 :: m) mo) else w_fs w q).
  assert (Gm : g mp = Some (File (c2 :: m) mo)) by (unfold g; rewrite bytes_eqb_refl; reflexivity).
  assert (SB : same_but mp w (set_fs w g)).
  { exists (c :: m), (c2 :: m), mo. split; [exact Fm|]. split; [exact Gm|]. split; [reflexivity|]. split; [|reflexivity].
    intros x Hx. cbn [w_fs set_fs]. unfold g. destruct (bytes_eqb x mp) eqn:E; [apply bytes_eqb_eq in E; contradiction|reflexivity]. }
  exists (set_fs w g), (c2 :: m). split; [congruence|]. split; [exists mo; exact Gm|]. split; [exact SB|].
  destruct (Seal C pk mp ep (set_fs w g)) as [r2 w2'] eqn:E2.
  destruct (Seal_in_place _ _ _ _ _ _ _ _ _ _ Hep Hpk SB H E2) as [<- [(X & _)|<-]]; [contradiction X; reflexivity|reflexivity].
Qed.

(* ---- the toy key ---- *)
Definition toy_pk : bytes := x01 :: repeat x00 31.
Lemma toy_ToBox num : pub_ToBox (Pub (str "Ed") num toy_pk) = Ok (repeat x00 32).
Proof. exact (neutral_ToBox num). Qed.
Lemma toy_agree : ToBoxAgree toy.
Proof. intros num seed _. exact (toy_ToBox num). Qed.

(* Seal with the result of ToBox put in *)
Definition seal_box (C : Crypto) (edpub : bytes) (mp ep : path) (w : world) : res unit * world :=
  match open_read mp w with
  | (Ok fd, w) =>
    match file_size fd w with
    | (Ok L, w) =>
      match create_file (enc_path mp ep) 438 w with
      | (Ok _, w) =>
        match file_write (enc_path mp ep) comment_text w with
        | ((_, Some e), w) => (Err e, w)
        | ((_, None), w) =>
          let '(r, es) :=
            match lift_draw 32 (NewEncoder, w) with
            | (Err e, s) => (Err e, s)
            | (Panic, s) => (Panic, s)
            | (Ok epriv, s) =>
              let epub := x25519_base C epriv in
              let shared := box_precompute C edpub epriv in
              match enc_write (file_write (enc_path mp ep)) (sealHeader C (chunksFor L) epub shared) s with
              | ((_, Some e), s) => (Err e, s)
              | ((_, None), s) =>
                match for_loop (chunksFor L) (seal_step C (enc * world) shared (lift_reader (file_read fd)) (enc_write (file_write (enc_path mp ep)))) (zeroNonce, s) with
                | inl (_, s) => (Ok tt, s)
                | inr r => r
                end
              end
            end in
          let '(_, es) := enc_close (file_write (enc_path mp ep)) es in
          (r, snd es)
        end
      | (Err e, w) => (Err e, w)
      | (Panic, w) => (Panic, w)
      end
    | (Err e, w) => (Err e, w)
    | (Panic, w) => (Panic, w)
    end
  | (Err e, w) => (Err e, w)
  | (Panic, w) => (Panic, w)
  end.

Lemma Seal_box C pk mp ep w w1 pub edpub : LoadPublicKey pk w = (Ok pub, w1) -> pub_ToBox pub = Ok edpub ->
  (forall m, contents w1 mp m -> m <> []) ->
  Seal C pk mp ep w = seal_box C edpub mp ep w1.
Proof.
  intros HL HB Hm. rewrite Seal_eq, HL. unfold seal_box.
  destruct (open_read_spec mp w1) as (r2 & w2 & E2 & O2 & _ & D2). rewrite E2. destruct r2 as [fd|e|]; try reflexivity.
  destruct D2 as [(d & Efd & Cd & Hh)|(e & X & _)]; [|discriminate]. injection Efd as ->.
  pose proof O2 as (F2 & _). pose proof Cd as (mo & Fd). rewrite <- F2 in Fd.
  destruct (file_size_spec _ mp 0 d mo w2 Hh Fd) as (r3 & w3 & E3 & _ & _ & _ & C3). rewrite E3.
  destruct r3 as [L|e|]; try reflexivity. destruct C3 as [EL|(e & X & _)]; [|discriminate]. injection EL as ->.
  destruct (create_file (enc_path mp ep) 438 w3) as [[u|e|] w4]; try reflexivity.
  unfold seal_tail. destruct (file_write (enc_path mp ep) comment_text w4) as [[k [e|]] w5]; [reflexivity|].
  unfold seal. destruct (Z.eqb_spec (Z.of_nat (length d)) 0) as [E0|_]; [exfalso; apply (Hm d Cd); destruct d; [reflexivity|discriminate]|].
  rewrite HB. reflexivity.
Qed.

(* a toy pair, a message and some faults *)
Definition toy_pub : Public := Pub (str "Ed") (repeat x13 8) toy_pk.
Definition toy_priv : Private :=
  Priv (str "Ed") (str "BK") 0 (repeat x05 16) (repeat x21 8) (repeat x13 8) (repeat x21 32 ++ toy_pk).
Definition w_msg (m : bytes) (fl : list fault) : world :=
  World (files [(str "k.pub", pub_file toy_pub); (str "k.sec", sec_file toy_priv); (str "m", m)])
        fl (repeat x05 32) [] [] [] [].
Definition seal_run (m : bytes) (ep : path) (fl : list fault) : res unit * world :=
  seal_box toy (repeat x00 32) (str "m") ep (next (w_msg m fl)).
Lemma toy_seal m ep fl : m <> [] -> (forall k l, fl <> FFail k :: l) ->
  Seal toy (str "k.pub") (str "m") ep (w_msg m fl) = seal_run m ep fl.
Proof.
  intros Hm Hf. apply (Seal_box toy _ _ _ _ (next (w_msg m fl)) toy_pub).
  - assert (R : readPublicKeyFile (pub_file toy_pub) = Ok toy_pub) by (vm_compute; reflexivity).
    rewrite LoadPublicKey_eq. unfold ReadFile.
    destruct fl as [|f fl]; [|destruct f; [|exfalso; eapply Hf; reflexivity|]]; cbn [pop_fault w_msg w_faults w_fs set_faults files];
      change (bytes_eqb (str "k.pub") (str "k.pub")) with true; cbn iota; cbn [f_data]; rewrite R; reflexivity.
  - apply toy_ToBox.
  - intros d (mo & H). destruct fl as [|f fl]; cbn in H; injection H as <- _; exact Hm.
Qed.

Definition ok_then (n : nat) (f : fault) : list fault := repeat FOk n ++ [f].
Lemma ok_then_ok n f k l : ok_then (S n) f <> FFail k :: l.
Proof. discriminate. Qed.

Definition open_run (w : world) : res unit * world := Open toy (str "k.sec") (str "m.enc") (str "out") w.

(* C40: the 31st call, the read of the message, returns two bytes *)
Lemma short_read_run :
  let '(r, w1) := seal_run (str "hello") [] (ok_then 30 (FShort 1)) in
  let '(r2, w2) := open_run w1 in
  r = Ok tt /\ r2 = Ok tt /\ w_fs w2 (str "out") = Some (File (str "he") 438).
Proof. vm_compute. auto. Qed.

Lemma short_read_refuted : exists C pk sk mp ep out w m w1 w2 m2,
  LengthLaws C /\ BoxCorrect C /\ BoxTidy C /\ contents w mp m /\
  Seal C pk mp [] w = (Ok tt, w1) /\ w_faults w1 = [] /\ ep = enc_path mp [] /\
  Open C sk ep out w1 = (Ok tt, w2) /\ contents w2 out m2 /\ is_prefix m2 m /\ m2 <> m.
Proof.
  exists toy, (str "k.pub"), (str "k.sec"), (str "m"), (str "m.enc"), (str "out"), (w_msg (str "hello") (ok_then 30 (FShort 1))), (str "hello").
  exists (snd (seal_run (str "hello") [] (ok_then 30 (FShort 1)))).
  exists (snd (open_run (snd (seal_run (str "hello") [] (ok_then 30 (FShort 1)))))), (str "he").
  split; [exact toy_lengths|]. split; [exact toy_box|]. split; [exact toy_tidy|].
  split; [exists 420; reflexivity|].
  rewrite toy_seal by (apply ok_then_ok || discriminate).
  pose proof short_read_run as R. destruct (seal_run (str "hello") [] (ok_then 30 (FShort 1))) as [r w1] eqn:E1.
  cbn [snd] in *. fold (open_run w1). destruct (open_run w1) as [r2 w2]. destruct R as (-> & -> & R3).
  split; [reflexivity|]. split.
  { replace w1 with (snd (seal_run (str "hello") [] (ok_then 30 (FShort 1)))) by (rewrite E1; reflexivity). vm_compute. reflexivity. }
  split; [reflexivity|]. split; [reflexivity|]. split; [exists 438; exact R3|]. split; [exists (str "llo"); reflexivity|discriminate].
Qed.

(* C41: the 38th call, the write of the last two bytes' group, fails *)
Lemma lost_write_run :
  let '(r, w1) := seal_run (str "hell") [] (ok_then 37 (FFail 0)) in
  let '(r2, w2) := open_run w1 in
  r = Ok tt /\ w_faults w1 = [] /\ r2 <> Ok tt.
Proof. vm_compute. repeat split; discriminate. Qed.

Lemma lost_write_refuted : exists C pk sk mp ep out w m w1 w2 r2 p,
  LengthLaws C /\ BoxCorrect C /\ BoxTidy C /\ ToBoxAgree C /\ contents w mp m /\ no_short w /\
  Seal C pk mp [] w = (Ok tt, w1) /\ w_faults w1 = [] /\ ep = enc_path mp [] /\ recipient C w1 sk p /\
  Open C sk ep out w1 = (r2, w2) /\ r2 <> Ok tt.
Proof.
  exists toy, (str "k.pub"), (str "k.sec"), (str "m"), (str "m.enc"), (str "out"), (w_msg (str "hell") (ok_then 37 (FFail 0))), (str "hell").
  exists (snd (seal_run (str "hell") [] (ok_then 37 (FFail 0)))).
  exists (snd (open_run (snd (seal_run (str "hell") [] (ok_then 37 (FFail 0)))))).
  exists (fst (open_run (snd (seal_run (str "hell") [] (ok_then 37 (FFail 0)))))), toy_priv.
  split; [exact toy_lengths|]. split; [exact toy_box|]. split; [exact toy_tidy|]. split; [exact toy_agree|].
  split; [exists 420; reflexivity|]. split; [unfold no_short; cbn; repeat constructor; discriminate|].
  rewrite toy_seal by (apply ok_then_ok || discriminate).
  assert (K : recipient toy (snd (seal_run (str "hell") [] (ok_then 37 (FFail 0)))) (str "k.sec") toy_priv).
  { exists (sec_file toy_priv), toy_priv. split; [exists 420; vm_compute; reflexivity|]. split; [vm_compute; reflexivity|].
    left. split; [vm_compute; reflexivity|reflexivity]. }
  pose proof lost_write_run as R. destruct (seal_run (str "hell") [] (ok_then 37 (FFail 0))) as [r w1].
  cbn [snd] in *. fold (open_run w1). destruct (open_run w1) as [r2 w2]. destruct R as (-> & R2 & R3).
  split; [reflexivity|]. split; [exact R2|]. split; [reflexivity|]. split; [exact K|]. split; [reflexivity|exact R3].
Qed.

(* C39: a damaged encrypted file; the previous contents of the output are lost *)
Definition w_damaged : world :=
  start [(str "k.sec", sec_file toy_priv); (str "m.enc", comment_text ++ str "AAAA"); (str "out", str "precious")] [] [].
Lemma truncates_refuted : exists C sk ep mp w w' e old,
  LengthLaws C /\ BoxTidy C /\ no_faults w /\ contents w mp old /\ old <> [] /\
  Open C sk ep mp w = (Err e, w') /\ contents w' mp [].
Proof.
  exists toy, (str "k.sec"), (str "m.enc"), (str "out"), w_damaged. do 2 eexists. exists (str "precious").
  split; [exact toy_lengths|]. split; [exact toy_tidy|]. split; [reflexivity|]. split; [exists 420; reflexivity|]. split; [discriminate|].
  split; [apply surj; vm_compute; reflexivity|]. exists 420. vm_compute. reflexivity.
Qed.

(* ---- instances ---- *)
Lemma toy_recipient w : w_fs w (str "k.sec") = Some (File (sec_file toy_priv) 420) -> recipient toy w (str "k.sec") toy_priv.
Proof.
  intro H. exists (sec_file toy_priv), toy_priv. split; [exists 420; exact H|]. split; [vm_compute; reflexivity|].
  left. split; [vm_compute; reflexivity|reflexivity].
Qed.

(* one full piece *)
Definition big_piece : bytes := repeat x41 (Z.to_nat 16385).
Lemma big_full : full_pieces [big_piece] /\ all_full [big_piece].
Proof.
  assert (L : Z.of_nat (length big_piece) = 16385) by (unfold big_piece; rewrite repeat_length, Z2Nat.id; lia).
  split; [split; [|exact I]|constructor; [exact L|constructor]]. rewrite L. split; discriminate.
Qed.
Definition big_file (ext : bytes) : bytes :=
  sealed_file (sealed_body toy (repeat x07 32) (repeat x09 32) [big_piece]) ++ ext.
Definition w_big (ext : bytes) : world := start [(str "k.sec", sec_file toy_priv); (str "m.enc", big_file ext)] [] [].
Lemma w_big_contents ext : contents (w_big ext) (str "m.enc") (big_file ext).
Proof. exists 420. reflexivity. Qed.

(* C36: two different files that open to the same message *)
Lemma suffix_refuted : exists C sk ep mp w1 w2 d1 d2 w1' w2' m,
  LengthLaws C /\ BoxTidy C /\ BoxCorrect C /\ contents w1 ep d1 /\ contents w2 ep d2 /\ d1 <> d2 /\
  Open C sk ep mp w1 = (Ok tt, w1') /\ Open C sk ep mp w2 = (Ok tt, w2') /\ contents w1' mp m /\ contents w2' mp m.
Proof.
  assert (X : forall ext, exists w', Open toy (str "k.sec") (str "m.enc") (str "out") (w_big ext) = (Ok tt, w') /\ contents w' (str "out") (concat [big_piece])).
  { intro ext. apply (Open_suffix toy (str "k.sec") (str "m.enc") (str "out") (w_big ext) toy_priv (repeat x09 32) [big_piece] ext); try discriminate; try reflexivity.
    - exact toy_lengths.
    - exact toy_tidy.
    - exact toy_box.
    - apply toy_recipient. reflexivity.
    - apply big_full.
    - right. apply big_full.
    - exact (w_big_contents ext). }
  destruct (X []) as (w1' & A1 & A2). destruct (X (str "junk")) as (w2' & B1 & B2).
  exists toy, (str "k.sec"), (str "m.enc"), (str "out"), (w_big []), (w_big (str "junk")), (big_file []), (big_file (str "junk")), w1', w2', (concat [big_piece]).
  split; [exact toy_lengths|]. split; [exact toy_tidy|]. split; [exact toy_box|].
  split; [apply w_big_contents|]. split; [apply w_big_contents|]. split; [|auto].
  unfold big_file. intro E. apply app_inv_head in E. discriminate.
Qed.
