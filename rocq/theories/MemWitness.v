(* seal and open over readers that deliver little at a time: concrete runs with the toy primitives. *)
From Verif Require Import SealMem SpecMem SealOpen SealWitness.
Local Open Scope Z_scope.

(* seal with the result of ToBox put in *)
Lemma mem_seal_box {A} C epriv pub edpub (rd : Reader A) len a out : pub_ToBox pub = Ok edpub -> len <> 0 ->
  mem_seal C epriv pub rd len a out =
  match on_right buffer_write (sealHeader C (chunksFor len) (x25519_base C epriv) (box_precompute C edpub epriv)) (a, out) with
  | ((_, Some e), s) => (Err e, s)
  | ((_, None), s) =>
    match for_loop (chunksFor len) (seal_step C (A * bytes) (box_precompute C edpub epriv) (on_left rd) (on_right buffer_write)) (zeroNonce, s) with
    | inl (_, s) => (Ok tt, s)
    | inr r => r
    end
  end.
Proof. intros TB N. unfold mem_seal, seal. destruct (Z.eqb_spec len 0) as [X|_]; [contradiction|]. rewrite TB. reflexivity. Qed.

Definition two_segments : list bytes := [str "he"; str "llo"].
Definition he_sealed : bytes := sealed_body toy (repeat x07 32) (repeat x00 32) [str "he"].
Definition hello_sealed : bytes := sealed_body toy (repeat x07 32) (repeat x00 32) [str "hello"].

Lemma toy_pub_box : pub_ToBox toy_pub = Ok (repeat x00 32).
Proof. unfold toy_pub. exact (toy_ToBox (repeat x13 8)). Qed.
Lemma five : 5 <> 0.
Proof. discriminate. Qed.
Lemma pipe_seal : mem_seal toy (repeat x05 32) toy_pub pipe_read 5 two_segments [] = (Ok tt, ([str "llo"], he_sealed)).
Proof. refine (eq_trans (mem_seal_box toy (repeat x05 32) toy_pub (repeat x00 32) pipe_read 5 two_segments [] toy_pub_box five) _). vm_compute. reflexivity. Qed.
Lemma pipe_open_he : mem_open toy (repeat x05 32) mem_read he_sealed [] = (Ok tt, ([], str "he")).
Proof. vm_compute. reflexivity. Qed.
Lemma whole_seal : mem_seal toy (repeat x05 32) toy_pub mem_read 5 (str "hello") [] = (Ok tt, ([], hello_sealed)).
Proof. refine (eq_trans (mem_seal_box toy (repeat x05 32) toy_pub (repeat x00 32) mem_read 5 (str "hello") [] toy_pub_box five) _). vm_compute. reflexivity. Qed.

(* a reader that delivers short pieces: nil is returned, a prefix is sealed, and opens *)
Lemma pipe_seal_refuted : exists C pub epriv edpriv (segs : list bytes) rest sealed m,
  LengthLaws C /\ BoxTidy C /\ BoxCorrect C /\ DHCorrect C /\
  mem_seal C epriv pub pipe_read (Z.of_nat (length (concat segs))) segs [] = (Ok tt, (rest, sealed)) /\
  mem_open C edpriv mem_read sealed [] = (Ok tt, ([], m)) /\ is_prefix m (concat segs) /\ m <> concat segs.
Proof.
  exists toy, toy_pub, (repeat x05 32), (repeat x05 32), two_segments, [str "llo"], he_sealed, (str "he").
  split; [exact toy_lengths|]. split; [exact toy_tidy|]. split; [exact toy_box|]. split; [exact toy_dh|].
  split; [exact pipe_seal|]. split; [exact pipe_open_he|]. split; [exists (str "llo"); reflexivity|discriminate].
Qed.

(* a correct sealed text that arrives in segments of 50 bytes is rejected *)
Definition cut_sealed : list bytes := [firstn 50 hello_sealed; skipn 50 hello_sealed].
Lemma pipe_open_run : mem_open toy (repeat x05 32) pipe_read cut_sealed [] = (Err (short_header 50), ([skipn 50 hello_sealed], [])).
Proof. vm_compute. reflexivity. Qed.
Lemma whole_open_run : mem_open toy (repeat x05 32) mem_read hello_sealed [] = (Ok tt, ([], str "hello")).
Proof. vm_compute. reflexivity. Qed.
Lemma pipe_open_refuted : exists C pub epriv edpriv m sealed segs n s,
  LengthLaws C /\ BoxTidy C /\ BoxCorrect C /\ DHCorrect C /\
  mem_seal C epriv pub mem_read (Z.of_nat (length m)) m [] = (Ok tt, ([], sealed)) /\
  mem_open C edpriv mem_read sealed [] = (Ok tt, ([], m)) /\
  concat segs = sealed /\ mem_open C edpriv pipe_read segs [] = (Err (short_header n), s).
Proof.
  exists toy, toy_pub, (repeat x05 32), (repeat x05 32), (str "hello"), hello_sealed, cut_sealed, 50%nat, ([skipn 50 hello_sealed], []).
  split; [exact toy_lengths|]. split; [exact toy_tidy|]. split; [exact toy_box|]. split; [exact toy_dh|].
  split; [exact whole_seal|]. split; [exact whole_open_run|]. split; [reflexivity|exact pipe_open_run].
Qed.

(* the empty message does not make the round trip *)
Lemma empty_refuted : exists C pub epriv edpriv e s,
  LengthLaws C /\ BoxTidy C /\ BoxCorrect C /\ DHCorrect C /\
  mem_seal C epriv pub mem_read 0 [] [] = (Ok tt, ([], [])) /\ mem_open C edpriv mem_read [] [] = (Err e, s).
Proof.
  exists toy, toy_pub, (repeat x05 32), (repeat x05 32), EOF, ([], []).
  split; [exact toy_lengths|]. split; [exact toy_tidy|]. split; [exact toy_box|]. split; [exact toy_dh|]. split; reflexivity.
Qed.
