(* Two runs of the stream functions over different kinds of state that correspond step by step. *)
From Verif Require Import SealOpen.
Local Open Scope Z_scope.

Section Sim.
Variables S T : Type.
Variable R : S -> T -> Prop.

Definition alike {A} (x : A * S) (y : A * T) : Prop := fst x = fst y /\ R (snd x) (snd y).
Definition rsim (rd : Reader S) (rd' : Reader T) : Prop := forall n s t, R s t -> alike (rd n s) (rd' n t).
Definition wsim (wr : Writer S) (wr' : Writer T) : Prop := forall b s t, R s t -> alike (wr b s) (wr' b t).
Definition sim {A} (m : S -> A * S) (m' : T -> A * T) : Prop := forall s t, R s t -> alike (m s) (m' t).
End Sim.
Arguments alike {S T} R {A} x y.
Arguments rsim {S T} R rd rd'.
Arguments wsim {S T} R wr wr'.
Arguments sim {S T} R {A} m m'.

Ltac both H :=
  let a := fresh "a" in let s := fresh "s" in let b := fresh "b" in let t := fresh "t" in let E := fresh "E" in let R := fresh "R" in
  match type of H with
  | alike _ ?x ?y => destruct x as [a s], y as [b t]; destruct H as [E R]; cbn [fst snd] in E, R; subst b
  end.

Section Streams.
Variables S T : Type.
Variable RS : S -> T -> Prop.
Let RE (x : enc * S) (y : enc * T) : Prop := fst x = fst y /\ RS (snd x) (snd y).

Lemma skip_sim rd rd' fuel : rsim RS rd rd' -> forall c, sim RS (skip_loop fuel rd c) (skip_loop fuel rd' c).
Proof.
  intro Hr. induction fuel as [|fuel IH]; intros c s t R; cbn [skip_loop]; [split; [reflexivity|exact R]|].
  pose proof (Hr 1%nat s t R) as H. both H. destruct a as [got err|]; [|split; [reflexivity|exact R0]].
  destruct err; [split; [reflexivity|exact R0]|]. destruct (beqb _ x0a); [split; [reflexivity|exact R0]|]. apply IH, R0.
Qed.

Lemma skipComment_sim rd rd' fuel fuel' : rsim RS rd rd' -> (forall s t, RS s t -> fuel s = fuel' t) -> sim RS (skipComment fuel rd) (skipComment fuel' rd').
Proof.
  intros Hr Hf s t R. unfold skipComment. rewrite <- (Hf s t R). pose proof (skip_sim rd rd' (fuel s) Hr x00 s t R) as H. both H.
  destruct a; split; solve [reflexivity|exact R0].
Qed.

Lemma dec_loop_sim rd rd' fuel : rsim RS rd rd' -> forall el c n buf, sim RS (dec_loop fuel rd el c n buf) (dec_loop fuel rd' el c n buf).
Proof.
  intro Hr. induction fuel as [|fuel IH]; intros el c n buf s t R; cbn [dec_loop].
  - destruct (n =? el); split; solve [reflexivity|exact R].
  - destruct (n =? el); [split; [reflexivity|exact R]|]. pose proof (Hr 1%nat s t R) as H. both H.
    destruct a as [got err|]; [|split; [reflexivity|exact R0]].
    destruct err as [e|]; [destruct e; split; solve [reflexivity|exact R0]|].
    destruct (beqb _ x0a); apply IH, R0.
Qed.

Lemma dec_read_sim rd rd' fuel fuel' : rsim RS rd rd' -> (forall s t e, RS s t -> fuel s e = fuel' t e) -> rsim RS (dec_read fuel rd) (dec_read fuel' rd').
Proof.
  intros Hr Hf n s t R. unfold dec_read. rewrite <- (Hf s t _ R).
  pose proof (dec_loop_sim rd rd' (fuel s (EncodedLen (Z.of_nat n))) Hr (EncodedLen (Z.of_nat n)) x00 0 [] s t R) as H. both H.
  destruct a as [[buf|e|]|]; split; solve [reflexivity|exact R0].
Qed.

Lemma enc_loop_sim wr wr' p : wsim RS wr wr' -> forall n e s t, RS s t -> alike RE (enc_write_loop wr p n e s) (enc_write_loop wr' p n e t).
Proof.
  intro Hw. induction p as [|b p IH]; intros n e s t R; cbn [enc_write_loop]; [split; [reflexivity|split; [reflexivity|exact R]]|].
  destruct (_ =? 3)%nat; [|apply IH, R]. pose proof (Hw (StdEncode (set_nth (e_index e) b (e_buf e))) s t R) as H. both H. destruct a as [k err].
  destruct err; [split; [reflexivity|split; [reflexivity|exact R0]]|]. destruct (_ =? decodedSize); [|apply IH, R0].
  pose proof (Hw [x0a] s0 t0 R0) as H. both H. destruct a as [k' err].
  destruct err; [split; [reflexivity|split; [reflexivity|exact R1]]|]. apply IH, R1.
Qed.
Lemma enc_write_sim wr wr' : wsim RS wr wr' -> wsim RE (enc_write wr) (enc_write wr').
Proof. intros Hw b [e s] [e' t] [E R]. cbn [fst snd] in E, R. subst e'. apply enc_loop_sim; assumption. Qed.

Lemma enc_close_sim wr wr' : wsim RS wr wr' -> sim RE (enc_close wr) (enc_close wr').
Proof.
  intros Hw [e s] [e' t] [E R]. cbn [fst snd] in E, R. subst e'. unfold enc_close. destruct (0 <? e_index e)%nat.
  - pose proof (Hw (StdEncode (enc_pending e)) s t R) as H. both H. destruct a as [k err].
    destruct err; [split; [reflexivity|split; [reflexivity|exact R0]]|].
    pose proof (Hw [x0a] s0 t0 R0) as H. both H. destruct a as [k' err]. split; [reflexivity|split; [reflexivity|exact R1]].
  - pose proof (Hw [x0a] s t R) as H. both H. destruct a as [k' err]. split; [reflexivity|split; [reflexivity|exact R0]].
Qed.
End Streams.

(* loops with early exit *)
Definition exits {St St' Q Q'} (RT : St -> St' -> Prop) (RR : Q -> Q' -> Prop) (x : St + Q) (y : St' + Q') : Prop :=
  match x, y with inl a, inl b => RT a b | inr a, inr b => RR a b | _, _ => False end.
Lemma for_pos_sim {St St' Q Q'} (RT : St -> St' -> Prop) (RR : Q -> Q' -> Prop) step step' :
  (forall i a b, RT a b -> exits RT RR (step i a) (step' i b)) ->
  forall p i a b, RT a b -> exits RT RR (for_pos p step i a) (for_pos p step' i b).
Proof.
  intro H. induction p as [p IH|p IH|]; intros i a b T; cbn [for_pos].
  - pose proof (H i a b T) as X. destruct (step i a) as [a1|r1], (step' i b) as [b1|r2]; cbn in X; try contradiction; [|exact X].
    pose proof (IH (i + 1) a1 b1 X) as Y. destruct (for_pos p step (i + 1) a1) as [a2|r1], (for_pos p step' (i + 1) b1) as [b2|r2]; cbn in Y; try contradiction; [|exact Y].
    apply IH, Y.
  - pose proof (IH i a b T) as Y. destruct (for_pos p step i a) as [a2|r1], (for_pos p step' i b) as [b2|r2]; cbn in Y; try contradiction; [|exact Y].
    apply IH, Y.
  - apply H, T.
Qed.
Lemma for_loop_sim {St St' Q Q'} (RT : St -> St' -> Prop) (RR : Q -> Q' -> Prop) step step' n a b :
  (forall i a b, RT a b -> exits RT RR (step i a) (step' i b)) -> RT a b -> exits RT RR (for_loop n step a) (for_loop n step' b).
Proof. intros H T. destruct n; cbn [for_loop]; [exact T|apply (for_pos_sim _ _ _ _ H), T|exact T]. Qed.

Section Bodies.
Variable C : Crypto.
Variables S T : Type.
Variable RS : S -> T -> Prop.
Let RN (x : bytes * S) (y : bytes * T) : Prop := fst x = fst y /\ RS (snd x) (snd y).

Lemma seal_step_sim shared rd wr rd' wr' i nonce s t : rsim RS rd rd' -> wsim RS wr wr' -> RS s t ->
  exits RN (alike RS) (seal_step C S shared rd wr i (nonce, s)) (seal_step C T shared rd' wr' i (nonce, t)).
Proof.
  intros Hr Hw R. unfold seal_step. pose proof (Hr chunk_nat s t R) as H. both H.
  destruct a as [chunk [e|]|]; try (split; [reflexivity|exact R0]).
  pose proof (Hw (box_seal C chunk nonce shared) s0 t0 R0) as H. both H. destruct a as [k [e|]]; [split; [reflexivity|exact R1]|].
  destruct (incrementNonce nonce) as [n' [e|]]; split; solve [reflexivity|exact R1].
Qed.
Lemma open_step_sim shared rd wr rd' wr' i nonce s t : rsim RS rd rd' -> wsim RS wr wr' -> RS s t ->
  exits RN (alike RS) (open_step C S shared rd wr i (nonce, s)) (open_step C T shared rd' wr' i (nonce, t)).
Proof.
  intros Hr Hw R. unfold open_step. pose proof (Hr sealed_nat s t R) as H. both H.
  destruct a as [chunk [e|]|]; try (split; [reflexivity|exact R0]).
  destruct (box_open C chunk nonce shared) as [out|]; [|split; [reflexivity|exact R0]].
  pose proof (Hw out s0 t0 R0) as H. both H. destruct a as [k [e|]]; [split; [reflexivity|exact R1]|].
  destruct (incrementNonce nonce) as [n' [e|]]; split; solve [reflexivity|exact R1].
Qed.

Lemma seal_sim draw draw' pub rd rd' len wr wr' : (forall n, sim RS (draw n) (draw' n)) -> rsim RS rd rd' -> wsim RS wr wr' ->
  sim RS (seal C S draw pub rd len wr) (seal C T draw' pub rd' len wr').
Proof.
  intros Hd Hr Hw s t R. unfold seal. destruct (len =? 0); [split; [reflexivity|exact R]|].
  destruct (pub_ToBox pub) as [edpub|e|]; try (split; [reflexivity|exact R]).
  pose proof (Hd 32%nat s t R) as H. both H. destruct a as [epriv|e|]; try (split; [reflexivity|exact R0]).
  cbv zeta. set (sh := box_precompute C edpub epriv). set (hd := sealHeader C (chunksFor len) (x25519_base C epriv) sh).
  pose proof (Hw hd s0 t0 R0) as H. both H. destruct a as [k [e|]]; [split; [reflexivity|exact R1]|].
  assert (X : exits RN (alike RS) (for_loop (chunksFor len) (seal_step C S sh rd wr) (zeroNonce, s1)) (for_loop (chunksFor len) (seal_step C T sh rd' wr') (zeroNonce, t1))).
  { apply for_loop_sim; [|split; [reflexivity|exact R1]]. intros i [n s'] [n' t'] [En Rn]. cbn [fst snd] in En, Rn. subst n'. apply seal_step_sim; assumption. }
  destruct (for_loop (chunksFor len) (seal_step C S sh rd wr) (zeroNonce, s1)) as [[n1 x1]|[r1 x1]], (for_loop (chunksFor len) (seal_step C T sh rd' wr') (zeroNonce, t1)) as [[n2 x2]|[r2 x2]];
  cbn in X; try contradiction.
  - split; [reflexivity|apply X].
  - exact X.
Qed.

Lemma open_body_sim edpriv rd rd' wr wr' : rsim RS rd rd' -> wsim RS wr wr' -> sim RS (open_body C S edpriv rd wr) (open_body C T edpriv rd' wr').
Proof.
  intros Hr Hw s t R. unfold open_body. pose proof (Hr header_nat s t R) as H. both H.
  destruct a as [header [e|]|]; try (split; [reflexivity|exact R0]).
  destruct (negb _); [split; [reflexivity|exact R0]|]. cbv zeta. destruct (negb _); [split; [reflexivity|exact R0]|].
  set (sh := box_precompute C (firstn 32 (skipn 8 header)) edpriv). set (n := be_decode (firstn 8 header)).
  assert (X : exits RN (alike RS) (for_loop n (open_step C S sh rd wr) (zeroNonce, s0)) (for_loop n (open_step C T sh rd' wr') (zeroNonce, t0))).
  { apply for_loop_sim; [|split; [reflexivity|exact R0]]. intros i [m s'] [m' t'] [En Rn]. cbn [fst snd] in En, Rn. subst m'. apply open_step_sim; assumption. }
  destruct (for_loop n (open_step C S sh rd wr) (zeroNonce, s0)) as [[n1 x1]|[r1 x1]], (for_loop n (open_step C T sh rd' wr') (zeroNonce, t0)) as [[n2 x2]|[r2 x2]];
  cbn in X; try contradiction.
  - split; [reflexivity|apply X].
  - exact X.
Qed.
End Bodies.
