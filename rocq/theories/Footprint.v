(* What a call of the library depends on: the proofs. *)
From Verif Require Import ConcCalls ConcGen ConcFacts SpecConc SealOpen CmdFacts RoundTrip SignFacts Torn SealCrash SealFacts OpenFacts.
Local Open Scope Z_scope.

Definition same {S A} (RS : S -> S -> Prop) (x y : A * S) : Prop := fst x = fst y /\ RS (snd x) (snd y).
Definition rresp {S} (RS : S -> S -> Prop) (rd : Reader S) : Prop := forall n s t, RS s t -> same RS (rd n s) (rd n t).
Definition wresp {S} (RS : S -> S -> Prop) (wr : Writer S) : Prop := forall b s t, RS s t -> same RS (wr b s) (wr b t).
Definition resp {S A} (RS : S -> S -> Prop) (m : S -> A * S) : Prop := forall s t, RS s t -> same RS (m s) (m t).

(* replaces a step of both runs by its common result *)
Ltac both H :=
  let a := fresh "a" in let s := fresh "s" in let b := fresh "b" in let t := fresh "t" in let E := fresh "E" in let R := fresh "R" in
  match type of H with
  | same _ ?x ?y => destruct x as [a s], y as [b t]; destruct H as [E R]; cbn [fst snd] in E, R; subst b
  end.

Section Streams.
Variable S : Type.
Variable RS : S -> S -> Prop.
Let RE (x y : enc * S) : Prop := fst x = fst y /\ RS (snd x) (snd y).

Lemma skip_resp rd fuel : rresp RS rd -> forall c, resp RS (skip_loop fuel rd c).
Proof.
  intro Hr. induction fuel as [|fuel IH]; intros c s t R; cbn [skip_loop]; [split; [reflexivity|exact R]|].
  pose proof (Hr 1%nat s t R) as H. both H. destruct a as [got err|]; [|split; [reflexivity|exact R0]].
  destruct err; [split; [reflexivity|exact R0]|]. destruct (beqb _ x0a); [split; [reflexivity|exact R0]|]. apply IH, R0.
Qed.

Lemma skipComment_resp rd fuel : rresp RS rd -> (forall s t, RS s t -> fuel s = fuel t) -> resp RS (skipComment fuel rd).
Proof.
  intros Hr Hf s t R. unfold skipComment. rewrite <- (Hf s t R). pose proof (skip_resp rd (fuel s) Hr x00 s t R) as H. both H.
  destruct a; split; solve [reflexivity|exact R0].
Qed.

Lemma dec_loop_resp rd fuel : rresp RS rd -> forall el c n buf, resp RS (dec_loop fuel rd el c n buf).
Proof.
  intro Hr. induction fuel as [|fuel IH]; intros el c n buf s t R; cbn [dec_loop].
  - destruct (n =? el); split; solve [reflexivity|exact R].
  - destruct (n =? el); [split; [reflexivity|exact R]|]. pose proof (Hr 1%nat s t R) as H. both H.
    destruct a as [got err|]; [|split; [reflexivity|exact R0]].
    destruct err as [e|]; [destruct e; split; solve [reflexivity|exact R0]|].
    destruct (beqb _ x0a); apply IH, R0.
Qed.

Lemma dec_read_resp rd fuel : rresp RS rd -> (forall s t e, RS s t -> fuel s e = fuel t e) -> rresp RS (dec_read fuel rd).
Proof.
  intros Hr Hf n s t R. unfold dec_read. rewrite <- (Hf s t _ R).
  pose proof (dec_loop_resp rd (fuel s (EncodedLen (Z.of_nat n))) Hr (EncodedLen (Z.of_nat n)) x00 0 [] s t R) as H. both H.
  destruct a as [[buf|e|]|]; split; solve [reflexivity|exact R0].
Qed.

Lemma enc_loop_resp wr p : wresp RS wr -> forall n e s t, RS s t -> same RE (enc_write_loop wr p n e s) (enc_write_loop wr p n e t).
Proof.
  intro Hw. induction p as [|b p IH]; intros n e s t R; cbn [enc_write_loop]; [split; [reflexivity|split; [reflexivity|exact R]]|].
  destruct (_ =? 3)%nat; [|apply IH, R]. pose proof (Hw (StdEncode (set_nth (e_index e) b (e_buf e))) s t R) as H. both H. destruct a as [k err].
  destruct err; [split; [reflexivity|split; [reflexivity|exact R0]]|]. destruct (_ =? decodedSize); [|apply IH, R0].
  pose proof (Hw [x0a] s0 t0 R0) as H. both H. destruct a as [k' err].
  destruct err; [split; [reflexivity|split; [reflexivity|exact R1]]|]. apply IH, R1.
Qed.
Lemma enc_write_resp wr : wresp RS wr -> wresp RE (enc_write wr).
Proof. intros Hw b [e s] [e' t] [E R]. cbn [fst snd] in E, R. subst e'. apply enc_loop_resp; assumption. Qed.

Lemma enc_close_resp wr : wresp RS wr -> resp RE (enc_close wr).
Proof.
  intros Hw [e s] [e' t] [E R]. cbn [fst snd] in E, R. subst e'. unfold enc_close. destruct (0 <? e_index e)%nat.
  - pose proof (Hw (StdEncode (enc_pending e)) s t R) as H. both H. destruct a as [k err].
    destruct err; [split; [reflexivity|split; [reflexivity|exact R0]]|].
    pose proof (Hw [x0a] s0 t0 R0) as H. both H. destruct a as [k' err]. split; [reflexivity|split; [reflexivity|exact R1]].
  - pose proof (Hw [x0a] s t R) as H. both H. destruct a as [k' err]. split; [reflexivity|split; [reflexivity|exact R0]].
Qed.

(* loops with early exit *)
Definition step_same {St R} (RT : St -> St -> Prop) (RR : R -> R -> Prop) (x y : St + R) : Prop :=
  match x, y with inl a, inl b => RT a b | inr a, inr b => RR a b | _, _ => False end.
Lemma for_pos_resp {St R} (RT : St -> St -> Prop) (RR : R -> R -> Prop) step :
  (forall i a b, RT a b -> step_same RT RR (step i a) (step i b)) ->
  forall p i a b, RT a b -> step_same RT RR (for_pos p step i a) (for_pos p step i b).
Proof.
  intro H. induction p as [p IH|p IH|]; intros i a b T; cbn [for_pos].
  - pose proof (H i a b T) as X. destruct (step i a) as [a1|r1], (step i b) as [b1|r2]; cbn in X; try contradiction; [|exact X].
    pose proof (IH (i + 1) a1 b1 X) as Y. destruct (for_pos p step (i + 1) a1) as [a2|r1], (for_pos p step (i + 1) b1) as [b2|r2]; cbn in Y; try contradiction; [|exact Y].
    apply IH, Y.
  - pose proof (IH i a b T) as Y. destruct (for_pos p step i a) as [a2|r1], (for_pos p step i b) as [b2|r2]; cbn in Y; try contradiction; [|exact Y].
    apply IH, Y.
  - apply H, T.
Qed.
Lemma for_loop_resp {St R} (RT : St -> St -> Prop) (RR : R -> R -> Prop) step n a b :
  (forall i a b, RT a b -> step_same RT RR (step i a) (step i b)) -> RT a b -> step_same RT RR (for_loop n step a) (for_loop n step b).
Proof. intros H T. destruct n; cbn [for_loop]; [exact T|apply (for_pos_resp _ _ _ H), T|exact T]. Qed.
End Streams.

Section Bodies.
Variable C : Crypto.
Variable S : Type.
Variable RS : S -> S -> Prop.

Lemma seal_step_resp shared rd wr i nonce s t : rresp RS rd -> wresp RS wr -> RS s t ->
  step_same (fun x y => fst x = fst y /\ RS (snd x) (snd y)) (same RS) (seal_step C S shared rd wr i (nonce, s)) (seal_step C S shared rd wr i (nonce, t)).
Proof.
  intros Hr Hw R. unfold seal_step. pose proof (Hr chunk_nat s t R) as H. both H.
  destruct a as [chunk [e|]|]; try (split; [reflexivity|exact R0]).
  pose proof (Hw (box_seal C chunk nonce shared) s0 t0 R0) as H. both H. destruct a as [k [e|]]; [split; [reflexivity|exact R1]|].
  destruct (incrementNonce nonce) as [n' [e|]]; split; solve [reflexivity|exact R1].
Qed.
Lemma open_step_resp shared rd wr i nonce s t : rresp RS rd -> wresp RS wr -> RS s t ->
  step_same (fun x y => fst x = fst y /\ RS (snd x) (snd y)) (same RS) (open_step C S shared rd wr i (nonce, s)) (open_step C S shared rd wr i (nonce, t)).
Proof.
  intros Hr Hw R. unfold open_step. pose proof (Hr sealed_nat s t R) as H. both H.
  destruct a as [chunk [e|]|]; try (split; [reflexivity|exact R0]).
  destruct (box_open C chunk nonce shared) as [out|]; [|split; [reflexivity|exact R0]].
  pose proof (Hw out s0 t0 R0) as H. both H. destruct a as [k [e|]]; [split; [reflexivity|exact R1]|].
  destruct (incrementNonce nonce) as [n' [e|]]; split; solve [reflexivity|exact R1].
Qed.

Lemma seal_resp draw pub rd len wr : (forall n, resp RS (draw n)) -> rresp RS rd -> wresp RS wr -> resp RS (seal C S draw pub rd len wr).
Proof.
  intros Hd Hr Hw s t R. unfold seal. destruct (len =? 0); [split; [reflexivity|exact R]|].
  destruct (pub_ToBox pub) as [edpub|e|]; try (split; [reflexivity|exact R]).
  pose proof (Hd 32%nat s t R) as H. both H. destruct a as [epriv|e|]; try (split; [reflexivity|exact R0]).
  cbv zeta. set (sh := box_precompute C edpub epriv). set (hd := sealHeader C (chunksFor len) (x25519_base C epriv) sh).
  pose proof (Hw hd s0 t0 R0) as H. both H. destruct a as [k [e|]]; [split; [reflexivity|exact R1]|].
  pose proof (for_loop_resp (fun x y => fst x = fst y /\ RS (snd x) (snd y)) (same RS) (seal_step C S sh rd wr) (chunksFor len) (zeroNonce, s1) (zeroNonce, t1)) as H.
  destruct (for_loop (chunksFor len) (seal_step C S sh rd wr) (zeroNonce, s1)) as [[n1 x1]|[r1 x1]], (for_loop (chunksFor len) (seal_step C S sh rd wr) (zeroNonce, t1)) as [[n2 x2]|[r2 x2]];
  (assert (X := H ltac:(intros i [n s'] [n' t'] [En Rn]; cbn [fst snd] in En, Rn; subst n'; apply seal_step_resp; assumption) (conj eq_refl R1)); cbn in X; try contradiction).
  - split; [reflexivity|apply X].
  - exact X.
Qed.

Lemma open_body_resp edpriv rd wr : rresp RS rd -> wresp RS wr -> resp RS (open_body C S edpriv rd wr).
Proof.
  intros Hr Hw s t R. unfold open_body. pose proof (Hr header_nat s t R) as H. both H.
  destruct a as [header [e|]|]; try (split; [reflexivity|exact R0]).
  destruct (negb _); [split; [reflexivity|exact R0]|]. cbv zeta. destruct (negb _); [split; [reflexivity|exact R0]|].
  set (sh := box_precompute C (firstn 32 (skipn 8 header)) edpriv). set (n := be_decode (firstn 8 header)).
  pose proof (for_loop_resp (fun x y => fst x = fst y /\ RS (snd x) (snd y)) (same RS) (open_step C S sh rd wr) n (zeroNonce, s0) (zeroNonce, t0)) as H.
  destruct (for_loop n (open_step C S sh rd wr) (zeroNonce, s0)) as [[n1 x1]|[r1 x1]], (for_loop n (open_step C S sh rd wr) (zeroNonce, t0)) as [[n2 x2]|[r2 x2]];
  (assert (X := H ltac:(intros i [m s'] [m' t'] [En Rn]; cbn [fst snd] in En, Rn; subst m'; apply open_step_resp; assumption) (conj eq_refl R0)); cbn in X; try contradiction).
  - split; [reflexivity|apply X].
  - exact X.
Qed.
End Bodies.

(* ---- worlds that agree on the contents of the files in P ---- *)
Definition data_at (fs : path -> option file) (p : path) : option bytes := option_map f_data (fs p).

Lemma set_nth_len {A} (x : A) l : forall k, length (set_nth k x l) = length l.
Proof. induction l as [|h l IH]; intros [|k]; cbn; [reflexivity|reflexivity|reflexivity|]. rewrite IH. reflexivity. Qed.
Lemma set_nth_in {A} (l : list A) : forall k i x y, nth_error (set_nth k x l) i = Some y -> nth_error l i = Some y \/ y = x.
Proof.
  induction l as [|h l IH]; intros [|k] [|j] x y; cbn; intro Hz; auto; [right; congruence|]. apply (IH _ _ _ _ Hz).
Qed.

Section Worlds.
Variable P : path -> Prop.
Variable n0 : nat.
(* handles opened since the start (numbers from n0 on) are of files in P *)
Definition agree (w v : world) : Prop :=
  v = set_fs w (w_fs v) /\ (forall p, P p -> data_at (w_fs w) p = data_at (w_fs v) p) /\
  (n0 <= length (w_fds w))%nat /\ (forall i p off, (n0 <= i)%nat -> nth_error (w_fds w) i = Some (p, off) -> P p).

Lemma agree_fields w v : agree w v ->
  w_faults v = w_faults w /\ w_rng v = w_rng w /\ w_tty v = w_tty w /\ w_bufs v = w_bufs w /\ w_fds v = w_fds w /\ w_log v = w_log w.
Proof. intros (-> & _). repeat split. Qed.

(* a change of both worlds that looks neither at the files nor at the handles *)
Lemma agree_set w v w' v' : agree w v -> w_fs w' = w_fs w -> w_fds w' = w_fds w -> v' = set_fs w' (w_fs v) -> agree w' v'.
Proof.
  intros (E & D & N & F) Hf Hd ->. split; [reflexivity|]. split; [|split].
  - intros p Hp. cbn. rewrite Hf. apply D, Hp.
  - rewrite Hd. exact N.
  - rewrite Hd. exact F.
Qed.

Lemma pop_resp : resp agree (fun w => pop_fault w).
Proof.
  intros w v A. destruct A as (E & A). rewrite E. unfold pop_fault. cbn. destruct (w_faults w) as [|f r].
  - split; [reflexivity|]. split; [reflexivity|exact A].
  - split; [reflexivity|]. split; [reflexivity|exact A].
Qed.

Lemma ReadFile_resp p : P p -> resp agree (ReadFile p).
Proof.
  intros Hp w v A. unfold ReadFile. pose proof (pop_resp w v A) as H. both H.
  pose proof R as (_ & D & _). specialize (D p Hp). unfold data_at in D.
  destruct a; try (split; [reflexivity|exact R]); destruct (w_fs s p), (w_fs t p); cbn in D; try discriminate; split; cbn; congruence || exact R.
Qed.

Lemma do_create_agree p m w v : agree w v -> agree (do_create p m w) (do_create p m v).
Proof.
  intros (E & D & N & F). split; [rewrite E; reflexivity|]. split; [|split; [exact N|exact F]].
  intros q Hq. cbn. unfold data_at, fs_create. destruct (bytes_eqb q p); [reflexivity|apply D, Hq].
Qed.
Lemma do_append_agree p b w v : agree w v -> agree (do_append p b w) (do_append p b v).
Proof.
  intros (E & D & N & F). split; [rewrite E; reflexivity|]. split; [|split; [exact N|exact F]].
  intros q Hq. cbn. unfold data_at, fs_append. destruct (bytes_eqb q p) eqn:Eq; [|apply D, Hq].
  apply bytes_eqb_eq in Eq. subst q. specialize (D p Hq). unfold data_at in D. destruct (w_fs w p), (w_fs v p); cbn in *; congruence.
Qed.

Lemma create_resp p m : resp agree (create_file p m).
Proof.
  intros w v A. unfold create_file. pose proof (pop_resp w v A) as H. both H.
  destruct a; try (split; [reflexivity|exact R]); destruct p; split; try reflexivity; try exact R; apply do_create_agree, R.
Qed.
Lemma write_resp p : wresp agree (file_write p).
Proof.
  intros b w v A. unfold file_write. pose proof (pop_resp w v A) as H. both H.
  destruct a; split; try reflexivity; apply do_append_agree, R.
Qed.
Lemma WriteFile_resp p d m : resp agree (WriteFile p d m).
Proof.
  intros w v A. unfold WriteFile. pose proof (create_resp p m w v A) as H. both H. destruct a as [u|e|]; try (split; [reflexivity|exact R]).
  pose proof (write_resp p d s t R) as H. both H. destruct a as [k [e|]]; [split; [reflexivity|exact R0]|].
  pose proof (pop_resp s0 t0 R0) as H. both H. destruct a; split; solve [reflexivity|exact R1].
Qed.

Lemma open_resp p : P p -> forall w v, agree w v -> same agree (open_read p w) (open_read p v) /\
  (forall fd, fst (open_read p w) = Ok fd -> (n0 <= fd)%nat).
Proof.
  intros Hp w v A. unfold open_read. pose proof (pop_resp w v A) as H. both H.
  pose proof R as (E & D & N & F). pose proof (D p Hp) as Dp. unfold data_at in Dp.
  destruct a; try (split; [split; [reflexivity|exact R]|discriminate]);
    (destruct (w_fs s p), (w_fs t p); cbn in Dp; try discriminate; [|split; [split; [reflexivity|exact R]|discriminate]]);
    (assert (L : w_fds t = w_fds s) by (rewrite E; reflexivity); rewrite L; split; [|intros fd Hfd; injection Hfd as <-; exact N];
     split; [reflexivity|]; cbn [snd]; split; [rewrite E; reflexivity|]; split; [exact D|]; cbn; split; [rewrite app_length; lia|];
     intros i q off Hi Hq; destruct (Nat.lt_ge_cases i (length (w_fds s))) as [Hl|Hl];
      [rewrite nth_error_app1 in Hq by exact Hl; apply (F i q off Hi Hq)|
       rewrite nth_error_app2 in Hq by exact Hl; destruct (i - length (w_fds s))%nat as [|j]; cbn in Hq; [congruence|destruct j; discriminate]]).
Qed.

Lemma size_resp fd : (n0 <= fd)%nat -> resp agree (file_size fd).
Proof.
  intros Hn w v A. unfold file_size. pose proof (pop_resp w v A) as H. both H. pose proof R as (E & D & N & F).
  assert (L : w_fds t = w_fds s) by (rewrite E; reflexivity). rewrite L.
  destruct a; try (split; [reflexivity|exact R]); (destruct (nth_error (w_fds s) fd) as [[p off]|] eqn:Ef; [|split; [reflexivity|exact R]]);
  (specialize (D p (F fd p off Hn Ef)); unfold data_at in D; split; [|exact R]; destruct (w_fs s p), (w_fs t p); cbn in *; congruence).
Qed.

Lemma read_resp fd : (n0 <= fd)%nat -> rresp agree (file_read fd).
Proof.
  intros Hn n w v A. unfold file_read. pose proof (pop_resp w v A) as H. both H. pose proof R as (E & D & N & F).
  assert (L : w_fds t = w_fds s) by (rewrite E; reflexivity). rewrite L.
  destruct a; try (split; [reflexivity|exact R]); (destruct (nth_error (w_fds s) fd) as [[p off]|] eqn:Ef; [|split; [reflexivity|exact R]]);
  (pose proof (F fd p off Hn Ef) as Pp; pose proof (D p Pp) as Dp; unfold data_at in Dp;
   assert (X : match w_fs t p with Some fl => f_data fl | None => [] end = match w_fs s p with Some fl => f_data fl | None => [] end) by
     (destruct (w_fs s p), (w_fs t p); cbn in *; congruence);
   rewrite X; cbv zeta;
   match goal with |- context[firstn ?k (skipn off ?d)] => set (got := firstn k (skipn off d)) end;
   assert (Y : agree (set_fds s (set_nth fd (p, (off + length got)%nat) (w_fds s))) (set_fds t (set_nth fd (p, (off + length got)%nat) (w_fds s)))) by
     (split; [rewrite E; reflexivity|]; split; [exact D|]; cbn; split;
       [rewrite set_nth_len; exact N|];
      intros i q o Hi Hq;
      destruct (set_nth_in _ _ _ _ _ Hq) as [Hz|Hz]; [apply (F i q o Hi Hz)|congruence]);
   destruct n, got; split; solve [reflexivity|exact R|exact Y]).
Qed.

Lemma fuel_resp fd w v : (n0 <= fd)%nat -> agree w v -> file_fuel fd w = file_fuel fd v.
Proof.
  intros Hn (E & D & N & F). assert (L : w_fds v = w_fds w) by (rewrite E; reflexivity). unfold file_fuel, remaining. rewrite L.
  destruct (nth_error (w_fds w) fd) as [[p off]|] eqn:Ef; [|reflexivity]. specialize (D p (F fd p off Hn Ef)). unfold data_at in D.
  destruct (w_fs w p), (w_fs v p); cbn in *; congruence.
Qed.

Lemma bind_resp {A B} (m : M A) (k : A -> M B) : resp agree m -> (forall a, resp agree (k a)) -> resp agree (bind m k).
Proof.
  intros Hm Hk w v A0. unfold bind. pose proof (Hm w v A0) as H. both H. destruct a; try (split; [reflexivity|exact R]). apply Hk, R.
Qed.
Lemma defer_resp {A} f (m : M A) : (forall w v, agree w v -> agree (f w) (f v)) -> resp agree m -> resp agree (defer f m).
Proof. intros Hf Hm w v A0. unfold defer. pose proof (Hm w v A0) as H. both H. split; [reflexivity|apply Hf, R]. Qed.
Lemma lift_resp {A} (r : res A) : resp agree (lift r).
Proof. intros w v A0. split; [reflexivity|exact A0]. Qed.
Lemma rand_resp n : resp agree (rand_read n).
Proof.
  intros w v A. pose proof (agree_fields _ _ A) as (_ & Hr & _). unfold rand_read. rewrite Hr. destruct (_ <? n)%nat; (split; [reflexivity|]); [exact A|].
  apply (agree_set _ _ _ _ A); try reflexivity. cbn. destruct A as (E & _). rewrite E. reflexivity.
Qed.
Lemma tty_resp : resp agree ReadPassword.
Proof.
  intros w v A. pose proof (agree_fields _ _ A) as (_ & _ & Ht & Hb & _). unfold ReadPassword. rewrite Ht, Hb. destruct (w_tty w) as [|[b|e|] r]; (split; [reflexivity|]); [exact A| | |];
  (apply (agree_set _ _ _ _ A); try reflexivity; cbn; destruct A as (E & _); rewrite E; reflexivity).
Qed.
Lemma buf_resp i : resp agree (buf_get i).
Proof.
  intros w v A. pose proof (agree_fields _ _ A) as (_ & _ & _ & Hb & _). unfold buf_get. rewrite Hb. destruct (nth_error (w_bufs w) i); (split; [reflexivity|exact A]).
Qed.
Lemma out_resp b : resp agree (stdout b).
Proof.
  intros w v A. split; [reflexivity|]. apply (agree_set _ _ _ _ A); try reflexivity. cbn. destruct A as (E & _). rewrite E. reflexivity.
Qed.
Lemma zero_agree i w v : agree w v -> agree (zero_buf i w) (zero_buf i v).
Proof.
  intro A. pose proof (agree_fields _ _ A) as (_ & _ & _ & Hb & _). unfold zero_buf. rewrite Hb. destruct (nth_error (w_bufs w) i); [|exact A].
  apply (agree_set _ _ _ _ A); try reflexivity. cbn. destruct A as (E & _). rewrite E. reflexivity.
Qed.

Lemma prompt_resp c : resp agree (PassphrasePrompt c).
Proof.
  unfold PassphrasePrompt. apply bind_resp; [apply out_resp|intros _]. apply bind_resp; [apply tty_resp|intro i]. apply bind_resp; [apply out_resp|intros _].
  destruct (negb c); [apply (lift_resp (Ok i))|]. apply bind_resp; [apply out_resp|intros _]. apply bind_resp; [apply tty_resp|intro j].
  apply defer_resp; [apply zero_agree|]. apply bind_resp; [apply out_resp|intros _]. apply bind_resp; [apply buf_resp|intro a]. apply bind_resp; [apply buf_resp|intro b].
  destruct (bytes_eqb a b); [apply (lift_resp (Ok i))|apply (lift_resp (Err _))].
Qed.

Variable C : Crypto.
Lemma GenerateKey_resp k pass opts : resp agree (GenerateKey C k pass opts).
Proof.
  unfold GenerateKey, GenerateKeypair. cbv zeta. apply bind_resp.
  - apply bind_resp; [apply rand_resp|intro seed]. apply bind_resp; [apply rand_resp|intro slt]. apply bind_resp; [apply rand_resp|intro num].
    apply bind_resp; [|intro kb; apply (lift_resp (Ok _))]. destruct pass; [apply (lift_resp (Ok _))|]. apply bind_resp; [apply lift_resp|intro x; apply (lift_resp (Ok _))].
  - intro pp. apply bind_resp; [apply WriteFile_resp|intros _; apply WriteFile_resp].
Qed.

Lemma Load_resp p : P p -> resp agree (LoadPrivateKey p) /\ resp agree (LoadPublicKey p).
Proof. intro Hp. split; (apply bind_resp; [apply ReadFile_resp, Hp|intro d; apply lift_resp]). Qed.

Lemma Sign_resp sk m s : P sk -> P m -> resp agree (Sign C sk m s).
Proof.
  intros Hk Hm. assert (F : forall priv, resp agree (signFinish C sk m (sigPathOf m s) priv)).
  { intro priv. apply bind_resp; [apply ReadFile_resp, Hm|intro d; apply WriteFile_resp]. }
  unfold Sign. cbv zeta. apply bind_resp; [apply Load_resp, Hk|intro priv]. destruct (IsEncrypted priv); [|apply F].
  apply bind_resp; [apply prompt_resp|intro i]. apply defer_resp; [apply zero_agree|]. apply bind_resp; [apply buf_resp|intro pw].
  destruct (decrypt C priv pw) as [[u|e|] p']; [apply F|apply (lift_resp (Err e))|apply (lift_resp Panic)].
Qed.
Lemma Verify_resp pk m s : P pk -> P m -> P (sigPathOf m s) -> resp agree (Verify C pk m s).
Proof.
  intros Hk Hm Hs. unfold Verify. cbv zeta. apply bind_resp; [apply Load_resp, Hk|intro pub]. apply bind_resp; [apply ReadFile_resp, Hm|intro d].
  apply bind_resp; [|intro sg; apply lift_resp]. apply bind_resp; [apply ReadFile_resp, Hs|intro x; apply lift_resp].
Qed.

Lemma open_bind {B} p (k : nat -> M B) : P p -> (forall fd, (n0 <= fd)%nat -> resp agree (k fd)) -> resp agree (bind (open_read p) k).
Proof.
  intros Hp Hk w v A. unfold bind. destruct (open_resp p Hp w v A) as [H Hn]. both H. cbn [fst] in Hn.
  destruct a as [fd|e|]; try (split; [reflexivity|exact R]). apply (Hk fd (Hn fd eq_refl) s t R).
Qed.

Lemma Seal_resp pk m e : P pk -> P m -> resp agree (Seal C pk m e).
Proof.
  intros Hk Hm. unfold Seal. apply bind_resp; [apply Load_resp, Hk|intro pub]. apply open_bind; [exact Hm|intros fd Hn].
  apply bind_resp; [apply size_resp, Hn|intro len]. cbv zeta.
  set (q := match e with [] => m ++ str ".enc" | _ => e end). apply bind_resp; [apply create_resp|intros _].
  intros w v A. pose proof (write_resp q (str "untrusted comment: psignify encrypted file" ++ [x0a]) w v A) as H. both H. destruct a as [k [x|]]; [split; [reflexivity|exact R]|].
  pose (RE := fun x y : enc * world => fst x = fst y /\ agree (snd x) (snd y)).
  assert (Hw : wresp RE (enc_write (file_write q))) by (apply enc_write_resp, write_resp).
  assert (Hr : rresp RE (lift_reader (file_read fd))).
  { intros n [e1 s1] [e2 t1] [E1 R1]. cbn [fst snd] in E1, R1. subst e2. unfold lift_reader. cbn [fst snd]. pose proof (read_resp fd Hn n s1 t1 R1) as H. both H.
    split; [reflexivity|split; [reflexivity|exact R0]]. }
  assert (Hd : forall n, resp RE (lift_draw (X := enc) n)).
  { intros n [e1 s1] [e2 t1] [E1 R1]. cbn [fst snd] in E1, R1. subst e2. unfold lift_draw. cbn [fst snd]. pose proof (rand_resp n s1 t1 R1) as H. both H.
    split; [reflexivity|split; [reflexivity|exact R0]]. }
  pose proof (seal_resp C _ RE lift_draw pub _ len _ Hd Hr Hw (NewEncoder, s) (NewEncoder, t) (conj eq_refl R)) as H.
  destruct (seal C (enc * world) lift_draw pub (lift_reader (file_read fd)) len (enc_write (file_write q)) (NewEncoder, s)) as [r1 x1].
  destruct (seal C (enc * world) lift_draw pub (lift_reader (file_read fd)) len (enc_write (file_write q)) (NewEncoder, t)) as [r2 x2].
  destruct H as [H1 H2]. cbn [fst snd] in H1, H2. subst r2.
  pose proof (enc_close_resp _ agree (file_write q) (write_resp q) x1 x2 H2) as H3.
  destruct (enc_close (file_write q) x1) as [o1 y1], (enc_close (file_write q) x2) as [o2 y2]. destruct H3 as [_ [_ H3]]. split; [reflexivity|exact H3].
Qed.

Lemma ToBox_resp p : resp agree (priv_ToBox C p).
Proof.
  intros w v A. unfold priv_ToBox. destruct (Check C p); [split; [reflexivity|exact A]| |];
  (pose proof (prompt_resp false w v A) as H; both H; destruct a as [i|e1|]; try (split; [reflexivity|exact R]);
   pose proof (buf_resp i s t R) as H; both H; destruct a as [pw|e2|]; try (split; [reflexivity|exact R0]);
   destruct (decrypt C p pw) as [[u|e3|] p']; split; solve [reflexivity|exact R0]).
Qed.

Lemma Open_resp sk e m : P sk -> P e -> resp agree (Open C sk e m).
Proof.
  intros Hk He. unfold Open. apply bind_resp; [apply Load_resp, Hk|intro priv]. apply open_bind; [exact He|intros fd Hn].
  apply bind_resp; [apply skipComment_resp; [apply read_resp, Hn|intros w v; apply fuel_resp, Hn]|intros _]. apply bind_resp; [apply create_resp|intros _].
  intros w v A. unfold open_file. pose proof (ToBox_resp priv w v A) as H. both H. destruct a as [[edpriv|x|] p']; try (split; [reflexivity|exact R]).
  apply open_body_resp; [|apply write_resp|exact R]. unfold file_decoder. apply dec_read_resp; [apply read_resp, Hn|]. intros w' v' _ A'. apply fuel_resp; assumption.
Qed.
End Worlds.
