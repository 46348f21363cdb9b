(* seal and open over any reader and writer: the run as a chain of reads and writes. *)
From Verif Require Import SpecSeal SealOpen SealFacts OpenFacts.
Local Open Scope Z_scope.

Section Chain.
Variable C : Crypto.
Variable S : Type.
Variable rd : Reader S.
Variable wr : Writer S.
Variable shared : bytes.

Inductive sealing : Z -> S -> list bytes -> S -> Prop :=
| sl_nil i s : sealing i s [] s
| sl_cons i s m s1 n s2 ms s3 : rd chunk_nat s = (RRet m None, s1) -> wr (box_seal C m (nonce i) shared) s1 = ((n, None), s2) ->
    sealing (i + 1) s2 ms s3 -> sealing i s (m :: ms) s3.
Inductive seal_end (i : Z) (s : S) : res unit -> S -> Prop :=
| se_panic s' : rd chunk_nat s = (RPanic, s') -> seal_end i s Panic s'
| se_read b e s' : rd chunk_nat s = (RRet b (Some e), s') -> seal_end i s (Err e) s'
| se_write m s1 n e s' : rd chunk_nat s = (RRet m None, s1) -> wr (box_seal C m (nonce i) shared) s1 = ((n, Some e), s') ->
    seal_end i s (Err e) s'.

Lemma seal_chain k : forall i s, 0 <= i -> i + Z.of_nat k < 2 ^ 192 ->
  exists ms s1, sealing i s ms s1 /\
  ((length ms = k /\ exists n, iter_loop k (seal_step C S shared rd wr) i (nonce i, s) = inl (n, s1)) \/
   ((length ms < k)%nat /\ exists r s', seal_end (i + Z.of_nat (length ms)) s1 r s' /\
      iter_loop k (seal_step C S shared rd wr) i (nonce i, s) = inr (r, s'))).
Proof.
  induction k as [|k IH]; intros i s Hi Hk.
  - exists [], s. split; [constructor|]. left. split; [reflexivity|]. eexists. reflexivity.
  - cbn [iter_loop]. unfold seal_step at 1 3. destruct (rd chunk_nat s) as [[p [e|]|] s1] eqn:E.
    + exists [], s. split; [constructor|]. right. split; [cbn; lia|]. exists (Err e), s1. split; [econstructor; exact E|reflexivity].
    + destruct (wr (box_seal C p (nonce i) shared) s1) as [[n [e|]] s2] eqn:W.
      * exists [], s. split; [constructor|]. right. split; [cbn; lia|]. exists (Err e), s2. cbn [length Z.of_nat]. rewrite Z.add_0_r.
        split; [econstructor; [exact E|exact W]|reflexivity].
      * rewrite incrementNonce_nonce by lia. destruct (IH (i + 1) s2 ltac:(lia) ltac:(lia)) as (ms & s3 & D & X).
        exists (p :: ms), s3. split; [econstructor; [exact E|exact W|exact D]|]. cbn [length].
        replace (i + Z.of_nat (Datatypes.S (length ms))) with (i + 1 + Z.of_nat (length ms)) by lia.
        destruct X as [[L X]|[L X]]; [left; split; [lia|exact X]|right; split; [lia|exact X]].
    + exists [], s. split; [constructor|]. right. split; [cbn; lia|]. exists Panic, s1. split; [constructor; exact E|reflexivity].
Qed.

(* texts cs opened to the pieces ms *)
Inductive opening : Z -> S -> list bytes -> list bytes -> S -> Prop :=
| op_nil i s : opening i s [] [] s
| op_cons i s c s1 m n s2 cs ms s3 : rd sealed_nat s = (RRet c None, s1) -> box_open C c (nonce i) shared = Some m ->
    wr m s1 = ((n, None), s2) -> opening (i + 1) s2 cs ms s3 -> opening i s (c :: cs) (m :: ms) s3.
Inductive open_end (i : Z) (s : S) : list bytes -> list bytes -> res unit -> S -> Prop :=
| oe_panic s' : rd sealed_nat s = (RPanic, s') -> open_end i s [] [] Panic s'
| oe_read b e s' : rd sealed_nat s = (RRet b (Some e), s') -> open_end i s [] [] (Err e) s'
| oe_bad c s' : rd sealed_nat s = (RRet c None, s') -> box_open C c (nonce i) shared = None -> open_end i s [] [] (Err (EChunk i)) s'
| oe_write c m s1 n e s' : rd sealed_nat s = (RRet c None, s1) -> box_open C c (nonce i) shared = Some m ->
    wr m s1 = ((n, Some e), s') -> open_end i s [c] [m] (Err e) s'.

Lemma open_chain k : forall i s, 0 <= i -> i + Z.of_nat k < 2 ^ 192 ->
  exists cs ms s1, opening i s cs ms s1 /\
  ((length cs = k /\ exists n, iter_loop k (open_step C S shared rd wr) i (nonce i, s) = inl (n, s1)) \/
   ((length cs < k)%nat /\ exists cs' ms' r s', open_end (i + Z.of_nat (length cs)) s1 cs' ms' r s' /\
      iter_loop k (open_step C S shared rd wr) i (nonce i, s) = inr (r, s'))).
Proof.
  induction k as [|k IH]; intros i s Hi Hk.
  - exists [], [], s. split; [constructor|]. left. split; [reflexivity|]. eexists. reflexivity.
  - cbn [iter_loop]. unfold open_step at 1 3. destruct (rd sealed_nat s) as [[p [e|]|] s1] eqn:E.
    + exists [], [], s. split; [constructor|]. right. split; [cbn; lia|]. exists [], [], (Err e), s1. split; [econstructor; exact E|reflexivity].
    + destruct (box_open C p (nonce i) shared) as [m|] eqn:B.
      * destruct (wr m s1) as [[n [e|]] s2] eqn:W.
        -- exists [], [], s. split; [constructor|]. right. split; [cbn; lia|]. exists [p], [m], (Err e), s2. cbn [length Z.of_nat]. rewrite Z.add_0_r.
           split; [econstructor; [exact E|exact B|exact W]|reflexivity].
        -- rewrite incrementNonce_nonce by lia. destruct (IH (i + 1) s2 ltac:(lia) ltac:(lia)) as (cs & ms & s3 & D & X).
           exists (p :: cs), (m :: ms), s3. split; [econstructor; [exact E|exact B|exact W|exact D]|]. cbn [length].
           replace (i + Z.of_nat (Datatypes.S (length cs))) with (i + 1 + Z.of_nat (length cs)) by lia.
           destruct X as [[L X]|[L X]]; [left; split; [lia|exact X]|right; split; [lia|exact X]].
      * exists [], [], s. split; [constructor|]. right. split; [cbn; lia|]. exists [], [], (Err (EChunk i)), s1. cbn [length Z.of_nat]. rewrite Z.add_0_r.
        split; [apply oe_bad with p; [exact E|exact B]|reflexivity].
    + exists [], [], s. split; [constructor|]. right. split; [cbn; lia|]. exists [], [], Panic, s1. split; [constructor; exact E|reflexivity].
Qed.
End Chain.

Section Runs.
Variable C : Crypto.
Variable S : Type.
Variable draw : nat -> MS S bytes.
Variable rd : Reader S.
Variable wr : Writer S.

Inductive seal_run (pub : Public) (len : Z) (s : S) : res unit -> S -> Prop :=
| sr_empty : len = 0 -> seal_run pub len s (Ok tt) s
| sr_key e : 0 < len -> pub_ToBox pub = Err e -> seal_run pub len s (Err e) s
| sr_rand edpub e s' : 0 < len -> pub_ToBox pub = Ok edpub -> draw 32%nat s = (Err e, s') -> seal_run pub len s (Err e) s'
| sr_randpanic edpub s' : 0 < len -> pub_ToBox pub = Ok edpub -> draw 32%nat s = (Panic, s') -> seal_run pub len s Panic s'
| sr_header edpub epriv s1 n e s' : 0 < len -> pub_ToBox pub = Ok edpub -> draw 32%nat s = (Ok epriv, s1) ->
    wr (sealed_header C (box_precompute C edpub epriv) (x25519_base C epriv) ((len + 16384) / 16385)) s1 = ((n, Some e), s') ->
    seal_run pub len s (Err e) s'
| sr_stopped edpub epriv s1 n s2 ms s3 r s' : 0 < len -> pub_ToBox pub = Ok edpub -> draw 32%nat s = (Ok epriv, s1) ->
    wr (sealed_header C (box_precompute C edpub epriv) (x25519_base C epriv) ((len + 16384) / 16385)) s1 = ((n, None), s2) ->
    sealing C S rd wr (box_precompute C edpub epriv) 0 s2 ms s3 -> Z.of_nat (length ms) < (len + 16384) / 16385 ->
    seal_end C S rd wr (box_precompute C edpub epriv) (Z.of_nat (length ms)) s3 r s' -> seal_run pub len s r s'
| sr_done edpub epriv s1 n s2 ms s' : 0 < len -> pub_ToBox pub = Ok edpub -> draw 32%nat s = (Ok epriv, s1) ->
    wr (sealed_header C (box_precompute C edpub epriv) (x25519_base C epriv) ((len + 16384) / 16385)) s1 = ((n, None), s2) ->
    sealing C S rd wr (box_precompute C edpub epriv) 0 s2 ms s' -> Z.of_nat (length ms) = (len + 16384) / 16385 ->
    seal_run pub len s (Ok tt) s'.

Lemma pub_ToBox_not pub : pub_ToBox pub <> Panic.
Proof. unfold pub_ToBox. destruct (e_from_bytes _); discriminate. Qed.
Lemma seal_eq pub len s : 0 < len -> seal C S draw pub rd len wr s =
  match pub_ToBox pub with
  | Err e => (Err e, s)
  | Panic => (Panic, s)
  | Ok edpub =>
    match draw 32%nat s with
    | (Err e, s) => (Err e, s)
    | (Panic, s) => (Panic, s)
    | (Ok epriv, s) =>
      match wr (sealed_header C (box_precompute C edpub epriv) (x25519_base C epriv) ((len + 16384) / 16385)) s with
      | ((_, Some e), s) => (Err e, s)
      | ((_, None), s) =>
        match iter_loop (Z.to_nat ((len + 16384) / 16385)) (seal_step C S (box_precompute C edpub epriv) rd wr) 0 (nonce 0, s) with
        | inl (_, s) => (Ok tt, s)
        | inr r => r
        end
      end
    end
  end.
Proof.
  intro L. unfold seal. destruct (Z.eqb_spec len 0) as [X|_]; [lia|]. destruct (pub_ToBox pub) as [edpub|e|]; [|reflexivity..].
  destruct (draw 32%nat s) as [[epriv|e|] s1]; [|reflexivity..]. cbv zeta. rewrite chunksFor_ceil by lia. rewrite sealHeader_eq.
  destruct (wr _ s1) as [[n [e|]] s2]; [reflexivity|]. rewrite for_loop_iter, zeroNonce_eq. reflexivity.
Qed.

Lemma seal_cases pub len s r s' : 0 <= len < 2 ^ 63 -> seal C S draw pub rd len wr s = (r, s') -> seal_run pub len s r s'.
Proof.
  intros L H. destruct (Z.eq_dec len 0) as [->|Hn]; [injection H as <- <-; constructor; reflexivity|].
  assert (L0 : 0 < len) by lia. rewrite seal_eq in H by exact L0. pose proof (ceil_bound len ltac:(lia)) as B.
  set (N := (len + 16384) / 16385) in *.
  destruct (pub_ToBox pub) as [edpub|e|] eqn:TB.
  2:{ injection H as <- <-. apply sr_key; assumption. }
  2:{ exfalso. exact (pub_ToBox_not pub TB). }
  destruct (draw 32%nat s) as [[epriv|e|] s1] eqn:D.
  2:{ injection H as <- <-. apply sr_rand with edpub; assumption. }
  2:{ injection H as <- <-. apply sr_randpanic with edpub; assumption. }
  destruct (wr _ s1) as [[n [e|]] s2] eqn:W; [injection H as <- <-; exact (sr_header pub len s edpub epriv s1 n e s2 L0 TB D W)|].
  destruct (seal_chain C S rd wr (box_precompute C edpub epriv) (Z.to_nat N) 0 s2 ltac:(lia) ltac:(lia)) as (ms & s3 & Sl & X).
  destruct X as [[Lm (k & X)]|[Lm (r0 & s4 & E & X)]]; rewrite X in H; injection H as <- <-.
  - refine (sr_done pub len s edpub epriv s1 n s2 ms s3 L0 TB D W Sl _). fold N. lia.
  - refine (sr_stopped pub len s edpub epriv s1 n s2 ms s3 r0 s4 L0 TB D W Sl _ E). fold N. lia.
Qed.

Inductive open_run (edpriv : bytes) (s : S) : res unit -> S -> Prop :=
| or_panic s' : rd 72%nat s = (RPanic, s') -> open_run edpriv s Panic s'
| or_read b e s' : rd 72%nat s = (RRet b (Some e), s') -> open_run edpriv s (Err e) s'
| or_bad b t s' : rd 72%nat s = (RRet b None, s') -> open_run edpriv s (Err (EMsg t)) s'
| or_stopped h s1 cs ms s2 cs' ms' r s' : rd 72%nat s = (RRet h None, s1) -> length h = 72%nat ->
    skipn 40 h = auth_sum C (firstn 40 h) (shared_of C edpriv h) ->
    opening C S rd wr (shared_of C edpriv h) 0 s1 cs ms s2 -> Z.of_nat (length cs) < count_of h ->
    open_end C S rd wr (shared_of C edpriv h) (Z.of_nat (length cs)) s2 cs' ms' r s' -> open_run edpriv s r s'
| or_done h s1 cs ms s' : rd 72%nat s = (RRet h None, s1) -> length h = 72%nat ->
    skipn 40 h = auth_sum C (firstn 40 h) (shared_of C edpriv h) ->
    opening C S rd wr (shared_of C edpriv h) 0 s1 cs ms s' -> Z.of_nat (length cs) = count_of h -> open_run edpriv s (Ok tt) s'.

Lemma open_cases edpriv s r s' : open_body C S edpriv rd wr s = (r, s') -> open_run edpriv s r s'.
Proof.
  intro H. unfold open_body in H. change header_nat with 72%nat in H.
  destruct (rd 72%nat s) as [[h [e|]|] s1] eqn:E.
  - injection H as <- <-. eapply or_read; exact E.
  - destruct (Nat.eqb_spec (length h) 72) as [Lh|Lh]; cbn [negb] in H; [|injection H as <- <-; eapply or_bad; exact E].
    cbv zeta in H. assert (Es : firstn 32 (skipn 8 h) = slice 8 32 h) by reflexivity. rewrite Es in H. fold (shared_of C edpriv h) in H.
    unfold auth_Verify in H. destruct (bytes_eqb (skipn 40 h) (auth_sum C (firstn 40 h) (shared_of C edpriv h))) eqn:Ea; cbn [negb] in H.
    + apply bytes_eqb_eq in Ea. rewrite for_loop_iter, zeroNonce_eq in H. change (be_decode (firstn 8 h)) with (count_of h) in H.
      pose proof (count_range h) as B.
      destruct (open_chain C S rd wr (shared_of C edpriv h) (Z.to_nat (count_of h)) 0 s1 ltac:(lia) ltac:(lia)) as (cs & ms & s2 & Op & X).
      destruct X as [[Lm (k & X)]|[Lm (cs' & ms' & r0 & s4 & En & X)]]; rewrite X in H; injection H as <- <-.
      * eapply or_done; try eassumption. lia.
      * eapply or_stopped; try eassumption. lia.
    + injection H as <- <-. eapply or_bad; exact E.
  - injection H as <- <-. apply or_panic. exact E.
Qed.
End Runs.
