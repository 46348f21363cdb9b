(* The operations against an arbitrary operating system: proofs. *)
From Verif Require Import SealChain FaultFacts TextKeys SignFacts OpenFacts B64StreamFacts KeyOpsFacts SealFacts.
From Verif Require Import SpecCalls.
Local Open Scope Z_scope.

(* ---- lists of calls ---- *)
Definition clean (ex : step -> Prop) (l : list step) : Prop := Forall (fun s => failed s = None \/ ex s) l.
Definition ends (ex : step -> Prop) (l : list step) (r : res unit) : Prop :=
  exists l1 l2, l = l1 ++ l2 /\ clean ex l1 /\ (l2 = [] \/ exists s e, l2 = [s] /\ failed s = Some e /\ r = Err e).
(* calls on the descriptors fds that leave them open, and calls without a descriptor or file *)
Definition works (fds : list nat) (s : step) : Prop :=
  match s with
  | SRead fd _ _ _ => In fd fds
  | SWrite fd _ _ _ => In fd fds
  | SStat fd _ => In fd fds
  | SRand _ _ => True
  | SPass _ => True
  | SOut t => prompt_text t
  | _ => False
  end.

Lemma clean_app ex a b : clean ex (a ++ b) <-> clean ex a /\ clean ex b.
Proof. apply Forall_app. Qed.
Lemma clean_nil ex : clean ex []. Proof. constructor. Qed.
Lemma clean_ends ex l r : clean ex l -> ends ex l r.
Proof. intro H. exists l, []. rewrite app_nil_r. repeat split; auto. Qed.
Lemma ends_app ex a b r : clean ex a -> ends ex b r -> ends ex (a ++ b) r.
Proof.
  intros A (l1 & l2 & -> & Cl & X). exists (a ++ l1), l2. rewrite app_assoc. split; [reflexivity|]. split; [apply clean_app; split; assumption|exact X].
Qed.
Lemma ends_snoc ex a s e : clean ex a -> failed s = Some e -> ends ex (a ++ [s]) (Err e).
Proof. intros A F. exists a, [s]. split; [reflexivity|]. split; [exact A|]. right. exists s, e. repeat split; auto. Qed.
Lemma ends_one ex s e : failed s = Some e -> ends ex [s] (Err e).
Proof. apply (ends_snoc ex [] s e). constructor. Qed.
Lemma clean_weaken ex l : clean nothing l -> clean ex l.
Proof. intro H. eapply Forall_impl; [|exact H]. intros s [F|[]]. left. exact F. Qed.
Lemma ends_weaken ex l r : ends nothing l r -> ends ex l r.
Proof. intros (l1 & l2 & E & Cl & X). exists l1, l2. split; [exact E|]. split; [apply clean_weaken, Cl|exact X]. Qed.

Lemma ends_noticed ex l r : ends ex l r -> noticed ex l r.
Proof.
  intros (l1 & l2 & -> & Cl & X) h1. revert l1 Cl. induction h1 as [|x h1 IH]; intros l1 Cl s h2 e E F.
  - destruct l1 as [|y l1]; cbn [app] in E.
    + destruct X as [->|(s0 & e0 & -> & F0 & R)]; [discriminate|]. injection E as -> <-. rewrite F in F0. injection F0 as <-. right. split; [reflexivity|exact R].
    + injection E as -> <-. apply Forall_inv in Cl. destruct Cl as [N|N]; [congruence|left; exact N].
  - destruct l1 as [|y l1]; cbn [app] in E.
    + destruct X as [->|(s0 & e0 & -> & F0 & R)]; [discriminate|]. injection E as _ E. destruct h1; discriminate E.
    + injection E as _ E. apply Forall_inv_tail in Cl. exact (IH l1 Cl s h2 e E F).
Qed.

Lemma works_weaken fds gds l : incl fds gds -> Forall (works fds) l -> Forall (works gds) l.
Proof.
  intros I F. eapply Forall_impl; [|exact F]. intros s W. destruct s; cbn [works] in *; auto.
Qed.
Lemma has_in fd fds : In fd fds -> has fd fds = true.
Proof. intro H. apply existsb_exists. exists fd. split; [exact H|apply Nat.eqb_refl]. Qed.
Lemma works_in_use fds l : Forall (works fds) l -> in_use fds l = Some fds.
Proof.
  induction 1 as [|s l W F IH]; [reflexivity|]. destruct s; cbn [in_use works] in *; try contradiction; try rewrite (has_in _ _ W); exact IH.
Qed.
Lemma in_use_app a : forall fds b, in_use fds (a ++ b) = match in_use fds a with Some f => in_use f b | None => None end.
Proof.
  induction a as [|s a IH]; intros fds b; [reflexivity|]. cbn [app in_use].
  destruct s as [p r|p c m r|p [fd|e]|p m [fd|e]|fd r|fd n c r|fd c n r|fd r|n r|r|c]; try apply IH;
  destruct (has fd fds); try apply IH; reflexivity.
Qed.
Lemma works_touches rs ws fds l : Forall (works fds) l -> Forall (touches rs ws) l.
Proof. intro F. eapply Forall_impl; [|exact F]. intros s W. destruct s; cbn [works touches] in *; auto; contradiction. Qed.

Lemma pieces_app fd a b : pieces fd (a ++ b) = pieces fd a ++ pieces fd b. Proof. apply flat_map_app. Qed.
Lemma written_app fd a b : written fd (a ++ b) = written fd a ++ written fd b. Proof. apply flat_map_app. Qed.
Lemma drawn_app a b : drawn (a ++ b) = drawn a ++ drawn b. Proof. apply flat_map_app. Qed.

Section Os.
Variable C : Crypto.
Variable O : os.

(* ---- the encoder's writes ---- *)
Definition is_write (out : nat) (s : step) : Prop := exists b n r, s = SWrite out b n r.
Lemma is_write_works out fds l : In out fds -> Forall (is_write out) l -> Forall (works fds) l.
Proof. intros I F. eapply Forall_impl; [|exact F]. intros s (b & n & r & ->). exact I. Qed.
Lemma is_write_pieces out fd l : Forall (is_write out) l -> pieces fd l = [].
Proof. induction 1 as [|s l (b & n & r & ->) F IH]; [reflexivity|exact IH]. Qed.
Lemma is_write_drawn out l : Forall (is_write out) l -> drawn l = [].
Proof. induction 1 as [|s l (b & n & r & ->) F IH]; [reflexivity|exact IH]. Qed.

Lemma write_calls out cs : forall h x h', run_calls (h_write O out) cs h = (x, h') ->
  exists l, h' = h ++ l /\ Forall (is_write out) l /\ (length l <= length cs)%nat /\
    (forall s, In s l -> exists b n r, s = SWrite out b n r /\ In b cs) /\
    match x with
    | None => clean nothing l /\ written out l = concat cs
    | Some e => ends nothing l (Err e) /\ ~ clean nothing l
    end.
Proof.
  induction cs as [|c cs IH]; intros h x h' E; cbn [run_calls] in E.
  - injection E as <- <-. exists []. rewrite app_nil_r. split; [reflexivity|]. split; [constructor|]. split; [cbn; lia|].
    split; [intros s []|]. split; [constructor|reflexivity].
  - unfold h_write at 1 in E. destruct (o_write O h out c) as [n [e|]].
    + injection E as <- <-. exists [SWrite out c n (Some e)]. split; [reflexivity|]. split; [constructor; [eexists _, _, _; reflexivity|constructor]|].
      split; [cbn; lia|]. split; [intros s [<-|[]]; exists c, n, (Some e); split; [reflexivity|left; reflexivity]|]. split; [apply ends_one; reflexivity|].
      intro Q. apply Forall_inv in Q. destruct Q as [Q|[]]. discriminate Q.
    + apply IH in E. destruct E as (l & -> & W & L & I & X). exists (SWrite out c n None :: l). split; [rewrite <- app_assoc; reflexivity|].
      split; [constructor; [eexists _, _, _; reflexivity|exact W]|]. split; [cbn; lia|].
      split; [intros s [<-|Hs]; [exists c, n, None; split; [reflexivity|left; reflexivity]|]; destruct (I s Hs) as (b & k & r & E & Hb); exists b, k, r; split; [exact E|right; exact Hb]|].
      destruct x as [e|].
      * split; [apply (ends_app nothing [SWrite out c n None] l); [constructor; [left; reflexivity|constructor]|exact (proj1 X)]|].
        intro Q. apply (proj2 X). exact (Forall_inv_tail Q).
      * destruct X as [Cl Wr]. split; [constructor; [left; reflexivity|exact Cl]|]. cbn [written flat_map concat]. rewrite Nat.eqb_refl. f_equal. exact Wr.
Qed.

Lemma enc_index {S} (wr : Writer S) p : forall w e s n x e' s', (e_index e < 3)%nat ->
  enc_write_loop wr p w e s = ((n, x), (e', s')) -> (e_index e' < 3)%nat.
Proof.
  induction p as [|b p IH]; intros w e s n x e' s' L E; cbn [enc_write_loop] in E.
  - injection E as <- <- <- <-. exact L.
  - destruct (Nat.eqb_spec (e_index e + 1) 3) as [N|N].
    + destruct (wr _ s) as [[k [y|]] s1]; [injection E as <- <- <- <-; cbn; lia|].
      destruct (e_line e + 3 =? decodedSize); [destruct (wr [x0a] s1) as [[k2 [y|]] s2]|].
      * injection E as <- <- <- <-. cbn. lia.
      * eapply IH; [|exact E]. cbn. lia.
      * eapply IH; [|exact E]. cbn. lia.
    + eapply IH; [|exact E]. cbn [e_index]. lia.
Qed.

(* the text of the full groups of body, and the encoder that has written it *)
Definition text_so_far (body : bytes) : bytes := wrap72 0 (StdEncode (full3 body)).
Definition enc_at (body : bytes) (e : enc) : Prop :=
  enc_ok e /\ enc_pending e = rest3 body /\ col e = (length (StdEncode (full3 body)) mod 72)%nat.
Lemma enc_at_new : enc_at [] NewEncoder.
Proof. split; [exact NewEncoder_ok|]. split; reflexivity. Qed.
Lemma enc_at_index body e : enc_at body e -> (e_index e < 3)%nat.
Proof. intros [(_ & L & _) _]. exact L. Qed.
Lemma enc_at_plan body e b : enc_at body e ->
  enc_at (body ++ b) (snd (enc_plan e b)) /\ text_so_far (body ++ b) = text_so_far body ++ concat (fst (enc_plan e b)).
Proof.
  intros (Hok & Hp & Hc). destruct (enc_plan_spec b e Hok) as (P1 & P2 & P3 & P4). rewrite Hp in P1, P2, P4.
  destruct (full3_app body b) as [F R].
  assert (Lc : length (StdEncode (full3 (body ++ b))) = (length (StdEncode (full3 body)) + length (StdEncode (full3 (rest3 body ++ b))))%nat)
    by (rewrite F, StdEncode_full_app, app_length; reflexivity).
  split.
  - split; [exact P3|]. split; [rewrite P2, R; reflexivity|]. rewrite P4, Hc, Lc. rewrite Nat.add_mod_idemp_l by lia. reflexivity.
  - unfold text_so_far. rewrite F, StdEncode_full_app, wrap72_app, P1, Hc by lia. rewrite Nat.add_0_l. reflexivity.
Qed.
Lemma enc_at_close body e : enc_at body e -> text_so_far body ++ concat (close_plan e) = spec_encoded body.
Proof. intros (Hok & Hp & _). rewrite close_plan_spec by exact Hok. rewrite Hp, spec_encoded_wrapped. reflexivity. Qed.

Lemma enc_calls out b e h n x e' h' : (e_index e < 3)%nat -> enc_write (h_write O out) b (e, h) = ((n, x), (e', h')) ->
  exists l, h' = h ++ l /\ Forall (is_write out) l /\ (e_index e' < 3)%nat /\
    match x with
    | None => clean nothing l /\ written out l = concat (fst (enc_plan e b)) /\ e' = snd (enc_plan e b)
    | Some er => ends nothing l (Err er)
    end.
Proof.
  intros L E. unfold enc_write in E. cbn [fst snd] in E. pose proof (enc_index _ _ _ _ _ _ _ _ _ L E) as L'.
  destruct (enc_write_loop_plan (h_write O out) b 0 e h) as (k & e1 & P). rewrite P in E.
  destruct (run_calls (h_write O out) (fst (enc_plan e b)) h) as [y h1] eqn:R. apply write_calls in R. destruct R as (l & -> & W & _ & _ & X).
  destruct y as [er|]; injection E as <- <- <- <-; exists l; (split; [reflexivity|]); (split; [exact W|]); (split; [exact L'|]).
  - exact (proj1 X).
  - destruct X as [Cl Wr]. split; [exact Cl|]. split; [exact Wr|reflexivity].
Qed.

Lemma close_calls out e h x e' h' : (e_index e < 3)%nat -> enc_close (h_write O out) (e, h) = (x, (e', h')) ->
  exists l, h' = h ++ l /\ Forall (is_write out) l /\ Forall rest_of_text l /\ (length l <= 2)%nat /\
    (clean nothing l -> written out l = concat (close_plan e)).
Proof.
  intros L E. destruct (enc_close_plan (h_write O out) e h) as (e1 & P). rewrite P in E.
  destruct (run_calls (h_write O out) (close_plan e) h) as [y h1] eqn:R. apply write_calls in R. destruct R as (l & -> & W & Ll & I & X).
  assert (Sm : forall b, In b (close_plan e) -> (length b <= 4)%nat).
  { unfold close_plan. intros b Hb. destruct (0 <? e_index e)%nat.
    - destruct Hb as [<-|[<-|[]]]; [|cbn; lia]. rewrite StdEncode_length. unfold enc_pending. rewrite firstn_length.
      assert (Nat.min (e_index e) (length (e_buf e)) <= 2)%nat by lia. set (k := Nat.min _ _) in *. destruct k as [|[|[|k]]]; cbn; lia.
    - destruct Hb as [<-|[]]. cbn. lia. }
  assert (L2 : (length (close_plan e) <= 2)%nat) by (unfold close_plan; destruct (0 <? e_index e)%nat; cbn; lia).
  assert (x = y /\ h' = h ++ l) as [-> ->] by (destruct y; injection E as <- _ <-; split; reflexivity).
  exists l. split; [reflexivity|]. split; [exact W|]. split; [|split; [lia|]].
  - apply Forall_forall. intros s Hs. destruct (I s Hs) as (b & n & r & -> & Hb). exists out, b, n, r. split; [reflexivity|apply Sm, Hb].
  - intro Q. destruct y as [er|]; [destruct (proj2 X Q)|exact (proj2 X)].
Qed.
End Os.
