(* What the tests of the repository assert, for every input: boxes between the
   holders of generated pairs, and the encoder read back without Close. *)
From Verif Require Import B64StreamFacts GoBase64Facts.
From Verif Require Export SpecHolders RealCrypto SignWitness.
Local Open Scope Z_scope.

Section Any.
Variable C : Crypto.
Hypothesis LL : LengthLaws C.
Hypothesis BC : BoxCorrect C.
Hypothesis DH : DHCorrect C.
Hypothesis TB : ToBoxAgree C.

Lemma halves pass opts w priv pub w0 v :
  GenerateKeypair C pass opts w = (Ok (priv, pub), w0) -> not_mistaken C pass opts (w_rng w) ->
  (pass <> [] -> exists tl, w_tty v = Ok pass :: tl) ->
  exists p v', priv_ToBox C priv v = ((Ok (box_secret C (slice 0 32 (w_rng w))), p), v') /\
    pub_ToBox pub = Ok (x25519_base C (box_secret C (slice 0 32 (w_rng w)))) /\
    (forall u, priv_ToBox C p u = ((Ok (box_secret C (slice 0 32 (w_rng w))), p), u)).
Proof.
  intros G Hm Ht.
  destruct (generate_pair _ _ _ _ _ _ _ LL G) as [[(A1 & A2 & A3) (N1 & N2) _ P1 _ _ _] _].
  pose proof (generate_inv _ _ _ _ _ _ LL G) as [Lrng _].
  destruct (generated_unlock C pass opts w priv pub w0 (w_tty v) LL G Ht Hm) as (p & U & Kp).
  set (seed := slice 0 32 (w_rng w)) in *.
  assert (Ls : length seed = 32%nat) by (unfold seed, slice; rewrite firstn_length, skipn_length; lia).
  assert (Es : box_secret C (key p) = box_secret C seed).
  { unfold box_secret. rewrite Kp, firstn_app, Ls, Nat.sub_diag, firstn_O, app_nil_r. reflexivity. }
  assert (TBp : pub_ToBox pub = Ok (x25519_base C (box_secret C seed))).
  { rewrite <- Es, Kp. etransitivity; [|exact (TB (p_keyNum pub) seed Ls)].
    f_equal. destruct pub. cbn in *. congruence. }
  pose proof (proj1 (generate_wf _ _ _ _ _ _ _ LL G)) as Wf.
  destruct (ToBox_runs C priv v p Wf U) as (v' & Eb).
  exists p, v'. rewrite <- Es in *. split; [exact Eb|]. split; [exact TBp|].
  intro u. assert (Cp : Check C p = Ok tt).
  { destruct U as [[Hc ->]|[_ (ps & tl & Et & D)]]; [apply Check_iff; exact Hc|].
    destruct (decrypt_generated C pass opts w priv pub w0 ps LL G) as (p' & D' & _ & Hc & _).
    destruct pass as [|c pass]; [congruence|]. destruct (Ht ltac:(discriminate)) as (tl' & Et'). congruence. }
  unfold priv_ToBox. rewrite Cp. reflexivity.
Qed.

Section Holders.
Variables (pass1 pass2 : bytes) (o1 o2 : option Z) (w1 w2 v1 v2 w1' w2' : world) (priv1 priv2 : Private) (pub1 pub2 : Public).
Hypothesis G1 : GenerateKeypair C pass1 o1 w1 = (Ok (priv1, pub1), w1').
Hypothesis G2 : GenerateKeypair C pass2 o2 w2 = (Ok (priv2, pub2), w2').
Hypothesis M1 : not_mistaken C pass1 o1 (w_rng w1).
Hypothesis M2 : not_mistaken C pass2 o2 (w_rng w2).
Hypothesis T1 : pass1 <> [] -> exists tl, w_tty v1 = Ok pass1 :: tl.
Hypothesis T2 : pass2 <> [] -> exists tl, w_tty v2 = Ok pass2 :: tl.

Lemma between_holders : exists s1 p1 v1' b1 s2 p2 v2' b2,
  priv_ToBox C priv1 v1 = ((Ok s1, p1), v1') /\ pub_ToBox pub1 = Ok b1 /\
  priv_ToBox C priv2 v2 = ((Ok s2, p2), v2') /\ pub_ToBox pub2 = Ok b2 /\
  forall m n, box_from C (box_to C m n b2 s1) n b1 s2 = Some m /\
              box_from C (box_to C m n b2 s1) n b2 s1 = Some m.
Proof.
  destruct (halves _ _ _ _ _ _ v1 G1 M1 T1) as (p1 & v1' & A1 & B1 & _).
  destruct (halves _ _ _ _ _ _ v2 G2 M2 T2) as (p2 & v2' & A2 & B2 & _).
  do 8 eexists. split; [exact A1|]. split; [exact B1|]. split; [exact A2|]. split; [exact B2|].
  intros m n. unfold box_from, box_to. split; [|apply BC].
  set (a := box_secret C (slice 0 32 (w_rng w1))). set (b := box_secret C (slice 0 32 (w_rng w2))).
  rewrite (DH a b (box_secret_length _ _) (box_secret_length _ _)). apply BC.
Qed.
End Holders.

Lemma to_holder pass opts w priv pub w0 v :
  GenerateKeypair C pass opts w = (Ok (priv, pub), w0) -> not_mistaken C pass opts (w_rng w) ->
  (pass <> [] -> exists tl, w_tty v = Ok pass :: tl) ->
  exists s p v' b, priv_ToBox C priv v = ((Ok s, p), v') /\ pub_ToBox pub = Ok b /\
    length s = 32%nat /\ b = x25519_base C s /\
    (forall u, priv_ToBox C p u = ((Ok s, p), u)) /\
    forall e m n, length e = 32%nat ->
      box_from C (box_to C m n b e) n (x25519_base C e) s = Some m /\
      box_from C (box_to C m n (x25519_base C e) s) n b e = Some m.
Proof.
  intros G M T. destruct (halves _ _ _ _ _ _ v G M T) as (p & v' & A & B & R).
  set (s := box_secret C (slice 0 32 (w_rng w))) in *. assert (L : length s = 32%nat) by apply box_secret_length. clearbody s.
  exists s, p, v'. eexists. split; [exact A|]. split; [exact B|]. split; [exact L|]. split; [reflexivity|]. split; [exact R|].
  intros e m n Le. unfold box_from, box_to.
  rewrite (DH e s Le L). split; apply BC.
Qed.

(* two runs that draw the same bytes: the sender's own keys open the box *)
Lemma own_keys_refuted : exists w1 w2 priv1 pub1 priv2 pub2 u1 u2 s1 s2 b1 b2,
  GenerateKeypair C [] None w1 = (Ok (priv1, pub1), u1) /\ GenerateKeypair C [] None w2 = (Ok (priv2, pub2), u2) /\
  fst (fst (priv_ToBox C priv1 u1)) = Ok s1 /\ fst (fst (priv_ToBox C priv2 u2)) = Ok s2 /\
  pub_ToBox pub1 = Ok b1 /\ pub_ToBox pub2 = Ok b2 /\
  forall m n, box_from C (box_to C m n b2 s1) n b1 s1 = Some m.
Proof.
  pose (w := start [] [] (repeat x07 56)).
  assert (L : (56 <= length (w_rng w))%nat) by (cbn; lia).
  pose proof (generate_eq C [] None w LL L (or_introl eq_refl)) as G. cbv zeta in G.
  match type of G with _ = (Ok (?a, ?b), ?c) => set (priv := a) in *; set (pub := b) in *; set (u := c) in * end.
  clearbody priv pub u.
  destruct (halves [] None w priv pub u u G) as (p & v' & A & B & _); [intro H; exfalso; apply H; reflexivity|intro H; exfalso; apply H; reflexivity|].
  exists w, w, priv, pub, priv, pub, u, u. do 4 eexists. split; [exact G|]. split; [exact G|].
  rewrite A. cbn [fst]. split; [reflexivity|]. split; [reflexivity|]. split; [exact B|]. split; [exact B|].
  intros m n. apply BC.
Qed.
End Any.

(* base64/coding_test.go *)
Lemma unclosed segs e t n : write_all buffer_write segs (NewEncoder, []) = (None, (e, t)) ->
  (3 * (length (concat segs) / 3) <= n)%nat ->
  fst (dec_read_script n (map RByte t)) = RRet (firstn (3 * (length (concat segs) / 3)) (concat segs)) None.
Proof.
  intros W Hn. destruct (write_all_plan buffer_write segs NewEncoder []) as (e1 & H). pose proof (eq_trans (eq_sym W) H) as W'. clear H W.
  destruct (run_calls buffer_write (fst (plan_all NewEncoder segs)) []) as [[x|] t'] eqn:R; [discriminate W'|]. injection W' as _ <-.
  destruct (run_calls_honest _ _ buffer_honest _ _ _ _ R) as (q & r & Eq & Et & Er). rewrite (Er eq_refl), app_nil_r in Eq. cbn [app] in Et. subst q.
  destruct (plan_all_spec segs NewEncoder NewEncoder_ok) as (P & _). cbn [enc_pending NewEncoder e_index firstn app] in P.
  change (enc_pending NewEncoder) with (@nil byte) in P. cbn [app] in P.
  set (x := concat segs) in *. clearbody x. assert (N : no_lf t = StdEncode (full3 x)).
  { rewrite Et, P, no_lf_wrap. apply no_lf_nlfree, StdEncode_nlfree. }
  replace (3 * (length x / 3))%nat with (length x / 3 * 3)%nat in * by lia. fold (full3 x).
  assert (Ll : length (StdEncode (full3 x)) = (4 * (length x / 3))%nat).
  { rewrite StdEncode_length, length_full3, Nat.div_add_l by lia. change (2 / 3)%nat with 0%nat. lia. }
  unfold dec_read_script, dec_read.
  assert (Em : exists m, EncodedLen (Z.of_nat n) = Z.of_nat m /\ (4 * (length x / 3) <= m)%nat).
  { exists (4 * ((n + 2) / 3))%nat. split.
    - unfold EncodedLen. rewrite Nat2Z.inj_mul, Nat2Z.inj_div, Nat2Z.inj_add. change (Z.of_nat 2) with 2. change (Z.of_nat 3) with 3. change (Z.of_nat 4) with 4. lia.
    - assert (length x / 3 <= (n + 2) / 3)%nat; [|lia]. apply Nat.div_le_lower_bound; lia. }
  destruct Em as (m & -> & Hm).
  destruct (dec_loop_plain t (script_fuel (plain t) (Z.of_nat m)) m x00 0 []) as (t2 & H1 & H2).
  - unfold script_fuel, plain. rewrite map_length. lia.
  - lia.
  - reflexivity.
  - unfold plain in H1. rewrite H1. cbn [length app]. rewrite Nat.sub_0_r, N, firstn_all2 by lia. cbn [fst].
    rewrite StdDecode_ref.
    + rewrite (nlfree_nonl _ (StdEncode_nlfree _)), ref_decode_encode. reflexivity.
    + rewrite (nlfree_nonl _ (StdEncode_nlfree _)), Ll, (Nat.mul_comm 4), Nat.div_mul by lia. lia.
Qed.
Lemma unclosed_same segs e t : write_all buffer_write segs (NewEncoder, []) = (None, (e, t)) ->
  (fst (dec_read_script (length (concat segs)) (map RByte t)) = RRet (concat segs) None <-> (length (concat segs) mod 3 = 0)%nat).
Proof.
  intro W. pose proof (Nat.div_mod (length (concat segs)) 3 ltac:(lia)) as D. rewrite (unclosed segs e t (length (concat segs)) W) by lia. split.
  - intro H. assert (E : firstn (3 * (length (concat segs) / 3)) (concat segs) = concat segs) by congruence. clear H.
    apply (f_equal (@length byte)) in E. rewrite firstn_length in E. revert D E. generalize (concat segs). clear. intro x. generalize (length x / 3)%nat. lia.
  - intro H. rewrite firstn_all2 by lia. reflexivity.
Qed.

(* the array of the test: 0, 1, 2, ... *)
Definition test_header (n : nat) : bytes := map (fun i => z2b (Z.of_nat i)) (seq 0 n).
