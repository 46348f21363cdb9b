(* The signed sliding-window digits of edwards25519.go:845-873. *)
From Verif Require Export ScalarMult SpecScalar.
From Verif Require Import FieldFacts Decode.
Local Open Scope Z_scope.

(* ---- arrays ---- *)
Lemma at_app d l k : at_ (d ++ l) (length d + k) = at_ l k.
Proof. unfold at_. rewrite app_nth2_plus. reflexivity. Qed.
Lemma put_app d l k v : put (d ++ l) (length d + k) v = d ++ put l k v.
Proof.
  unfold put. rewrite <- Nat.add_assoc, firstn_app_2, skipn_app. replace (length d + (k + 1) - length d)%nat with (k + 1)%nat by lia.
  rewrite (skipn_all2 d) by lia. cbn [app]. rewrite app_assoc. reflexivity.
Qed.
Lemma at_app0 d l : at_ (d ++ l) (length d) = at_ l 0.
Proof. rewrite <- (Nat.add_0_r (length d)) at 1. apply at_app. Qed.
Lemma put_app0 d l v : put (d ++ l) (length d) v = d ++ put l 0 v.
Proof. rewrite <- (Nat.add_0_r (length d)) at 1. apply put_app. Qed.
Lemma put_length l k v : (k < length l)%nat -> length (put l k v) = length l.
Proof. intro H. unfold put. rewrite app_length, firstn_length_le by lia. cbn [length]. rewrite skipn_length. lia. Qed.

(* the carry loop on a suffix *)
Fixpoint inc (l : list Z) : list Z :=
  match l with [] => [] | x :: t => if x =? 0 then 1 :: t else 0 :: inc t end.
Lemma slide_carry_app l : forall d, slide_carry (length l) (length d) (d ++ l) = d ++ inc l.
Proof.
  induction l as [|x t IH]; intro d; [reflexivity|]. cbn [length slide_carry inc].
  rewrite at_app0, !put_app0. change (at_ (x :: t) 0) with x. change (put (x :: t) 0 1) with (1 :: t). change (put (x :: t) 0 0) with (0 :: t).
  destruct (x =? 0); [reflexivity|].
  replace (d ++ 0 :: t) with ((d ++ [0]) ++ t) by (rewrite <- app_assoc; reflexivity).
  replace (length d + 1)%nat with (length (d ++ [0])) by (rewrite app_length; reflexivity).
  rewrite IH, <- app_assoc. reflexivity.
Qed.
Lemma inc_length l : length (inc l) = length l.
Proof. induction l as [|x t IH]; [reflexivity|]. cbn [inc]. destruct (x =? 0); cbn [length]; rewrite ?IH; reflexivity. Qed.

(* the inner loop on a suffix *)
Fixpoint sl_in (fuel b : nat) (l : list Z) : list Z :=
  match fuel with
  | O => l
  | S fuel =>
      if (b <? length l)%nat then
        if at_ l b =? 0 then sl_in fuel (b + 1) l
        else
          let s := i8 (Z.shiftl (at_ l b) (Z.of_nat b)) in
          if i8 (at_ l 0 + s) <=? 15 then sl_in fuel (b + 1) (put (put l 0 (i8 (at_ l 0 + s))) b 0)
          else if -15 <=? i8 (at_ l 0 - s) then
            let l := put l 0 (i8 (at_ l 0 - s)) in
            sl_in fuel (b + 1) (firstn b l ++ inc (skipn b l))
          else l
      else l
  end.
Lemma slide_inner_app d fuel : forall b l, (0 < length l)%nat -> slide_inner fuel (length d + length l) (length d) b (d ++ l) = d ++ sl_in fuel b l.
Proof.
  induction fuel as [|fuel IH]; intros b l Hl; [reflexivity|]. cbn [slide_inner sl_in].
  assert (E : (length d + b <? length d + length l)%nat = (b <? length l)%nat).
  { destruct (Nat.ltb_spec b (length l)); [apply Nat.ltb_lt; lia|apply Nat.ltb_ge; lia]. }
  rewrite E. destruct (b <? length l)%nat eqn:Hb; [|reflexivity]. apply Nat.ltb_lt in Hb.
  rewrite !at_app, !at_app0, !put_app0. destruct (at_ l b =? 0); [apply IH; exact Hl|]. cbv zeta.
  destruct (i8 (at_ l 0 + _) <=? 15).
  - rewrite put_app. set (m := put _ b 0).
    assert (Lm : length m = length l) by (unfold m; rewrite !put_length; rewrite ?put_length; lia).
    rewrite <- Lm. apply IH. lia.
  - destruct (-15 <=? i8 (at_ l 0 - _)); [|reflexivity]. set (m := put l 0 _).
    assert (Lm : length m = length l) by (apply put_length; lia). clearbody m.
    replace (slide_carry (length d + length l - (length d + b)) (length d + b) (d ++ m)) with (d ++ (firstn b m ++ inc (skipn b m))).
    + set (q := firstn b m ++ inc (skipn b m)). assert (Lq : length q = length l).
      { unfold q. rewrite app_length, inc_length, <- app_length, firstn_skipn. exact Lm. }
      rewrite <- Lq. apply IH. lia.
    + replace (d ++ m) with ((d ++ firstn b m) ++ skipn b m) by (rewrite <- app_assoc, firstn_skipn; reflexivity). rewrite app_assoc.
      replace (length d + length l - (length d + b))%nat with (length (skipn b m)) by (rewrite skipn_length; lia).
      replace (length d + b)%nat with (length (d ++ firstn b m)) by (rewrite app_length, firstn_length_le; lia).
      symmetry. apply slide_carry_app.
Qed.

(* ---- closed form of one round ---- *)
Definition bit (x : Z) : Prop := x = 0 \/ x = 1.
Definition round (l : list Z) : list Z :=
  match l with
  | x :: b1 :: b2 :: b3 :: b4 :: tl =>
      if b4 =? 0 then (1 + 2 * b1 + 4 * b2 + 8 * b3) :: 0 :: 0 :: 0 :: 0 :: tl
      else (1 + 2 * b1 + 4 * b2 + 8 * b3 - 16) :: 0 :: 0 :: 0 :: 0 :: inc tl
  | [x; b1; b2; b3] => [1 + 2 * b1 + 4 * b2 + 8 * b3; 0; 0; 0]
  | [x; b1; b2] => [1 + 2 * b1 + 4 * b2; 0; 0]
  | [x; b1] => [1 + 2 * b1; 0]
  | l => l
  end.
Lemma sl_in_round l : Forall bit l -> hd 0 l = 1 -> sl_in 6 1 l = round l.
Proof.
  intros H1 H2. destruct l as [|x l]; [discriminate H2|]. cbn [hd] in H2. subst x. apply Forall_inv_tail in H1.
  do 6 (destruct l as [|? l]; [repeat match goal with H : Forall bit (_ :: _) |- _ => let A := fresh in pose proof (Forall_inv H) as A; apply Forall_inv_tail in H; destruct A; subst end; reflexivity|]).
  repeat match goal with H : Forall bit (_ :: _) |- _ => let A := fresh in pose proof (Forall_inv H) as A; apply Forall_inv_tail in H; destruct A; subst end; try reflexivity.
Qed.

(* ---- the whole loop ---- *)
Fixpoint sl (fuel : nat) (l : list Z) : list Z :=
  match fuel with
  | O => l
  | S fuel =>
      match (if hd 0 l =? 0 then l else round l) with
      | [] => []
      | y :: t => y :: sl fuel t
      end
  end.
Lemma round_length l : length (round l) = length l.
Proof. do 5 (destruct l as [|? l]; [reflexivity|]). cbn [round]. destruct (_ =? 0); cbn [length]; rewrite ?inc_length; reflexivity. Qed.
Lemma inc_bits l : Forall bit l -> Forall bit (inc l).
Proof.
  induction 1 as [|x t Hx Ht IH]; [constructor|]. cbn [inc]. destruct (x =? 0); constructor; [right; reflexivity|exact Ht|left; reflexivity|exact IH].
Qed.
Ltac bits := repeat match goal with H : Forall bit (_ :: _) |- _ => let A := fresh "B" in pose proof (Forall_inv H) as A; apply Forall_inv_tail in H end.
Lemma round_bits l : Forall bit l -> Forall bit (tl (round l)).
Proof.
  intro H. assert (Z0 : bit 0) by (left; reflexivity).
  do 5 (destruct l as [|? l]; [bits; cbn [round tl]; repeat constructor; assumption|]).
  bits. cbn [round]. destruct (_ =? 0); cbn [tl]; repeat (constructor; [assumption|]); [assumption|apply inc_bits; assumption].
Qed.
Lemma fold_slide l : forall d, Forall bit l ->
  fold_left (slide_step (length d + length l)) (seq (length d) (length l)) (d ++ l) = d ++ sl (length l) l.
Proof.
  intros d. remember (length l) as n eqn:En. revert l d En. induction n as [|n IH]; intros l d En HB; [destruct l; [reflexivity|discriminate En]|].
  destruct l as [|x l]; [discriminate En|]. cbn [length] in En. injection En as En. cbn [seq fold_left sl hd].
  assert (step : slide_step (length d + Datatypes.S n) (d ++ x :: l) (length d) = d ++ (if x =? 0 then x :: l else round (x :: l))).
  { unfold slide_step. rewrite at_app0. change (at_ (x :: l) 0) with x. destruct (Z.eqb_spec x 0) as [->|N]; [reflexivity|].
    replace (length d + Datatypes.S n)%nat with (length d + length (x :: l))%nat by (cbn [length]; lia).
    rewrite slide_inner_app by (cbn [length]; lia). rewrite sl_in_round; [reflexivity|exact HB|]. cbn [hd]. destruct (Forall_inv HB) as [E|E]; [contradiction|exact E]. }
  rewrite step.
  assert (HT : Forall bit (tl (if x =? 0 then x :: l else round (x :: l)))) by (destruct (x =? 0); [exact (Forall_inv_tail HB)|apply round_bits; exact HB]).
  assert (HL : length (if x =? 0 then x :: l else round (x :: l)) = Datatypes.S n) by (destruct (x =? 0); rewrite ?round_length; cbn [length]; lia).
  destruct (if x =? 0 then x :: l else round (x :: l)) as [|y t]; [discriminate HL|]. cbn [tl length] in HT, HL. injection HL as HL.
  replace (d ++ y :: t) with ((d ++ [y]) ++ t) by (rewrite <- app_assoc; reflexivity).
  replace (Datatypes.S (length d)) with (length (d ++ [y])) by (rewrite app_length; cbn [length]; lia).
  replace (length d + Datatypes.S n)%nat with (length (d ++ [y]) + n)%nat by (rewrite app_length; cbn [length]; lia).
  rewrite IH; [|symmetry; exact HL|exact HT]. rewrite <- app_assoc. reflexivity.
Qed.

(* ---- values ---- *)
Lemma bits_range l : Forall bit l -> 0 <= dval 2 l < 2 ^ Z.of_nat (length l).
Proof.
  induction 1 as [|x t Hx Ht IH]; [cbn [dval length]; change (2 ^ Z.of_nat 0) with 1; lia|].
  cbn [dval length]. rewrite Nat2Z.inj_succ, Z.pow_succ_r by lia. destruct Hx; lia.
Qed.
(* adding one, with the carry out of the top lost *)
Lemma inc_val l : Forall bit l -> exists c, bit c /\ dval 2 (inc l) = dval 2 l + 1 - 2 ^ Z.of_nat (length l) * c.
Proof.
  induction 1 as [|x t Hx Ht IH]; [exists 1; split; [right; reflexivity|reflexivity]|].
  cbn [inc dval length]. rewrite Nat2Z.inj_succ, Z.pow_succ_r by lia. destruct Hx as [-> | ->].
  - exists 0. split; [left; reflexivity|]. cbn [Z.eqb dval]. lia.
  - destruct IH as (c & Hc & E). exists c. split; [exact Hc|]. cbn [Z.eqb dval]. rewrite E. lia.
Qed.
Lemma inc_val_small l : Forall bit l -> dval 2 l + 1 < 2 ^ Z.of_nat (length l) -> dval 2 (inc l) = dval 2 l + 1.
Proof.
  intros H L. destruct (inc_val l H) as (c & Hc & E). pose proof (bits_range _ (inc_bits _ H)) as R. rewrite inc_length in R.
  destruct Hc as [-> | ->]; lia.
Qed.
Lemma round_val l : Forall bit l -> hd 0 l = 1 -> exists c, bit c /\ dval 2 (round l) = dval 2 l - 2 ^ Z.of_nat (length l) * c.
Proof.
  intros HB H1. assert (N : exists c, bit c /\ forall a, a = a - 2 ^ Z.of_nat (length l) * c) by (exists 0; split; [left; reflexivity|intro; lia]).
  do 5 (destruct l as [|? l]; [cbn [hd] in H1; destruct N as (c & Hc & N); exists c; split; [exact Hc|]; rewrite <- N; cbn [round dval]; lia|]).
  cbn [hd] in H1. subst. bits. cbn [round]. destruct (Z.eqb_spec z3 0) as [->|Nz].
  - destruct N as (c & Hc & N). exists c. split; [exact Hc|]. rewrite <- N. cbn [dval]. lia.
  - destruct B3 as [-> | ->]; [contradiction|]. destruct (inc_val l HB) as (c & Hc & E). exists c. split; [exact Hc|].
    cbn [dval length]. rewrite E, !Nat2Z.inj_succ, !Z.pow_succ_r by lia. lia.
Qed.
Lemma round_val_small l : Forall bit l -> hd 0 l = 1 -> 2 * dval 2 l <= 2 ^ Z.of_nat (length l) -> dval 2 (round l) = dval 2 l /\ 2 * dval 2 (tl (round l)) <= 2 ^ Z.of_nat (length (tl l)).
Proof.
  intros HB H1 HL.
  do 5 (destruct l as [|? l]; [cbn [hd] in H1; subst; bits; cbn [round dval length tl] in *;
    repeat match goal with B : bit _ |- _ => destruct B; subst end; try (vm_compute in HL; exfalso; apply HL; reflexivity); split; try reflexivity; vm_compute; discriminate|]).
  cbn [hd] in H1. subst. bits. pose proof (bits_range _ HB) as R. cbn [tl length] in HL |- *. rewrite !Nat2Z.inj_succ, !Z.pow_succ_r in * by lia. cbn [dval] in HL.
  cbn [round]. destruct (Z.eqb_spec z3 0) as [->|Nz]; cbn [dval tl].
  - split; [lia|]. destruct B0, B1, B2; subst; lia.
  - destruct B3 as [-> | ->]; [contradiction|]. rewrite inc_val_small; [|exact HB|destruct B0, B1, B2; subst; lia]. split; [lia|]. destruct B0, B1, B2; subst; lia.
Qed.

Lemma sl_length n : forall l, length l = n -> length (sl n l) = n.
Proof.
  induction n as [|n IH]; intros l Hl; [exact Hl|]. cbn [sl].
  assert (HL : length (if hd 0 l =? 0 then l else round l) = Datatypes.S n) by (destruct (_ =? 0); rewrite ?round_length; exact Hl).
  destruct (if hd 0 l =? 0 then l else round l) as [|y t]; [discriminate HL|]. cbn [length] in HL |- *. f_equal. apply IH. injection HL as HL. exact HL.
Qed.
Lemma sl_val n : forall l, length l = n -> Forall bit l -> exists c, dval 2 (sl n l) = dval 2 l + 2 ^ Z.of_nat n * c.
Proof.
  induction n as [|n IH]; intros l Hl HB; [exists 0; cbn [sl]; lia|]. cbn [sl].
  assert (HS : exists c, dval 2 (if hd 0 l =? 0 then l else round l) = dval 2 l + 2 ^ Z.of_nat (Datatypes.S n) * c /\ length (if hd 0 l =? 0 then l else round l) = Datatypes.S n /\ Forall bit (tl (if hd 0 l =? 0 then l else round l))).
  { destruct (Z.eqb_spec (hd 0 l) 0) as [E|N]; [exists 0; split; [lia|]; split; [exact Hl|destruct HB; [constructor|assumption]]|].
    destruct (round_val l HB) as (c & _ & E); [destruct HB as [|x t Hx Ht]; [destruct N; reflexivity|cbn [hd] in *; destruct Hx; [contradiction|assumption]]|].
    exists (- c). rewrite Hl in E. split; [lia|]. split; [rewrite round_length; exact Hl|apply round_bits; exact HB]. }
  destruct HS as (c & E & L & B). destruct (if hd 0 l =? 0 then l else round l) as [|y t]; [discriminate L|]. cbn [length tl dval] in *. injection L as L.
  destruct (IH t L B) as (c' & E'). exists (c + c'). rewrite E'. rewrite Nat2Z.inj_succ, Z.pow_succ_r in * by lia. lia.
Qed.
Lemma sl_val_small n : forall l, length l = n -> Forall bit l -> 2 * dval 2 l <= 2 ^ Z.of_nat n -> dval 2 (sl n l) = dval 2 l.
Proof.
  induction n as [|n IH]; intros l Hl HB HS; [reflexivity|]. cbn [sl]. destruct l as [|x l]; [discriminate Hl|]. cbn [length hd] in *. injection Hl as Hl.
  destruct (Z.eqb_spec x 0) as [->|N].
  - cbn [dval] in *. rewrite IH; [reflexivity|exact Hl|exact (Forall_inv_tail HB)|]. rewrite Nat2Z.inj_succ, Z.pow_succ_r in HS by lia. lia.
  - assert (X : hd 0 (x :: l) = 1) by (destruct (Forall_inv HB); [contradiction|assumption]).
    rewrite <- Hl in HS. change (Datatypes.S (length l)) with (length (x :: l)) in HS.
    destruct (round_val_small _ HB X HS) as [E1 E2]. pose proof (round_length (x :: l)) as L. pose proof (round_bits _ HB) as B.
    destruct (round (x :: l)) as [|y t]; [discriminate L|]. cbn [tl length dval] in *. injection L as L. rewrite IH; [exact E1|lia|exact B|]. rewrite <- Hl. exact E2.
Qed.

(* the digits *)
Definition wdigit (d : Z) : Prop := d = 0 \/ (Z.odd d = true /\ -15 <= d <= 15).
Lemma round_head l : Forall bit l -> hd 0 l = 1 -> wdigit (hd 0 (round l)).
Proof.
  intros HB H1. do 5 (destruct l as [|? l]; [cbn [hd] in H1; subst; bits; repeat match goal with B : bit _ |- _ => destruct B; subst end; try discriminate; (right; split; [reflexivity|cbn; lia])|]).
  cbn [hd] in H1. subst. bits. right. cbn [round].
  destruct B0 as [-> | ->], B1 as [-> | ->], B2 as [-> | ->], B3 as [-> | ->]; cbn [Z.eqb hd]; split; try reflexivity; lia.
Qed.
Lemma sl_digits n : forall l, length l = n -> Forall bit l -> Forall wdigit (sl n l).
Proof.
  induction n as [|n IH]; intros l Hl HB; [destruct l; [constructor|discriminate]|]. cbn [sl]. destruct l as [|x l]; [discriminate Hl|]. cbn [length hd] in *. injection Hl as Hl.
  destruct (Z.eqb_spec x 0) as [->|N].
  - constructor; [left; reflexivity|apply IH; [exact Hl|exact (Forall_inv_tail HB)]].
  - assert (X : hd 0 (x :: l) = 1) by (destruct (Forall_inv HB); [contradiction|assumption]).
    pose proof (round_head _ HB X) as D. pose proof (round_length (x :: l)) as L. pose proof (round_bits _ HB) as B.
    destruct (round (x :: l)) as [|y t]; [discriminate L|]. cbn [tl length hd] in *. injection L as L. constructor; [exact D|apply IH; [lia|exact B]].
Qed.
(* a non-zero digit is followed by four zeros *)
Fixpoint spaced (l : list Z) : Prop :=
  match l with [] => True | x :: t => (x <> 0 -> Forall (eq 0) (firstn 4 t)) /\ spaced t end.
Lemma sl_zeros k : forall n l, Forall (eq 0) (firstn k l) -> Forall (eq 0) (firstn k (sl n l)).
Proof.
  induction k as [|k IH]; intros n l H; [constructor|]. destruct n as [|n]; [exact H|]. destruct l as [|x l]; [constructor|].
  cbn [firstn] in H. pose proof (Forall_inv H) as X. apply Forall_inv_tail in H. subst x. cbn [sl hd Z.eqb firstn]. constructor; [reflexivity|apply IH; exact H].
Qed.
Lemma round_zeros l : hd 0 l <> 0 -> Forall (eq 0) (firstn 4 (tl (round l))).
Proof.
  intro H. do 5 (destruct l as [|? l]; [cbn [round tl firstn]; repeat constructor|]). cbn [round]. destruct (_ =? 0); cbn [tl firstn]; repeat constructor.
Qed.
Lemma sl_spaced n : forall l, length l = n -> spaced (sl n l).
Proof.
  induction n as [|n IH]; intros l Hl; [destruct l; [exact I|discriminate]|]. cbn [sl]. destruct l as [|x l]; [discriminate Hl|]. cbn [length hd] in *. injection Hl as Hl.
  destruct (Z.eqb_spec x 0) as [->|N].
  - cbn [spaced]. split; [intro C; destruct C; reflexivity|apply IH; exact Hl].
  - pose proof (round_zeros (x :: l) N) as Z4. pose proof (round_length (x :: l)) as L.
    destruct (round (x :: l)) as [|y t]; [discriminate L|]. cbn [tl length spaced] in *. injection L as L. split; [intros _; apply sl_zeros; exact Z4|apply IH; lia].
Qed.
Lemma spaced_at l : spaced l -> forall i j, (i < j <= i + 4)%nat -> at_ l i <> 0 -> at_ l j = 0.
Proof.
  unfold at_. induction l as [|x t IH]; intros H i j Hij Hn; [destruct j; reflexivity|]. destruct H as [H0 H].
  destruct j as [|j]; [lia|]. cbn [nth]. destruct i as [|i]; [|apply (IH H i); [lia|exact Hn]].
  cbn [nth] in Hn. specialize (H0 Hn). clear - H0 Hij. destruct (Nat.lt_ge_cases j (length t)) as [L|L]; [|apply nth_overflow; exact L].
  rewrite Forall_forall in H0. symmetry. apply H0. rewrite <- (firstn_skipn 4 t) at 1. rewrite app_nth1 by (rewrite firstn_length; lia). apply nth_In. rewrite firstn_length. lia.
Qed.

(* ---- the bits ---- *)
Lemma slide_bits_bit n a : Forall bit (slide_bits n a).
Proof.
  unfold slide_bits. rewrite Forall_map, Forall_forall. intros i _. change 1 with (Z.ones 1). rewrite Z.land_comm, Z.land_ones by lia. change (2 ^ 1) with 2. unfold bit.
  pose proof (Z.mod_pos_bound (Z.shiftr (byte_at a (i / 8)) (Z.of_nat (i mod 8))) 2). lia.
Qed.
Lemma byte_bits x : dval 2 (map (fun i => Z.land 1 (Z.shiftr (b2z x) (Z.of_nat i))) (seq 0 8)) = b2z x.
Proof. destruct x; vm_compute; reflexivity. Qed.
Lemma dval_app b l m : dval b (l ++ m) = dval b l + b ^ Z.of_nat (length l) * dval b m.
Proof.
  induction l as [|x l IH]; [cbn [app dval length]; change (b ^ Z.of_nat 0) with 1; lia|].
  cbn [app dval length]. rewrite IH, Nat2Z.inj_succ, Z.pow_succ_r by lia. ring.
Qed.
Lemma seq_8 n : seq 8 n = map (fun i => (i + 8)%nat) (seq 0 n).
Proof.
  assert (G : forall k, seq (k + 8) n = map (fun i => (i + 8)%nat) (seq k n)); [|exact (G 0%nat)].
  induction n as [|n IH]; intro k; [reflexivity|]. cbn [seq map]. f_equal. apply (IH (Datatypes.S k)).
Qed.
Lemma slide_bits_val a : dval 2 (slide_bits (8 * length a) a) = le_val a.
Proof.
  induction a as [|x a IH]; [reflexivity|]. unfold slide_bits. replace (8 * length (x :: a))%nat with (8 + 8 * length a)%nat by (cbn [length]; lia).
  rewrite seq_app, map_app, dval_app, map_length, seq_length. cbn [le_val]. f_equal.
  - exact (byte_bits x).
  - change (2 ^ Z.of_nat 8) with 256. f_equal. rewrite <- IH. unfold slide_bits. f_equal.
    change (0 + 8)%nat with 8%nat. rewrite seq_8, map_map.
    apply map_ext. intro i. replace (i + 8)%nat with (i + 1 * 8)%nat by lia. rewrite Nat.div_add, Nat.mod_add by lia. replace (i / 8 + 1)%nat with (Datatypes.S (i / 8)) by lia. reflexivity.
Qed.
Lemma slide_eq a : slide a = sl 256 (slide_bits 256 a).
Proof.
  unfold slide. assert (L : length (slide_bits 256 a) = 256%nat) by (unfold slide_bits; rewrite map_length, seq_length; reflexivity).
  pose proof (fold_slide (slide_bits 256 a) [] (slide_bits_bit _ _)) as F. rewrite L in F. exact F.
Qed.
Lemma slide_length a : length (slide a) = 256%nat.
Proof. rewrite slide_eq. apply sl_length. unfold slide_bits. rewrite map_length, seq_length. reflexivity. Qed.
Lemma slide_digits a : Forall wdigit (slide a).
Proof. rewrite slide_eq. apply sl_digits; [unfold slide_bits; rewrite map_length, seq_length; reflexivity|apply slide_bits_bit]. Qed.
Lemma slide_spaced a i j : (i < j <= i + 4)%nat -> at_ (slide a) i <> 0 -> at_ (slide a) j = 0.
Proof. rewrite slide_eq. apply spaced_at, sl_spaced. unfold slide_bits. rewrite map_length, seq_length. reflexivity. Qed.
Lemma slide_mod a : length a = 32%nat -> dval 2 (slide a) mod 2 ^ 256 = le_val a.
Proof.
  intro L. pose proof (slide_bits_val a) as V. rewrite L in V. change (8 * 32)%nat with 256%nat in V.
  destruct (sl_val 256 (slide_bits 256 a)) as (c & E); [unfold slide_bits; rewrite map_length, seq_length; reflexivity|apply slide_bits_bit|].
  rewrite slide_eq, E, V. change (Z.of_nat 256) with 256. rewrite Z.mul_comm, Z.mod_add by lia. apply Z.mod_small.
  pose proof (le_val_range a) as R. rewrite L in R. exact R.
Qed.
Lemma slide_val a : length a = 32%nat -> le_val a <= 2 ^ 255 -> dval 2 (slide a) = le_val a.
Proof.
  intros L H. pose proof (slide_bits_val a) as V. rewrite L in V. change (8 * 32)%nat with 256%nat in V. rewrite <- V in *. rewrite slide_eq.
  apply sl_val_small; [unfold slide_bits; rewrite map_length, seq_length; reflexivity|apply slide_bits_bit|]. change (2 ^ Z.of_nat 256) with (2 * 2 ^ 255). lia.
Qed.
Definition all_ones : bytes := repeat (z2b 255) 32.
Lemma slide_all_ones : dval 2 (slide all_ones) = -1.
Proof. vm_compute. reflexivity. Qed.
