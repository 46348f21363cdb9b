(* The routines of Pointers.v compute what Field.v, Group.v and ScalarMult.v say and
   write nothing else.  Proofs. *)
From Coq Require Import Lia.
From Verif Require Import SlideFacts Pointers.
Open Scope Z_scope.

Lemma loc_eqb_spec a b : Bool.reflect (a = b) (loc_eqb a b).
Proof.
  destruct a as [x i], b as [y j]. unfold loc_eqb. cbn [fst snd].
  destruct (Z.eqb_spec x y) as [-> | N]; cbn [andb].
  - destruct (Nat.eqb_spec i j) as [-> | N]; constructor; congruence.
  - constructor. congruence.
Qed.
Lemma loc_eqb_refl a : loc_eqb a a = true.
Proof. destruct (loc_eqb_spec a a); congruence. Qed.
Lemma loc_eqb_ne a b : a <> b -> loc_eqb a b = false.
Proof. intro. destruct (loc_eqb_spec a b); congruence. Qed.

Lemma put_same m l v : put m l v l = v.
Proof. unfold put. now rewrite loc_eqb_refl. Qed.
Lemma put_other m l v x : x <> l -> put m l v x = m x.
Proof. intro. unfold put. now rewrite loc_eqb_ne. Qed.

(* limbs *)
Lemma limb_ext f g : (forall i, (i < 10)%nat -> limb i f = limb i g) -> f = g.
Proof.
  intro H. destruct f, g.
  pose proof (H 0%nat ltac:(lia)) as H0. pose proof (H 1%nat ltac:(lia)) as H1.
  pose proof (H 2%nat ltac:(lia)) as H2. pose proof (H 3%nat ltac:(lia)) as H3.
  pose proof (H 4%nat ltac:(lia)) as H4. pose proof (H 5%nat ltac:(lia)) as H5.
  pose proof (H 6%nat ltac:(lia)) as H6. pose proof (H 7%nat ltac:(lia)) as H7.
  pose proof (H 8%nat ltac:(lia)) as H8. pose proof (H 9%nat ltac:(lia)) as H9.
  cbn in *. congruence.
Qed.
Lemma limb_set i j z f : (i < 10)%nat -> (j < 10)%nat -> limb i (set_limb j z f) = if Nat.eqb i j then z else limb i f.
Proof.
  intros Hi Hj. destruct f.
  do 10 (destruct j as [|j]; [do 10 (destruct i as [|i]; [reflexivity|]); lia|]). lia.
Qed.

Definition make (f : nat -> Z) : fe :=
  Fe (f 0%nat) (f 1%nat) (f 2%nat) (f 3%nat) (f 4%nat) (f 5%nat) (f 6%nat) (f 7%nat) (f 8%nat) (f 9%nat).
Lemma limb_make f i : (i < 10)%nat -> limb i (make f) = f i.
Proof. intro. do 10 (destruct i as [|i]; [reflexivity|]). lia. Qed.

(* ten assignments dst[i] = F i (dst[i], a[i], b[i]) *)
Section TenStores.
  Variables (F : nat -> Z -> Z -> Z -> Z) (d a b : loc).
  Definition ten (m : mem) (n : nat) : mem :=
    fold_left (fun m i => store m d i (F i (limb i (m d)) (limb i (m a)) (limb i (m b)))) (seq 0 n) m.

  Lemma ten_inv m n : (n <= 10)%nat ->
    (forall x, x <> d -> ten m n x = m x) /\
    (forall i, (i < 10)%nat -> limb i (ten m n d) =
       if Nat.ltb i n then F i (limb i (m d)) (limb i (m a)) (limb i (m b)) else limb i (m d)).
  Proof.
    induction n as [|n IH]; intro Hn.
    - split; [reflexivity|]. intros i Hi. reflexivity.
    - destruct (IH ltac:(lia)) as [O L]. unfold ten in *. rewrite seq_S, fold_left_app. cbn [fold_left Nat.add].
      set (k := fold_left _ (seq 0 n) m) in *.
      assert (R : forall x, limb n (k x) = limb n (m x)).
      { intro x. destruct (loc_eqb_spec x d) as [-> | N].
        - rewrite L by lia. now rewrite Nat.ltb_irrefl.
        - now rewrite O. }
      split.
      + intros x N. unfold store. rewrite put_other by exact N. now apply O.
      + intros i Hi. unfold store. rewrite put_same, limb_set by lia. rewrite !R, L by exact Hi.
        destruct (Nat.eqb_spec i n) as [-> | N].
        * assert (E : Nat.ltb n (S n) = true) by (apply Nat.ltb_lt; lia). now rewrite E.
        * destruct (Nat.ltb_spec i n); destruct (Nat.ltb_spec i (S n)); try lia; reflexivity.
  Qed.
  Lemma ten_ok m x : ten m 10 x =
    put m d (make (fun i => F i (limb i (m d)) (limb i (m a)) (limb i (m b)))) x.
  Proof.
    destruct (ten_inv m 10 (le_n _)) as [O L]. destruct (loc_eqb_spec x d) as [-> | N].
    - rewrite put_same. apply limb_ext. intros i Hi. rewrite L, limb_make by exact Hi.
      apply Nat.ltb_lt in Hi. now rewrite Hi.
    - rewrite put_other by exact N. now apply O.
  Qed.
End TenStores.

Lemma FeAdd_make f g : FeAdd f g = make (fun i => (limb i f + limb i g)%i32).
Proof. now destruct f, g. Qed.
Lemma FeSub_make f g : FeSub f g = make (fun i => (limb i f - limb i g)%i32).
Proof. now destruct f, g. Qed.
Lemma FeNeg_make f : FeNeg f = make (fun i => (0 - limb i f)%i32).
Proof. now destruct f. Qed.
Lemma FeCMove_make f g b :
  FeCMove f g b = make (fun i => Z.lxor (limb i f) (Z.land (i32 (- b)) (Z.lxor (limb i f) (limb i g)))).
Proof. now destruct f, g. Qed.
Lemma make_limbs f : make (fun i => limb i f) = f.
Proof. now destruct f. Qed.

Lemma FeAdd_at_ok d a b m x : FeAdd_at d a b m x = put m d (FeAdd (m a) (m b)) x.
Proof. rewrite FeAdd_make. exact (ten_ok (fun _ _ y z => (y + z)%i32) d a b m x). Qed.
Lemma FeSub_at_ok d a b m x : FeSub_at d a b m x = put m d (FeSub (m a) (m b)) x.
Proof. rewrite FeSub_make. exact (ten_ok (fun _ _ y z => (y - z)%i32) d a b m x). Qed.
Lemma FeNeg_at_ok d a m x : FeNeg_at d a m x = put m d (FeNeg (m a)) x.
Proof. rewrite FeNeg_make. exact (ten_ok (fun _ _ y _ => (0 - y)%i32) d a a m x). Qed.
Lemma FeCMove_at_ok d a b m x : FeCMove_at d a b m x = put m d (FeCMove (m d) (m a) b) x.
Proof. rewrite FeCMove_make. exact (ten_ok (fun _ w y _ => Z.lxor w (Z.land (i32 (- b)) (Z.lxor w y))) d a a m x). Qed.
Lemma store_all_ok d v m x : store_all d v m x = put m d v x.
Proof. rewrite <- (make_limbs v) at 2. exact (ten_ok (fun i _ _ _ => limb i v) d d d m x). Qed.
Lemma FeOne_at_ok d m x : m g_zero = FeZero -> FeOne_at d m x = put m d FeOne x.
Proof.
  intro G. unfold FeOne_at, FeZero_at, store. rewrite put_same, G. unfold put.
  now destruct (loc_eqb x d).
Qed.

Lemma put_ext m m' d v x : (forall y, m y = m' y) -> put m d v x = put m' d v x.
Proof. intro H. unfold put. now rewrite H. Qed.

(* the same at the level of names *)
Definition dst {A} (o : op A) : A :=
  match o with
  | Zero d | One d | Copy d _ | Add d _ _ | Sub d _ _ | Neg d _ | CMove d _ _ | Mul d _ _ | Square d _
  | Square2 d _ | Squares _ d => d
  end.
Definition val {A} (e : A -> fe) (o : op A) : fe :=
  match o with
  | Zero _ => FeZero
  | One _ => FeOne
  | Copy _ s => e s
  | Add _ a b => FeAdd (e a) (e b)
  | Sub _ a b => FeSub (e a) (e b)
  | Neg _ a => FeNeg (e a)
  | CMove d a b => FeCMove (e d) (e a) b
  | Mul _ a b => FeMul (e a) (e b)
  | Square _ a => FeSquare (e a)
  | Square2 _ a => FeSquare2 (e a)
  | Squares n d => sqn n (e d)
  end.

Lemma squares_ok d m n : forall x, Nat.iter n (FeSquare_at d d) m x = put m d (sqn n (m d)) x.
Proof.
  induction n as [|n IH]; intro x.
  - unfold put. change (m x = if loc_eqb x d then m d else m x). destruct (loc_eqb_spec x d); congruence.
  - change (FeSquare_at d d (Nat.iter n (FeSquare_at d d) m) x = put m d (FeSquare (sqn n (m d))) x).
    unfold FeSquare_at at 1. rewrite store_all_ok, IH, put_same.
    unfold put at 1. rewrite IH. unfold put. now destruct (loc_eqb x d).
Qed.

Lemma exec_ok o m x : m g_zero = FeZero -> exec o m x = put m (dst o) (val m o) x.
Proof.
  intro G. destruct o; cbn [exec dst val].
  - unfold FeZero_at. now rewrite G.
  - now apply FeOne_at_ok.
  - reflexivity.
  - apply FeAdd_at_ok.
  - apply FeSub_at_ok.
  - apply FeNeg_at_ok.
  - apply FeCMove_at_ok.
  - apply store_all_ok.
  - apply store_all_ok.
  - apply store_all_ok.
  - apply squares_ok.
Qed.

Definition op_map {A B} (f : A -> B) (o : op A) : op B :=
  match o with
  | Zero d => Zero (f d) | One d => One (f d) | Copy d s => Copy (f d) (f s)
  | Add d a b => Add (f d) (f a) (f b) | Sub d a b => Sub (f d) (f a) (f b) | Neg d a => Neg (f d) (f a)
  | CMove d a b => CMove (f d) (f a) b
  | Mul d a b => Mul (f d) (f a) (f b) | Square d a => Square (f d) (f a) | Square2 d a => Square2 (f d) (f a)
  | Squares n d => Squares n (f d)
  end.
Definition args {A} (o : op A) : list A :=
  match o with
  | Zero d | One d | Squares _ d => [d]
  | Copy d s | Neg d s | CMove d s _ | Square d s | Square2 d s => [d; s]
  | Add d a b | Sub d a b | Mul d a b => [d; a; b]
  end.
Fixpoint set_at {A} (n : nat) (v : A) (l : list A) : list A :=
  match l, n with
  | [], _ => []
  | _ :: l, O => v :: l
  | x :: l, S n => x :: set_at n v l
  end.
Definition aexec (o : op nat) (e : list fe) : list fe := set_at (dst o) (val (fun n => nth n e FeZero) o) e.
Definition arun (l : list (op nat)) (e : list fe) : list fe := fold_left (fun e o => aexec o e) l e.

Definition at_loc (ls : list loc) (n : nat) : loc := nth n ls g_zero.
(* name d stands for a location no other name stands for, and not for the zero *)
Definition solo (ls : list loc) (d : nat) : Prop :=
  (d < length ls)%nat /\ at_loc ls d <> g_zero /\
  forall n, (n < length ls)%nat -> n <> d -> at_loc ls n <> at_loc ls d.

Lemma nth_set_at {A} n d (v x : A) l : (d < length l)%nat -> nth n (set_at d v l) x = if Nat.eqb n d then v else nth n l x.
Proof.
  revert n d. induction l as [|y l IH]; intros n d H; [cbn in H; lia|].
  destruct d as [|d], n as [|n]; cbn; try reflexivity. apply IH. cbn in H. lia.
Qed.
Lemma set_at_length {A} d (v : A) l : length (set_at d v l) = length l.
Proof. revert d. induction l as [|y l IH]; intros [|d]; cbn; congruence. Qed.

Lemma val_map {A B} (f : A -> B) (e : A -> fe) (e' : B -> fe) o :
  (forall a, In a (args o) -> e' (f a) = e a) -> val e' (op_map f o) = val e o.
Proof. intro H. destruct o; cbn [op_map val args] in *; rewrite ?H by (cbn; tauto); reflexivity. Qed.
Lemma dst_map {A B} (f : A -> B) (o : op A) : dst (op_map f o) = f (dst o).
Proof. now destruct o. Qed.

Definition okop (ls : list loc) (o : op nat) : Prop :=
  solo ls (dst o) /\ forall a, In a (args o) -> (a < length ls)%nat.

Lemma sim ls prog : (forall o, In o prog -> okop ls o) -> forall m e, m g_zero = FeZero -> map m ls = e ->
  let m' := run (map (op_map (at_loc ls)) prog) m in
  map m' ls = arun prog e /\ m' g_zero = FeZero /\
  forall x, (forall o, In o prog -> x <> at_loc ls (dst o)) -> m' x = m x.
Proof.
  induction prog as [|o prog IH]; intros Hp m e G E; cbn zeta.
  - split; [exact E|]. split; [exact G|]. reflexivity.
  - destruct (Hp o (or_introl eq_refl)) as [(Hd & Hz & Hs) Ha].
    cbn [map run fold_left arun]. fold (run (map (op_map (at_loc ls)) prog)).
    set (m1 := exec (op_map (at_loc ls) o) m).
    assert (X : forall x, m1 x = put m (at_loc ls (dst o)) (val (fun n => nth n e FeZero) o) x).
    { intro x. unfold m1. rewrite exec_ok by exact G. rewrite dst_map.
      rewrite (val_map (at_loc ls) (fun n => nth n e FeZero)); [reflexivity|].
      intros a Hin. subst e. unfold at_loc. rewrite (nth_indep _ FeZero (m g_zero)) by (rewrite map_length; now apply Ha).
      now rewrite map_nth. }
    assert (G1 : m1 g_zero = FeZero) by (rewrite X, put_other by congruence; exact G).
    assert (E1 : map m1 ls = aexec o e).
    { apply (nth_ext _ _ FeZero FeZero).
      - unfold aexec. rewrite set_at_length. subst e. now rewrite !map_length.
      - intros n Hn. rewrite map_length in Hn.
        rewrite (nth_indep _ FeZero (m1 g_zero)) by now rewrite map_length. rewrite map_nth. fold (at_loc ls n).
        unfold aexec. rewrite nth_set_at by (subst e; now rewrite map_length). rewrite X.
        destruct (Nat.eqb_spec n (dst o)) as [-> | N].
        + apply put_same.
        + rewrite put_other by (apply Hs; assumption). subst e.
          rewrite (nth_indep _ FeZero (m g_zero)) by now rewrite map_length. now rewrite map_nth. }
    destruct (IH (fun o' H => Hp o' (or_intror H)) m1 _ G1 E1) as (R1 & R2 & R3).
    split; [exact R1|]. split; [exact R2|]. intros x Hx.
    etransitivity; [apply R3; intros o' H; apply Hx; now right|].
    rewrite X. apply put_other. apply Hx. now left.
Qed.
