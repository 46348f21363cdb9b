(* Bytes and byte strings.  Go's [byte]/[uint8] is Coq's 256-element type
   [Byte.byte], so every value of the model is in range by construction. *)
From Coq Require Export String.
From Coq Require Export List ZArith Lia Bool.
From Coq.Strings Require Export Byte.
From Coq Require Import NArith.
Export ListNotations.
Open Scope Z_scope.

Definition bytes := list byte.

(* uint8 -> int conversion *)
Definition b2z (b : byte) : Z := Z.of_N (Byte.to_N b).

(* byte(x) conversion in Go: keeps the low 8 bits of any integer *)
Definition z2b (z : Z) : byte :=
  match Byte.of_N (Z.to_N (z mod 256)) with
  | Some b => b
  | None => x00
  end.

Lemma b2z_range b : 0 <= b2z b < 256.
Proof. unfold b2z. pose proof (Byte.to_N_bounded b). lia. Qed.

Lemma z2b_b2z b : z2b (b2z b) = b.
Proof.
  unfold z2b. rewrite Z.mod_small by apply b2z_range.
  unfold b2z. rewrite N2Z.id, Byte.of_to_N. reflexivity.
Qed.

Lemma b2z_z2b z : b2z (z2b z) = z mod 256.
Proof.
  unfold z2b. pose proof (Z.mod_pos_bound z 256 ltac:(lia)) as Hb.
  destruct (Byte.of_N (Z.to_N (z mod 256))) as [b|] eqn:E.
  - apply Byte.to_of_N in E. unfold b2z. rewrite E. lia.
  - apply Byte.of_N_None_iff in E. lia.
Qed.

Lemma b2z_inj a b : b2z a = b2z b -> a = b.
Proof. intro H. rewrite <- (z2b_b2z a), <- (z2b_b2z b), H. reflexivity. Qed.

Lemma z2b_mod z : z2b (z mod 256) = z2b z.
Proof. unfold z2b. rewrite Z.mod_mod by lia. reflexivity. Qed.

Definition beqb (a b : byte) : bool := Byte.eqb a b.

Lemma beqb_eq a b : beqb a b = true <-> a = b.
Proof.
  unfold beqb. split.
  - apply Byte.byte_dec_bl.
  - apply Byte.byte_dec_lb.
Qed.

Lemma beqb_refl a : beqb a a = true.
Proof. apply beqb_eq. reflexivity. Qed.

Lemma beqb_neq a b : beqb a b = false <-> a <> b.
Proof.
  split; intro H.
  - intro E. subst. rewrite beqb_refl in H. discriminate.
  - destruct (beqb a b) eqn:E; [apply beqb_eq in E; contradiction|reflexivity].
Qed.

Lemma byte_eq_dec (a b : byte) : {a = b} + {a <> b}.
Proof. destruct (beqb a b) eqn:E; [left; apply beqb_eq|right; apply beqb_neq]; exact E. Defined.

(* bytes.Equal *)
Fixpoint bytes_eqb (a b : bytes) : bool :=
  match a, b with
  | [], [] => true
  | x :: a', y :: b' => beqb x y && bytes_eqb a' b'
  | _, _ => false
  end.

Lemma bytes_eqb_eq a b : bytes_eqb a b = true <-> a = b.
Proof.
  revert b; induction a as [|x a IH]; intros [|y b]; cbn; split; intro H;
    try reflexivity; try discriminate.
  - apply andb_prop in H. destruct H as [H1 H2].
    apply beqb_eq in H1. apply IH in H2. subst. reflexivity.
  - injection H as -> ->. rewrite beqb_refl. cbn. apply IH. reflexivity.
Qed.

Lemma bytes_eqb_refl a : bytes_eqb a a = true.
Proof. apply bytes_eqb_eq. reflexivity. Qed.

Lemma bytes_eqb_neq a b : bytes_eqb a b = false <-> a <> b.
Proof.
  split; intro H.
  - intro E. apply bytes_eqb_eq in E. congruence.
  - destruct (bytes_eqb a b) eqn:E; [apply bytes_eqb_eq in E; contradiction|reflexivity].
Qed.

(* strings.HasPrefix / bytes.HasPrefix *)
Fixpoint has_prefix (p s : bytes) : bool :=
  match p, s with
  | [], _ => true
  | x :: p', y :: s' => beqb x y && has_prefix p' s'
  | _ :: _, [] => false
  end.

Lemma has_prefix_iff p s : has_prefix p s = true <-> exists t, s = p ++ t.
Proof.
  revert s; induction p as [|x p IH]; intros s; cbn.
  - split; [intros _; exists s; reflexivity | reflexivity].
  - destruct s as [|y s]; split; intro H; try discriminate.
    + destruct H as [t H]; discriminate.
    + apply andb_prop in H. destruct H as [H1 H2].
      apply beqb_eq in H1. apply IH in H2. destruct H2 as [t ->]. subst.
      exists t. reflexivity.
    + destruct H as [t H]. injection H as -> ->. rewrite beqb_refl. cbn.
      apply IH. exists t. reflexivity.
Qed.

(* byte-wise XOR (Go's ^ on uint8) *)
Definition bxor (a b : byte) : byte := z2b (Z.lxor (b2z a) (b2z b)).

Fixpoint xor_bytes (a b : bytes) : bytes :=
  match a, b with
  | x :: a', y :: b' => bxor x y :: xor_bytes a' b'
  | _, _ => a
  end.

Lemma lxor_byte_range a b : 0 <= a < 256 -> 0 <= b < 256 -> 0 <= Z.lxor a b < 256.
Proof.
  intros Ha Hb.
  assert (H0 : 0 <= Z.lxor a b) by (apply Z.lxor_nonneg; lia).
  split; [exact H0|].
  destruct (Z.eq_dec (Z.lxor a b) 0) as [->|Hn]; [lia|].
  apply (Z.log2_lt_cancel _ 256). 
  change (Z.log2 256) with 8.
  destruct (Z.eq_dec a 0) as [->|Hna].
  { rewrite Z.lxor_0_l. apply Z.log2_lt_pow2; [|lia]. rewrite Z.lxor_0_l in Hn. lia. }
  destruct (Z.eq_dec b 0) as [->|Hnb].
  { rewrite Z.lxor_0_r. apply Z.log2_lt_pow2; lia. }
  pose proof (Z.log2_lxor a b ltac:(lia) ltac:(lia)) as Hl.
  assert (Z.log2 a < 8) by (apply Z.log2_lt_pow2; lia).
  assert (Z.log2 b < 8) by (apply Z.log2_lt_pow2; lia).
  lia.
Qed.

Lemma b2z_bxor a b : b2z (bxor a b) = Z.lxor (b2z a) (b2z b).
Proof.
  unfold bxor. rewrite b2z_z2b, Z.mod_small; [reflexivity|].
  apply lxor_byte_range; apply b2z_range.
Qed.

Lemma bxor_invol a b : bxor (bxor a b) b = a.
Proof.
  apply b2z_inj. rewrite !b2z_bxor, Z.lxor_assoc, Z.lxor_nilpotent, Z.lxor_0_r. reflexivity.
Qed.

Lemma bxor_comm a b : bxor a b = bxor b a.
Proof. apply b2z_inj. rewrite !b2z_bxor. apply Z.lxor_comm. Qed.

Lemma bxor_self a : bxor a a = x00.
Proof. apply b2z_inj. rewrite !b2z_bxor, Z.lxor_nilpotent. reflexivity. Qed.

Lemma bxor_inj_r a b c : bxor a b = bxor a c -> b = c.
Proof.
  intro H. apply (f_equal (fun t => bxor t a)) in H.
  rewrite (bxor_comm a b), (bxor_comm a c), !bxor_invol in H. exact H.
Qed.

Lemma length_xor_bytes a b : length (xor_bytes a b) = length a.
Proof. revert b; induction a as [|x a IH]; intros [|y b]; cbn; try reflexivity. rewrite IH. reflexivity. Qed.

Lemma xor_bytes_invol a b : xor_bytes (xor_bytes a b) b = a.
Proof.
  revert b; induction a as [|x a IH]; intros [|y b]; cbn; try reflexivity.
  rewrite IH, bxor_invol. reflexivity.
Qed.

Lemma xor_bytes_comm2 a b c :
  length a = length b -> length a = length c ->
  xor_bytes (xor_bytes a b) c = xor_bytes (xor_bytes a c) b.
Proof.
  revert b c; induction a as [|x a IH]; intros [|y b] [|z c] H1 H2; cbn in *; try reflexivity; try discriminate.
  rewrite IH by congruence. f_equal. apply b2z_inj. rewrite !b2z_bxor.
  rewrite !Z.lxor_assoc, (Z.lxor_comm (b2z y)). reflexivity.
Qed.

Lemma xor_bytes_inj a b c :
  length a = length b -> length a = length c -> xor_bytes a b = xor_bytes a c -> b = c.
Proof.
  revert b c; induction a as [|x a IH]; intros [|y b] [|z c] H1 H2 H; cbn in *; try reflexivity; try discriminate.
  injection H as Hx Hr. apply bxor_inj_r in Hx. subst. f_equal. apply IH; congruence.
Qed.

(* copy(dst[:n], src) into a zeroed array of n bytes *)
Definition fit (n : nat) (src : bytes) : bytes :=
  firstn n (src ++ repeat x00 n).

Lemma length_fit n s : length (fit n s) = n.
Proof. unfold fit. rewrite firstn_length, app_length, repeat_length. lia. Qed.

Lemma fit_exact n s : length s = n -> fit n s = s.
Proof.
  intro H. unfold fit. rewrite firstn_app, H, Nat.sub_diag. cbn.
  rewrite app_nil_r. apply firstn_all2. lia.
Qed.

Lemma fit_long n s : (n <= length s)%nat -> fit n s = firstn n s.
Proof.
  intro H. unfold fit. rewrite firstn_app.
  replace (n - length s)%nat with 0%nat by lia. cbn. apply app_nil_r.
Qed.

Lemma fit_short n s : (length s <= n)%nat -> fit n s = s ++ repeat x00 (n - length s).
Proof.
  intro H. unfold fit. rewrite firstn_app, firstn_all2 by exact H. f_equal.
  remember (n - length s)%nat as k eqn:E. assert (Hk : (k <= n)%nat) by lia. clear -Hk.
  revert n Hk; induction k as [|k IH]; intros n Hk; [reflexivity|].
  destruct n; [lia|]. cbn. f_equal. apply IH. lia.
Qed.

(* big-endian fixed-width unsigned integers (encoding/binary) *)
Fixpoint be_encode (n : nat) (z : Z) : bytes :=
  match n with
  | O => []
  | S k => z2b (z / 256 ^ Z.of_nat k) :: be_encode k z
  end.

Fixpoint be_decode_acc (acc : Z) (l : bytes) : Z :=
  match l with
  | [] => acc
  | b :: r => be_decode_acc (acc * 256 + b2z b) r
  end.
Definition be_decode (l : bytes) : Z := be_decode_acc 0 l.

Lemma length_be_encode n z : length (be_encode n z) = n.
Proof. induction n as [|n IH]; cbn; [reflexivity|rewrite IH; reflexivity]. Qed.

Lemma be_decode_acc_eq acc l :
  be_decode_acc acc l = acc * 256 ^ Z.of_nat (length l) + be_decode l.
Proof.
  unfold be_decode. revert acc; induction l as [|b l IH]; intro acc.
  - cbn. lia.
  - cbn [be_decode_acc length]. rewrite IH, (IH (0 * 256 + b2z b)).
    rewrite Nat2Z.inj_succ, Z.pow_succ_r by lia. ring.
Qed.

Lemma be_decode_cons b l : be_decode (b :: l) = b2z b * 256 ^ Z.of_nat (length l) + be_decode l.
Proof. unfold be_decode at 1. cbn [be_decode_acc]. rewrite be_decode_acc_eq. ring. Qed.

Lemma be_decode_range l : 0 <= be_decode l < 256 ^ Z.of_nat (length l).
Proof.
  induction l as [|b l IH].
  - cbn. lia.
  - rewrite be_decode_cons. cbn [length]. rewrite Nat2Z.inj_succ, Z.pow_succ_r by lia.
    pose proof (b2z_range b). nia.
Qed.

Lemma be_decode_encode n z : be_decode (be_encode n z) = z mod 256 ^ Z.of_nat n.
Proof.
  induction n as [|n IH].
  - cbn. rewrite Z.mod_1_r. reflexivity.
  - cbn [be_encode]. rewrite be_decode_cons, length_be_encode, IH, b2z_z2b.
    rewrite Nat2Z.inj_succ, Z.pow_succ_r by lia.
    assert (Hp : 0 < 256 ^ Z.of_nat n) by (apply Z.pow_pos_nonneg; lia).
    rewrite (Z.mul_comm 256), Z.rem_mul_r by lia. ring.
Qed.

Lemma be_decode_inj l1 l2 : length l1 = length l2 -> be_decode l1 = be_decode l2 -> l1 = l2.
Proof.
  revert l2; induction l1 as [|a l1 IH]; intros [|b l2] Hl H; cbn [length] in *; try discriminate; [reflexivity|].
  rewrite !be_decode_cons in H. injection Hl as Hl. rewrite Hl in H.
  pose proof (be_decode_range l1) as H1. pose proof (be_decode_range l2) as H2. rewrite Hl in H1.
  assert (b2z a = b2z b) by nia.
  assert (be_decode l1 = be_decode l2) by nia.
  f_equal; [apply b2z_inj; assumption | apply IH; assumption].
Qed.

(* string literals as byte strings *)
Definition str (s : String.string) : bytes := String.list_byte_of_string s.
Arguments str s%string_scope.
