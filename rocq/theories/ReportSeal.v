(* Seal reports what SpecReport.v says. *)
From Verif Require Export ReportOpen DecodeFacts.
Local Open Scope Z_scope.

Lemma LoadPublicKey_error k w kf e : no_faults w -> contents w k kf -> public_error kf e -> LoadPublicKey k w = (Err e, w).
Proof.
  intros Hn Ck E. rewrite LoadPublicKey_eq, (ReadFile_contents k w kf) by (try apply undisturbed_nil; assumption).
  rewrite (public_error_read _ _ E), next_id by exact Hn. reflexivity.
Qed.

Lemma Seal_stops C pk mp ep w pf pub m e : no_faults w -> contents w pk pf -> readPublicKeyFile pf = Ok pub ->
  contents w mp m -> m <> [] -> enc_path mp ep <> mp ->
  pub_ToBox pub = Err e \/ (exists b, pub_ToBox pub = Ok b) /\ (length (w_rng w) < 32)%nat /\ e = ERand ->
  fst (Seal C pk mp ep w) = Err e.
Proof.
  intros Hn Cp Rp Cm Nm Hq D. rewrite Seal_eq, (LoadPublicKey_runs pk w pf pub Hn Cp Rp). set (q := enc_path mp ep) in *.
  destruct (open_read_spec mp w) as (r2 & w2 & E2 & O2 & N2 & D2). rewrite E2.
  pose proof Cm as (mm & Fm). destruct D2 as [(m' & -> & Cm' & Hh)|(e2 & -> & D2)]; [|rewrite (D2 Hn) in Fm; discriminate].
  pose proof O2 as (O2f & O2r & O2t & O2b & _). specialize (N2 Hn).
  assert (Fm2 : w_fs w2 mp = Some (File m mm)) by (rewrite O2f; exact Fm).
  destruct (file_size_spec (length (w_fds w)) mp 0 m mm w2 Hh Fm2) as (r3 & w3 & E3 & O3 & N3 & D3 & C3). rewrite E3.
  pose proof O3 as (O3f & O3r & O3t & O3b & _).
  destruct C3 as [-> | (e3 & -> & C3)]; [|contradiction]. specialize (N3 N2).
  destruct (create_file_spec q 438 w3) as (r4 & w4 & E4 & N4 & C4). rewrite E4.
  destruct C4 as [(-> & -> & _)|(e4 & -> & -> & C4)]; [|exfalso; apply (enc_path_ne mp ep), C4, N3].
  specialize (N4 N3). set (w4 := do_create q 438 (next w3)) in *.
  assert (R4 : w_rng w4 = w_rng w) by (transitivity (w_rng w3); [reflexivity|congruence]).
  unfold seal_tail. destruct (file_write q comment_text w4) as [[k er] w5] eqn:E5.
  destruct (file_write_frame _ _ _ _ _ _ E5) as (a & b & _ & _ & _ & _ & (Hs1 & _) & Hn5).
  destruct (Hn5 N4) as [-> N5].
  unfold seal. destruct (Z.eqb_spec (Z.of_nat (length m)) 0) as [Z0|_]; [destruct m; [contradiction|discriminate]|].
  destruct D as [-> | ((bx & ->) & L & ->)].
  - destruct (enc_close _ _) as [? [? ?]]. reflexivity.
  - rewrite lift_draw_eq. destruct (Nat.ltb_spec (length (w_rng w5)) 32) as [_|L']; [|rewrite Hs1, R4 in L'; lia].
    destruct (enc_close _ _) as [? [? ?]]. reflexivity.
Qed.

Theorem Seal_has_outcome C pk mp ep w : no_faults w -> enc_path mp ep <> mp ->
  (forall m, contents w mp m -> Z.of_nat (length m) < 2 ^ 63) -> seal_outcome w pk mp (fst (Seal C pk mp ep w)).
Proof.
  intros Hn Hq Hsz. destruct (contents_dec w pk) as [(pf & Ck)|Ck].
  2: { rewrite Seal_eq, LoadPublicKey_eq, ReadFile_eq. unfold no_faults in Hn. rewrite Hn. cbn. rewrite Ck. apply EKeyRead. exact Ck. }
  destruct (public_cases pf) as [(e & E)|(d & a & n & k & H & L & F & E)].
  { rewrite Seal_eq, (LoadPublicKey_error _ _ _ _ Hn Ck E). exact (EKey _ _ _ _ _ Ck E). }
  destruct (contents_dec w mp) as [(m & Cm)|Cm].
  2: { rewrite Seal_eq, (LoadPublicKey_runs pk w pf _ Hn Ck E). unfold open_read. rewrite pop_fault_eq. unfold no_faults in Hn. rewrite Hn. cbn [hd].
       change (w_fs (next w) mp) with (w_fs w mp). rewrite Cm. exact (EMessage _ _ _ _ _ Ck H L Cm). }
  destruct (list_eq_dec Byte.byte_eq_dec m []) as [-> | Nm].
  { destruct (Seal_empty C pk mp ep w pf _ Hn Ck E Cm Hq) as (w' & -> & _). exact (EEmpty _ _ _ _ _ Ck H L Cm). }
  pose proof F as (_ & _ & _ & Lk). pose proof (pub_ToBox_ok a n k Lk) as B.
  destruct (pub_ToBox (Pub a n k)) as [edpub|e|] eqn:Eb; [|destruct B as [B ->]|contradiction].
  - destruct B as [(x & Hx) _]. destruct (le_lt_dec 32 (length (w_rng w))) as [Lr|Lr].
    + destruct (pieces_exist m) as (ms & Fp & Cat).
      destruct (Seal_runs C pk mp ep w pf _ m edpub ms Hn Ck E Eb Cm Nm (Hsz m Cm) Hq Lr Fp Cat) as (w' & -> & _).
      exact (EDone _ _ _ _ _ _ _ _ _ _ Ck H F Cm Nm Hx Lr).
    + refine (eq_rect_r (fun r => seal_outcome w pk mp r) (ERandom _ _ _ _ _ _ _ _ _ _ Ck H F Cm Nm Hx Lr) _).
      apply (Seal_stops C pk mp ep w pf (Pub a n k) m); try assumption. right. split; [exists edpub; exact Eb|]. auto.
  - refine (eq_rect_r (fun r => seal_outcome w pk mp r) (EPoint _ _ _ _ _ _ _ _ _ Ck H F Cm Nm B) _).
    apply (Seal_stops C pk mp ep w pf (Pub a n k) m); try assumption. left. exact Eb.
Qed.

Lemma fields_public file d a n k : holds file d -> fields3 2 8 32 d a n k -> readPublicKeyFile file = Ok (Pub a n k) /\ length k = 32%nat.
Proof. intros H (-> & La & Ln & Lk). split; [|exact Lk]. apply public_file_iff. auto. Qed.

Lemma Seal_by_outcome C pk mp ep w r : no_faults w -> enc_path mp ep <> mp ->
  (forall m, contents w mp m -> Z.of_nat (length m) < 2 ^ 63) -> seal_outcome w pk mp r -> fst (Seal C pk mp ep w) = r.
Proof.
  intros Hn Hq Hsz D.
  destruct D as [Ck|pf e Ck E|pf d Ck H L Cm|pf d Ck H L Cm|pf d a n k m Ck H F Cm Nm B|pf d a n k m x Ck H F Cm Nm B L|pf d a n k m x Ck H F Cm Nm B L].
  - rewrite Seal_eq, LoadPublicKey_eq, ReadFile_eq. unfold no_faults in Hn. rewrite Hn. cbn. rewrite Ck. reflexivity.
  - rewrite Seal_eq, (LoadPublicKey_error _ _ _ _ Hn Ck E). reflexivity.
  - destruct (read_public_holds _ _ H L) as (a & n & k & _ & E).
    rewrite Seal_eq, (LoadPublicKey_runs pk w pf _ Hn Ck E). unfold open_read. rewrite pop_fault_eq. unfold no_faults in Hn. rewrite Hn. cbn [hd].
    change (w_fs (next w) mp) with (w_fs w mp). rewrite Cm. reflexivity.
  - destruct (read_public_holds _ _ H L) as (a & n & k & _ & E).
    destruct (Seal_empty C pk mp ep w pf _ Hn Ck E Cm Hq) as (w' & -> & _). reflexivity.
  - destruct (fields_public _ _ _ _ _ H F) as [E Lk]. apply (Seal_stops C pk mp ep w pf (Pub a n k) m); try assumption. left.
    pose proof (pub_ToBox_ok a n k Lk) as P. destruct (pub_ToBox (Pub a n k)) as [u|e|]; [|destruct P as [_ ->]; reflexivity|contradiction].
    destruct P as [(x & P) _]. contradiction (B x P).
  - destruct (fields_public _ _ _ _ _ H F) as [E Lk]. apply (Seal_stops C pk mp ep w pf (Pub a n k) m); try assumption. right.
    pose proof (pub_ToBox_ok a n k Lk) as P. destruct (pub_ToBox (Pub a n k)) as [u|e|]; [|destruct P as [P _]; contradiction (P x B)|contradiction].
    split; [exists u; reflexivity|auto].
  - destruct (fields_public _ _ _ _ _ H F) as [E Lk]. pose proof (pub_ToBox_ok a n k Lk) as P.
    destruct (pub_ToBox (Pub a n k)) as [u|e|] eqn:Eb; [|destruct P as [P _]; contradiction (P x B)|contradiction].
    destruct (pieces_exist m) as (ms & Fp & Cat).
    destruct (Seal_runs C pk mp ep w pf _ m u ms Hn Ck E Eb Cm Nm (Hsz m Cm) Hq L Fp Cat) as (w' & -> & _). reflexivity.
Qed.

Theorem Seal_outcome C pk mp ep w r : no_faults w -> enc_path mp ep <> mp ->
  (forall m, contents w mp m -> Z.of_nat (length m) < 2 ^ 63) -> fst (Seal C pk mp ep w) = r <-> seal_outcome w pk mp r.
Proof.
  intros Hn Hq Hsz. split.
  - intros <-. exact (Seal_has_outcome C pk mp ep w Hn Hq Hsz).
  - exact (Seal_by_outcome C pk mp ep w r Hn Hq Hsz).
Qed.
