(* Key generations running at the same time. *)
From Verif Require Import ConcFacts SpecConc GenFacts SpecCrash.
From Coq Require Import Lia.

(* a key generation: its arguments, the world it started in, the one it would have left
   alone, and what it did *)
Record job := Job { j_name : path; j_pass : bytes; j_opts : option Z; j_start : world; j_end : world; j_log : list event }.
Definition did (C : Crypto) (fs : path -> option file) (j : job) : Prop :=
  GenerateKey C (j_name j) (j_pass j) (j_opts j) (j_start j) = (Ok tt, j_end j) /\
  w_fs (j_start j) = fs /\ w_log (j_end j) = w_log (j_start j) ++ j_log j.

Lemma sec_path_inj k k' : sec_path k = sec_path k' -> k = k'.
Proof. unfold sec_path. apply app_inv_tail. Qed.
Lemma pub_path_inj k k' : pub_path k = pub_path k' -> k = k'.
Proof. unfold pub_path. apply app_inv_tail. Qed.
Lemma sec_not_pub k k' : sec_path k <> pub_path k'.
Proof.
  unfold sec_path, pub_path. intro H. apply (f_equal (@rev byte)) in H. rewrite !rev_app_distr in H. cbn in H. discriminate.
Qed.

Lemma did_log C fs j : LengthLaws C -> did C fs j -> exists priv pub,
  process (j_log j) = [ATrunc (sec_path (j_name j)) 420; AWrite (sec_path (j_name j)) 0 (sec_file priv);
                       ATrunc (pub_path (j_name j)) 420; AWrite (pub_path (j_name j)) 0 (pub_file pub)] /\
  length (sec_file priv) = 180%nat /\ length (pub_file pub) = 95%nat /\
  w_fs (j_end j) (sec_path (j_name j)) = Some (File (sec_file priv) (file_mode fs (sec_path (j_name j)) 420)) /\
  w_fs (j_end j) (pub_path (j_name j)) = Some (File (pub_file pub) (file_mode fs (pub_path (j_name j)) 420)).
Proof.
  intros LL (H & Hf & Hl). set (k := j_name j) in *.
  destruct (GenerateKey_success _ _ _ _ _ _ LL H) as (priv & pub & w1 & G & S1 & S2 & _).
  destruct (GenerateKey_spec _ _ _ _ _ _ _ H) as (_ & [(e & E & _)|(priv' & pub' & w1' & evs1 & evs2 & ok1 & G' & W1 & W2 & L & _)]); [discriminate|].
  rewrite G in G'. injection G' as <- <- <-.
  destruct W2 as [(_ & _ & E)|(-> & W2)]; [discriminate|]. cbn [is_ok] in W2.
  assert (K : forall p d evs, write_events p d 420 evs true -> evs = [EvCreate p 420; EvAppend p d]).
  { intros p d evs [[X _]|[(X & _)|X]]; [discriminate|discriminate|exact X]. }
  rewrite (K _ _ _ W1), (K _ _ _ W2) in L. rewrite Hl in L. apply app_inv_head in L.
  destruct (generate_wf _ _ _ _ _ _ _ LL G) as [Wp Wq].
  exists priv, pub. split.
  { rewrite L. cbn [process actions app]. unfold process. cbn [actions]. rewrite !bytes_eqb_refl. reflexivity. }
  split; [unfold sec_file; rewrite !app_length, StdEncode_length, priv_encode_length by exact Wp; reflexivity|].
  split; [unfold pub_file; rewrite !app_length, StdEncode_length, pub_encode_length by exact Wq; reflexivity|].
  rewrite <- Hf. split; [exact S1|exact S2].
Qed.

Lemma bytes_neq a b : a <> b -> bytes_eqb a b = false.
Proof. intro H. destruct (bytes_eqb a b) eqn:E; [apply bytes_eqb_eq in E; contradiction|reflexivity]. Qed.

Lemma did_on C fs j k : LengthLaws C -> did C fs j ->
  (filter (on (sec_path k)) (process (j_log j)) = [] /\ filter (on (pub_path k)) (process (j_log j)) = [] /\ j_name j <> k) \/
  (j_name j = k /\ exists s p, length s = 180%nat /\ length p = 95%nat /\
     filter (on (sec_path k)) (process (j_log j)) = [ATrunc (sec_path k) 420; AWrite (sec_path k) 0 s] /\
     filter (on (pub_path k)) (process (j_log j)) = [ATrunc (pub_path k) 420; AWrite (pub_path k) 0 p] /\
     w_fs (j_end j) (sec_path k) = Some (File s (file_mode fs (sec_path k) 420)) /\
     w_fs (j_end j) (pub_path k) = Some (File p (file_mode fs (pub_path k) 420))).
Proof.
  intros LL D. destruct (did_log C fs j LL D) as (priv & pub & Ep & L1 & L2 & F1 & F2). rewrite Ep. cbn [filter]. unfold on. cbn [target].
  rewrite (bytes_neq (sec_path k) (pub_path (j_name j))) by apply sec_not_pub.
  rewrite (bytes_neq (pub_path k) (sec_path (j_name j))) by (intro X; symmetry in X; exact (sec_not_pub _ _ X)).
  destruct (bytes_eqb (j_name j) k) eqn:E.
  - apply bytes_eqb_eq in E. right. split; [exact E|]. rewrite E in *. rewrite !bytes_eqb_refl.
    exists (sec_file priv), (pub_file pub). auto 10.
  - assert (N : j_name j <> k) by (intros X; rewrite X, bytes_eqb_refl in E; discriminate). left.
    rewrite (bytes_neq (sec_path k)) by (intro X; apply N; symmetry; apply sec_path_inj, X).
    rewrite (bytes_neq (pub_path k)) by (intro X; apply N; symmetry; apply pub_path_inj, X). auto.
Qed.

Lemma concurrent C fs jobs l : LengthLaws C -> Forall (did C fs) jobs -> interleaving (map (fun j => process (j_log j)) jobs) l ->
  (forall x, (forall j, In j jobs -> x <> sec_path (j_name j) /\ x <> pub_path (j_name j)) -> acts fs l x = fs x) /\
  (forall j, In j jobs -> exists a b, In a jobs /\ In b jobs /\ j_name a = j_name j /\ j_name b = j_name j /\
     acts fs l (sec_path (j_name j)) = w_fs (j_end a) (sec_path (j_name j)) /\
     acts fs l (pub_path (j_name j)) = w_fs (j_end b) (pub_path (j_name j))).
Proof.
  intros LL D H. split.
  - intros x N. rewrite acts_at. apply (il_filter (on x)) in H.
    enough (filter (on x) l = []) as -> by reflexivity.
    destruct (filter (on x) l) as [|a r] eqn:E; [reflexivity|]. exfalso.
    destruct (il_in _ _ a H ltac:(left; reflexivity)) as (l0 & H1 & H2). rewrite map_map in H1. apply in_map_iff in H1. destruct H1 as (j & <- & Hin).
    rewrite Forall_forall in D. destruct (did_log C fs j LL (D j Hin)) as (priv & pub & Ep & _). rewrite Ep in H2. destruct (N j Hin) as [N1 N2].
    cbn [filter] in H2. unfold on in H2. cbn [target] in H2. rewrite (bytes_neq _ _ N1), (bytes_neq _ _ N2) in H2. destruct H2.
  - intros j Hin. set (k := j_name j). rewrite !acts_at.
    pose proof (il_filter (on (sec_path k)) _ _ H) as Hs. pose proof (il_filter (on (pub_path k)) _ _ H) as Hp. rewrite map_map in Hs, Hp.
    rewrite Forall_forall in D.
    assert (NE : forall (f : fsop -> bool) (r : list fsop), interleaving (map (fun j => filter f (process (j_log j))) jobs) r ->
       filter f (process (j_log j)) <> [] -> r <> []).
    { intros f r Hr Hne ->. inversion Hr as [ls X|]; subst. rewrite Forall_forall in X. apply Hne, X. apply in_map_iff. exists j. auto. }
    assert (Self : filter (on (sec_path k)) (process (j_log j)) <> [] /\ filter (on (pub_path k)) (process (j_log j)) <> []).
    { destruct (did_on C fs j k LL (D j Hin)) as [(_ & _ & X)|(_ & s & p & _ & _ & -> & -> & _)]; [contradiction X; reflexivity|split; discriminate]. }
    destruct (mix_fresh (sec_path k) 180 (fun d => exists a, In a jobs /\ j_name a = k /\ w_fs (j_end a) (sec_path k) = Some (File d (file_mode fs (sec_path k) 420)))
      420 _ _ Hs) with (o := fs (sec_path k)) as (f & F1 & (a & A1 & A2 & A3) & F3).
    { apply Forall_forall. intros y Hy. apply in_map_iff in Hy. destruct Hy as (i & <- & Hi).
      destruct (did_on C fs i k LL (D i Hi)) as [(X & _)|(X & s & p & Ls & Lp & E1 & E2 & E3 & E4)]; [left; exact X|right].
      exists s. split; [exists i; auto|]. split; [exact Ls|exact E1]. }
    { apply (NE _ _ Hs), Self. }
    destruct (mix_fresh (pub_path k) 95 (fun d => exists a, In a jobs /\ j_name a = k /\ w_fs (j_end a) (pub_path k) = Some (File d (file_mode fs (pub_path k) 420)))
      420 _ _ Hp) with (o := fs (pub_path k)) as (g & G1 & (b & B1 & B2 & B3) & G3).
    { apply Forall_forall. intros y Hy. apply in_map_iff in Hy. destruct Hy as (i & <- & Hi).
      destruct (did_on C fs i k LL (D i Hi)) as [(_ & X & _)|(X & s & p & Ls & Lp & E1 & E2 & E3 & E4)]; [left; exact X|right].
      exists p. split; [exists i; auto|]. split; [exact Lp|exact E2]. }
    { apply (NE _ _ Hp), Self. }
    exists a, b. split; [exact A1|]. split; [exact B1|]. split; [exact A2|]. split; [exact B2|].
    rewrite F1, G1, A3, B3. destruct f as [fd fm], g as [gd gm]. cbn [f_data f_mode] in *. subst fm gm. split; reflexivity.
Qed.

Lemma names_unique (jobs : list job) a b : NoDup (map j_name jobs) -> In a jobs -> In b jobs -> j_name a = j_name b -> a = b.
Proof.
  induction jobs as [|j jobs IH]; intros N Ha Hb E; [destruct Ha|]. cbn [map] in N. inversion N as [|? ? N1 N2]; subst.
  destruct Ha as [<-|Ha], Hb as [<-|Hb]; [reflexivity| | |apply (IH N2 Ha Hb E)].
  - exfalso. apply N1. rewrite E. apply in_map, Hb.
  - exfalso. apply N1. rewrite <- E. apply in_map, Ha.
Qed.

Lemma concurrent_distinct C fs jobs l : LengthLaws C -> Forall (did C fs) jobs -> NoDup (map j_name jobs) ->
  interleaving (map (fun j => process (j_log j)) jobs) l ->
  forall j, In j jobs -> acts fs l (sec_path (j_name j)) = w_fs (j_end j) (sec_path (j_name j)) /\
    acts fs l (pub_path (j_name j)) = w_fs (j_end j) (pub_path (j_name j)).
Proof.
  intros LL D N H j Hin. destruct (concurrent C fs jobs l LL D H) as (_ & X).
  destruct (X j Hin) as (a & b & A1 & B1 & A2 & B2 & E1 & E2).
  rewrite (names_unique _ _ _ N A1 Hin A2) in E1. rewrite (names_unique _ _ _ N B1 Hin B2) in E2. split; assumption.
Qed.

(* the secret key of one and the public key of the other *)
Lemma concurrent_mixed C fs a b : LengthLaws C -> did C fs a -> did C fs b -> j_name a = j_name b ->
  exists l, interleaving [process (j_log a); process (j_log b)] l /\
    acts fs l (sec_path (j_name a)) = w_fs (j_end a) (sec_path (j_name a)) /\
    acts fs l (pub_path (j_name a)) = w_fs (j_end b) (pub_path (j_name a)).
Proof.
  intros LL Da Db E. destruct (did_log C fs a LL Da) as (s1 & p1 & E1 & L1 & M1 & F1 & G1).
  destruct (did_log C fs b LL Db) as (s2 & p2 & E2 & L2 & M2 & F2 & G2). rewrite <- E in *. set (k := j_name a) in *.
  rewrite E1, E2.
  exists [ATrunc (sec_path k) 420; AWrite (sec_path k) 0 (sec_file s2); ATrunc (sec_path k) 420; AWrite (sec_path k) 0 (sec_file s1);
          ATrunc (pub_path k) 420; AWrite (pub_path k) 0 (pub_file p1); ATrunc (pub_path k) 420; AWrite (pub_path k) 0 (pub_file p2)].
  split.
  { apply (il_step [_]). apply (il_step [_]). do 4 apply (il_step []). do 2 apply (il_step [_]). apply il_done. repeat constructor. }
  rewrite !acts_at, F1, G2. cbn [filter]. unfold on. cbn [target].
  rewrite (bytes_neq (sec_path k) (pub_path k)) by apply sec_not_pub.
  rewrite (bytes_neq (pub_path k) (sec_path k)) by (intro X; symmetry in X; exact (sec_not_pub _ _ X)).
  rewrite !bytes_eqb_refl. cbn [fold_left act1 f_data f_mode].
  rewrite !write_at_over by (rewrite ?L1, ?L2, ?M1, ?M2; cbn [length]; lia). split; reflexivity.
Qed.
