(* Facts about the model of encoding/base64. *)
From Verif Require Export GoBase64 SpecB64.

(* ---- the alphabet ---- *)
Lemma decodeMap_range c v : decodeMap c = Some v -> 0 <= v < 64.
Proof. destruct c; vm_compute; intro H; try discriminate; injection H as <-; split; congruence. Qed.

Lemma enc_char_land v : enc_char v = enc_char (Z.land v 63).
Proof. unfold enc_char. rewrite <- Z.land_assoc. reflexivity. Qed.

Lemma land63 v : Z.land v 63 = v mod 64.
Proof. change 63 with (Z.ones 6). rewrite Z.land_ones by lia. reflexivity. Qed.

Lemma small_cases (P : Z -> Prop) (n : nat) :
  (forall i, (i < n)%nat -> P (Z.of_nat i)) -> forall v, 0 <= v < Z.of_nat n -> P v.
Proof. intros H v Hv. replace v with (Z.of_nat (Z.to_nat v)) by lia. apply H. lia. Qed.

Lemma forallb_seq (f : Z -> bool) (n : nat) :
  forallb (fun i => f (Z.of_nat i)) (seq 0 n) = true -> forall v, 0 <= v < Z.of_nat n -> f v = true.
Proof.
  intros H v Hv. rewrite forallb_forall in H.
  replace v with (Z.of_nat (Z.to_nat v)) by lia. apply H. apply in_seq. lia.
Qed.

Lemma decodeMap_enc_char v : decodeMap (enc_char v) = Some (v mod 64).
Proof.
  rewrite enc_char_land, land63.
  pose proof (Z.mod_pos_bound v 64 ltac:(lia)) as Hb.
  set (u := v mod 64) in *. clearbody u. 
  assert (H : (match decodeMap (enc_char u) with Some k => k =? u | None => false end) = true).
  { apply (forallb_seq (fun u => match decodeMap (enc_char u) with Some k => k =? u | None => false end) 64);
      [vm_compute; reflexivity|lia]. }
  destruct (decodeMap (enc_char u)); [|discriminate]. apply Z.eqb_eq in H. congruence.
Qed.

Lemma enc_char_spec v : enc_char v = spec_char (v mod 64).
Proof.
  rewrite enc_char_land, land63.
  pose proof (Z.mod_pos_bound v 64 ltac:(lia)) as Hb.
  set (u := v mod 64) in *. clearbody u. apply beqb_eq.
  apply (forallb_seq (fun u => beqb (enc_char u) (spec_char u)) 64); [vm_compute; reflexivity|lia].
Qed.

Lemma enc_char_decodeMap c v : decodeMap c = Some v -> enc_char v = c.
Proof. destruct c; vm_compute; intro H; try discriminate; injection H as <-; reflexivity. Qed.

Lemma decodeMap_alpha c : is_alpha c = match decodeMap c with Some _ => true | None => false end.
Proof. destruct c; reflexivity. Qed.

Lemma decodeMap_nl c : is_nl c = true -> decodeMap c = None.
Proof. destruct c; vm_compute; congruence. Qed.

Lemma enc_char_not_nl v : is_nl (enc_char v) = false.
Proof.
  destruct (is_nl (enc_char v)) eqn:E; [|reflexivity].
  apply decodeMap_nl in E. rewrite decodeMap_enc_char in E. discriminate.
Qed.

(* ---- arithmetic of quanta ---- *)
Lemma lor_add_shift a b k : 0 <= k -> 0 <= b < 2 ^ k -> Z.lor (Z.shiftl a k) b = a * 2 ^ k + b.
Proof.
  intros Hk Hb.
  assert (H : Z.land (Z.shiftl a k) b = 0).
  { apply Z.bits_inj'. intros n Hn. rewrite Z.land_spec, Z.bits_0.
    destruct (Z.ltb_spec n k).
    - rewrite Z.shiftl_spec_low by lia. reflexivity.
    - destruct (Z.eq_dec b 0) as [->|]; [rewrite Z.bits_0; apply andb_false_r|].
      rewrite (Z.bits_above_log2 b n); [apply andb_false_r|lia|].
      apply Z.lt_le_trans with k; [|lia]. apply Z.log2_lt_pow2; lia. }
  rewrite <- Z.lxor_lor by exact H. rewrite <- Z.add_nocarry_lxor by exact H.
  rewrite Z.shiftl_mul_pow2 by lia. reflexivity.
Qed.

Lemma val3_eq a b c : val3 a b c = b2z a * 65536 + b2z b * 256 + b2z c.
Proof.
  unfold val3. pose proof (b2z_range a). pose proof (b2z_range b). pose proof (b2z_range c).
  rewrite <- Z.lor_assoc.
  rewrite (lor_add_shift (b2z b) (b2z c) 8) by (cbn; lia).
  rewrite lor_add_shift by (cbn; lia). change (2 ^ 16) with 65536. change (2 ^ 8) with 256. lia.
Qed.

Lemma val4_eq a b c d : 0 <= a < 64 -> 0 <= b < 64 -> 0 <= c < 64 -> 0 <= d < 64 ->
  val4 [a; b; c; d] = a * 262144 + b * 4096 + c * 64 + d.
Proof.
  intros. unfold val4. cbn [nth]. rewrite <- !Z.lor_assoc.
  rewrite (lor_add_shift c d 6) by (cbn; lia).
  rewrite (lor_add_shift b _ 12) by (cbn; lia).
  rewrite (lor_add_shift a _ 18) by (cbn; lia).
  change (2 ^ 18) with 262144. change (2 ^ 12) with 4096. change (2 ^ 6) with 64. lia.
Qed.

Lemma shr_div v k : 0 <= k -> Z.shiftr v k = v / 2 ^ k.
Proof. intro. apply Z.shiftr_div_pow2. assumption. Qed.

(* the four characters of a group, in terms of the bytes *)
Definition c1 (a : byte) := b2z a / 4.
Definition c2 (a b : byte) := (b2z a mod 4) * 16 + b2z b / 16.
Definition c3 (b c : byte) := (b2z b mod 16) * 4 + b2z c / 64.
Definition c4 (c : byte) := b2z c mod 64.

Ltac byte_bounds :=
  repeat match goal with
  | x : byte |- _ =>
      lazymatch goal with
      | _ : 0 <= b2z x < 256 |- _ => fail
      | _ => pose proof (b2z_range x)
      end
  end.

Ltac zdm := Z.to_euclidean_division_equations; lia.

Lemma group_chars a b c :
  enc_char (Z.shiftr (val3 a b c) 18) = spec_char (c1 a) /\
  enc_char (Z.shiftr (val3 a b c) 12) = spec_char (c2 a b) /\
  enc_char (Z.shiftr (val3 a b c) 6) = spec_char (c3 b c) /\
  enc_char (val3 a b c) = spec_char (c4 c).
Proof.
  rewrite !enc_char_spec, val3_eq, !shr_div by lia. byte_bounds.
  change (2 ^ 18) with 262144. change (2 ^ 12) with 4096. change (2 ^ 6) with 64.
  unfold c1, c2, c3, c4.
  repeat split; f_equal; zdm.
Qed.

Lemma c1_range a : 0 <= c1 a < 64. Proof. unfold c1. byte_bounds. zdm. Qed.
Lemma c2_range a b : 0 <= c2 a b < 64. Proof. unfold c2. byte_bounds. zdm. Qed.
Lemma c3_range a b : 0 <= c3 a b < 64. Proof. unfold c3. byte_bounds. zdm. Qed.
Lemma c4_range a : 0 <= c4 a < 64. Proof. unfold c4. byte_bounds. zdm. Qed.

Lemma list_ind3 {A} (P : list A -> Prop) :
  P [] -> (forall a, P [a]) -> (forall a b, P [a; b]) ->
  (forall a b c r, P r -> P (a :: b :: c :: r)) -> forall l, P l.
Proof.
  intros H0 H1 H2 H3 l.
  assert (H : P l /\ (forall a, P (a :: l)) /\ (forall a b, P (a :: b :: l))).
  { induction l as [|x l IH]; [auto|]. destruct IH as (A1 & A2 & A3). auto. }
  apply H.
Qed.

(* ---- encoding meets the RFC ---- *)
Lemma bv_hi6 a : bits_value (map (fun i => Z.testbit (b2z a) i) [7; 6; 5; 4; 3; 2]) = c1 a.
Proof. destruct a; reflexivity. Qed.
Lemma bv_lo6 a : bits_value (map (fun i => Z.testbit (b2z a) i) [5; 4; 3; 2; 1; 0]) = c4 a.
Proof. destruct a; reflexivity. Qed.
Lemma bv_split6 x y z w u v : 
  bits_value [x; y; z; w; u; v] = bits_value [x; y] * 16 + bits_value [z; w; u; v].
Proof. destruct x, y, z, w, u, v; reflexivity. Qed.
Lemma bv_split6' x y z w u v : 
  bits_value [x; y; z; w; u; v] = bits_value [x; y; z; w] * 4 + bits_value [u; v].
Proof. destruct x, y, z, w, u, v; reflexivity. Qed.
Lemma bv_lo2 a : bits_value [Z.testbit (b2z a) 1; Z.testbit (b2z a) 0] = b2z a mod 4.
Proof. destruct a; reflexivity. Qed.
Lemma bv_hi2 a : bits_value [Z.testbit (b2z a) 7; Z.testbit (b2z a) 6] = b2z a / 64.
Proof. destruct a; reflexivity. Qed.
Lemma bv_hi4 a : bits_value [Z.testbit (b2z a) 7; Z.testbit (b2z a) 6; Z.testbit (b2z a) 5; Z.testbit (b2z a) 4] = b2z a / 16.
Proof. destruct a; reflexivity. Qed.
Lemma bv_lo4 a : bits_value [Z.testbit (b2z a) 3; Z.testbit (b2z a) 2; Z.testbit (b2z a) 1; Z.testbit (b2z a) 0] = b2z a mod 16.
Proof. destruct a; reflexivity. Qed.

Lemma groups6_cons3 a b c r :
  groups6 (bits_of (a :: b :: c :: r)) = c1 a :: c2 a b :: c3 b c :: c4 c :: groups6 (bits_of r).
Proof.
  unfold bits_of at 1, bits_of_byte at 1.
  cbn [flat_map map app groups6].
  fold (bits_of r). unfold bits_of_byte. cbn [map app groups6].
  f_equal; [exact (bv_hi6 a)|].
  f_equal; [rewrite bv_split6, bv_lo2, bv_hi4; reflexivity|].
  f_equal; [rewrite bv_split6', bv_lo4, bv_hi2; reflexivity|].
  f_equal. exact (bv_lo6 c).
Qed.

Lemma groups6_1 a : groups6 (bits_of [a]) = [c1 a; c2 a x00].
Proof.
  unfold bits_of, bits_of_byte. cbn [flat_map map app groups6].
  f_equal; [exact (bv_hi6 a)|]. f_equal. rewrite bv_split6, bv_lo2. reflexivity.
Qed.
Lemma groups6_2 a b : groups6 (bits_of [a; b]) = [c1 a; c2 a b; c3 b x00].
Proof.
  unfold bits_of, bits_of_byte. cbn [flat_map map app groups6].
  f_equal; [exact (bv_hi6 a)|].
  f_equal; [rewrite bv_split6, bv_lo2, bv_hi4; reflexivity|].
  f_equal. rewrite bv_split6', bv_lo4. reflexivity.
Qed.

Lemma StdEncode_cons3 a b c r :
  StdEncode (a :: b :: c :: r) =
  spec_char (c1 a) :: spec_char (c2 a b) :: spec_char (c3 b c) :: spec_char (c4 c) :: StdEncode r.
Proof.
  destruct (group_chars a b c) as (H1 & H2 & H3 & H4).
  cbn [StdEncode]. rewrite H1, H2, H3, H4. reflexivity.
Qed.
Lemma StdEncode_1 a : StdEncode [a] = [spec_char (c1 a); spec_char (c2 a x00); padChar; padChar].
Proof.
  destruct (group_chars a x00 x00) as (H1 & H2 & H3 & H4).
  cbn [StdEncode]. rewrite H1, H2. reflexivity.
Qed.
Lemma StdEncode_2 a b : StdEncode [a; b] = [spec_char (c1 a); spec_char (c2 a b); spec_char (c3 b x00); padChar].
Proof.
  destruct (group_chars a b x00) as (H1 & H2 & H3 & H4).
  cbn [StdEncode]. rewrite H1, H2, H3. reflexivity.
Qed.

Lemma pad_to_4_cons4 a b c d t : pad_to_4 (a :: b :: c :: d :: t) = a :: b :: c :: d :: pad_to_4 t.
Proof.
  unfold pad_to_4. cbn [app]. do 4 f_equal. f_equal. f_equal.
  cbn [length]. replace (S (S (S (S (length t))))) with (length t + 1 * 4)%nat by lia.
  rewrite Nat.mod_add by lia. reflexivity.
Qed.

Theorem StdEncode_spec x : StdEncode x = spec_base64 x.
Proof.
  induction x as [|a|a b|a b c r IH] using list_ind3.
  - reflexivity.
  - rewrite StdEncode_1. unfold spec_base64. rewrite groups6_1. reflexivity.
  - rewrite StdEncode_2. unfold spec_base64. rewrite groups6_2. reflexivity.
  - rewrite StdEncode_cons3, IH. unfold spec_base64. rewrite groups6_cons3.
    cbn [map]. rewrite pad_to_4_cons4. reflexivity.
Qed.

Lemma StdEncode_length x : length (StdEncode x) = ((length x + 2) / 3 * 4)%nat.
Proof.
  induction x as [|a|a b|a b c r IH] using list_ind3; try reflexivity.
  rewrite StdEncode_cons3. cbn [length]. rewrite IH.
  replace (S (S (S (length r))) + 2)%nat with (length r + 2 + 1 * 3)%nat by lia.
  rewrite Nat.div_add by lia. lia.
Qed.

Lemma StdEncode_app x y : (length x mod 3 = 0)%nat -> StdEncode (x ++ y) = StdEncode x ++ StdEncode y.
Proof.
  induction x as [|a|a b|a b c r IH] using list_ind3; intro H; try (vm_compute in H; discriminate).
  - reflexivity.
  - cbn [app]. rewrite !StdEncode_cons3. cbn [app]. rewrite IH; [reflexivity|].
    cbn [length] in H. replace (S (S (S (length r)))) with (length r + 1 * 3)%nat in H by lia.
    rewrite Nat.mod_add in H by lia. exact H.
Qed.

Lemma spec_char_enc v : 0 <= v < 64 -> spec_char v = enc_char v.
Proof. intro. rewrite enc_char_spec, Z.mod_small by lia. reflexivity. Qed.

Lemma decodeMap_spec_char v : 0 <= v < 64 -> decodeMap (spec_char v) = Some v.
Proof. intro. rewrite spec_char_enc by lia. rewrite decodeMap_enc_char, Z.mod_small by lia. reflexivity. Qed.

Lemma StdEncode_no_nl x : forall c, In c (StdEncode x) -> is_nl c = false.
Proof.
  assert (Hc : forall v, 0 <= v < 64 -> is_nl (spec_char v) = false).
  { intros v Hv. rewrite spec_char_enc by lia. apply enc_char_not_nl. }
  induction x as [|a|a b|a b c r IH] using list_ind3; intros ch Hin.
  - destruct Hin.
  - rewrite StdEncode_1 in Hin. cbn [In] in Hin.
    pose proof (c1_range a). pose proof (c2_range a x00).
    destruct Hin as [<-|[<-|[<-|[<-|[]]]]]; auto.
  - rewrite StdEncode_2 in Hin. cbn [In] in Hin.
    pose proof (c1_range a). pose proof (c2_range a b). pose proof (c3_range b x00).
    destruct Hin as [<-|[<-|[<-|[<-|[]]]]]; auto.
  - rewrite StdEncode_cons3 in Hin. cbn [In] in Hin.
    pose proof (c1_range a). pose proof (c2_range a b). pose proof (c3_range b c). pose proof (c4_range c).
    destruct Hin as [<-|[<-|[<-|[<-|Hin]]]]; auto.
Qed.

(* ---- decoding: a reference decoder on newline-free text ---- *)
(* result: decoded bytes and whether an error is reported *)
Definition dec3 (a b c d : Z) : bytes := quantum_out [a; b; c; d] 4.
Fixpoint ref_decode (t : bytes) : bytes * bool :=
  match t with
  | [] => ([], false)
  | a :: b :: c :: d :: r =>
      match decodeMap a, decodeMap b, decodeMap c, decodeMap d with
      | Some va, Some vb, Some vc, Some vd =>
          let '(o, e) := ref_decode r in (dec3 va vb vc vd ++ o, e)
      | Some va, Some vb, Some vc, None =>
          if beqb d padChar then (quantum_out [va; vb; vc] 3, match r with [] => false | _ => true end)
          else ([], true)
      | Some va, Some vb, None, _ =>
          if beqb c padChar && beqb d padChar
          then (quantum_out [va; vb] 2, match r with [] => false | _ => true end)
          else ([], true)
      | _, _, _, _ => ([], true)
      end
  | _ => ([], true)
  end.

Definition nonl (t : bytes) : bytes := filter (fun c => negb (is_nl c)) t.

Lemma nonl_skip_nl t : nonl (skip_nl t) = nonl t.
Proof.
  induction t as [|c r IH]; [reflexivity|]. cbn [skip_nl].
  destruct (is_nl c) eqn:E; [|reflexivity].
  rewrite IH. unfold nonl. cbn [filter]. rewrite E. reflexivity.
Qed.

Lemma skip_nl_nil t : skip_nl t = [] <-> nonl t = [].
Proof.
  induction t as [|c r IH]; [tauto|]. cbn [skip_nl nonl filter].
  destruct (is_nl c) eqn:E; cbn [negb]; [exact IH|]. split; discriminate.
Qed.

Lemma skip_nl_cons t c r : skip_nl t = c :: r -> nonl t = c :: nonl r.
Proof.
  induction t as [|x l IH]; [discriminate|]. cbn [skip_nl nonl filter].
  destruct (is_nl x) eqn:E; cbn [negb]; [exact IH|].
  intro H. injection H as -> ->. reflexivity.
Qed.

Lemma skip_nl_length t : (length (skip_nl t) <= length t)%nat.
Proof. induction t as [|c r IH]; cbn; [lia|]. destruct (is_nl c); cbn; lia. Qed.

Lemma pad_not_nl : is_nl padChar = false. Proof. reflexivity. Qed.

(* decodeQuantum sees only the text without newlines, but for the index in the error *)
Definition is_some {A} (e : option A) : bool := match e with Some _ => true | None => false end.
Lemma dq_nonl len len' src : forall d, (length d <= 3)%nat ->
  exists rest o e, decodeQuantum len d src = Quantum rest o e /\
    (length rest <= length src)%nat /\ (src <> [] -> length rest < length src)%nat /\
    exists rest' e', decodeQuantum len' d (nonl src) = Quantum rest' o e' /\ (is_some e = is_some e' /\ nonl rest = nonl rest').
Proof.
  induction src as [|c r IH]; intros d Hd.
  - cbn [decodeQuantum nonl filter]. destruct d; do 3 eexists; (split; [reflexivity|]);
      (split; [lia|]); (split; [congruence|]); do 2 eexists; (split; [reflexivity|]); split; reflexivity.
  - cbn [nonl filter]. destruct (is_nl c) eqn:En; cbn [negb].
    + cbn [decodeQuantum]. rewrite (decodeMap_nl c En), En.
      destruct (IH d Hd) as (rest & o & e & H1 & H2 & H2' & rest' & e' & H3 & H4).
      exists rest, o, e. split; [exact H1|]. split; [cbn [length]; lia|].
      split; [intros _; cbn [length]; lia|]. exists rest', e'. split; [exact H3|exact H4].
    + cbn [decodeQuantum]. rewrite En. fold (nonl r). destruct (decodeMap c) as [v|] eqn:Ed.
      * destruct (length (d ++ [v]) =? 4)%nat eqn:E4.
        -- do 3 eexists. split; [reflexivity|]. split; [cbn; lia|]. split; [cbn; lia|].
           do 2 eexists. split; [reflexivity|]. split; [reflexivity|]. unfold nonl. 
           clear. induction r as [|x r IH]; [reflexivity|]. cbn [filter].
           destruct (negb (is_nl x)) eqn:E; [cbn [filter]; rewrite E, IH at 1; cbn; f_equal; exact IH|exact IH].
        -- apply Nat.eqb_neq in E4. rewrite app_length in E4. cbn [length] in E4.
           destruct (IH (d ++ [v])) as (rest & o & e & H1 & H2 & H2' & rest' & e' & H3 & H4).
           { rewrite app_length. cbn. lia. }
           exists rest, o, e. split; [exact H1|]. split; [cbn [length]; lia|].
           split; [intros _; cbn [length]; lia|]. exists rest', e'. split; [exact H3|exact H4].
      * destruct (beqb c padChar) eqn:Ep; cbn [negb].
        2:{ do 3 eexists. split; [reflexivity|]. split; [cbn; lia|]. split; [cbn; lia|].
            do 2 eexists. split; [reflexivity|]. split; [reflexivity|]. rewrite <- (nonl_skip_nl r). rewrite nonl_skip_nl.
            unfold nonl. clear. induction r as [|x r IH]; [reflexivity|]. cbn [filter].
            destruct (negb (is_nl x)) eqn:E; [cbn [filter]; rewrite E; f_equal; exact IH|exact IH]. }
        assert (Hid : nonl r = nonl (nonl r)).
        { unfold nonl. clear. induction r as [|x r IH]; [reflexivity|]. cbn [filter].
          destruct (negb (is_nl x)) eqn:E; [cbn [filter]; rewrite E; f_equal; exact IH|exact IH]. }
        assert (Hsk : skip_nl (nonl r) = nonl r).
        { clear. unfold nonl. induction r as [|x r IH]; [reflexivity|]. cbn [filter].
          destruct (is_nl x) eqn:E; cbn [negb]; [exact IH|]. cbn [skip_nl]. rewrite E. reflexivity. }
        assert (Hl : (length (skip_nl r) <= length r)%nat) by apply skip_nl_length.
        destruct d as [|d1 [|d2 [|d3 [|]]]]; cbn [length] in *; try lia.
        -- do 3 eexists. split; [reflexivity|]. split; [cbn; lia|]. split; [cbn; lia|].
           do 2 eexists. split; [reflexivity|split; [reflexivity|exact Hid]].
        -- do 3 eexists. split; [reflexivity|]. split; [cbn; lia|]. split; [cbn; lia|].
           do 2 eexists. split; [reflexivity|split; [reflexivity|exact Hid]].
        -- rewrite Hsk. destruct (skip_nl r) as [|c2' r2] eqn:Es.
           ++ rewrite (proj1 (skip_nl_nil r) Es). do 3 eexists. split; [reflexivity|].
              split; [cbn; lia|]. split; [cbn; lia|]. do 2 eexists. split; [reflexivity|split; reflexivity].
           ++ rewrite (skip_nl_cons _ _ _ Es). cbn [length] in Hl.
              destruct (beqb c2' padChar) eqn:Ep2; cbn [negb].
              ** pose proof (skip_nl_length r2) as Hl2.
                 assert (Hsk2 : skip_nl (nonl r2) = nonl r2).
                 { clear. unfold nonl. induction r2 as [|x r IH]; [reflexivity|]. cbn [filter].
                   destruct (is_nl x) eqn:E; cbn [negb]; [exact IH|]. cbn [skip_nl]. rewrite E. reflexivity. }
                 rewrite Hsk2.
                 assert (Hnil : is_some (match skip_nl r2 with [] => None | _ => Some (CorruptInput (index_at len (skip_nl r2))) end) =
                                is_some (match nonl r2 with [] => None | _ => Some (CorruptInput (index_at len' (nonl r2))) end)).
                 { destruct (skip_nl r2) eqn:E1; destruct (nonl r2) eqn:E2; try reflexivity.
                   - apply skip_nl_nil in E1. congruence.
                   - apply skip_nl_nil in E2. congruence. }
                 do 3 eexists. split; [reflexivity|]. split; [cbn [length]; lia|]. split; [cbn [length]; lia|].
                 do 2 eexists. split; [reflexivity|]. split; [exact Hnil|].
                 rewrite nonl_skip_nl. rewrite <- Hsk2 at 2. rewrite nonl_skip_nl.
                 unfold nonl. clear. induction r2 as [|x r IH]; [reflexivity|]. cbn [filter].
                 destruct (negb (is_nl x)) eqn:E; [cbn [filter]; rewrite E; f_equal; exact IH|exact IH].
              ** do 3 eexists. split; [reflexivity|]. split; [cbn [length]; lia|]. split; [cbn [length]; lia|].
                 do 2 eexists. split; [reflexivity|]. split; [reflexivity|].
                 rewrite <- (skip_nl_cons _ _ _ Es), <- Hid, <- Es. apply nonl_skip_nl.
        -- rewrite Hsk.
           assert (Hnil : is_some (match skip_nl r with [] => None | _ => Some (CorruptInput (index_at len (skip_nl r))) end) =
                          is_some (match nonl r with [] => None | _ => Some (CorruptInput (index_at len' (nonl r))) end)).
           { destruct (skip_nl r) eqn:E1; destruct (nonl r) eqn:E2; try reflexivity.
             - apply skip_nl_nil in E1. congruence.
             - apply skip_nl_nil in E2. congruence. }
           do 3 eexists. split; [reflexivity|]. split; [cbn [length]; lia|]. split; [cbn [length]; lia|].
           do 2 eexists. split; [reflexivity|]. split; [exact Hnil|]. rewrite nonl_skip_nl. exact Hid.
Qed.

Definition nlfree (t : bytes) : Prop := forall c, In c t -> is_nl c = false.

Lemma nlfree_cons c r : nlfree (c :: r) <-> is_nl c = false /\ nlfree r.
Proof.
  unfold nlfree. split.
  - intro H. split; [apply H; left; reflexivity|intros x Hx; apply H; right; exact Hx].
  - intros [H1 H2] x [<-|Hx]; [exact H1|apply H2; exact Hx].
Qed.
Lemma nlfree_app a b : nlfree (a ++ b) <-> nlfree a /\ nlfree b.
Proof.
  unfold nlfree. split.
  - intro H. split; intros c Hc; apply H; apply in_or_app; auto.
  - intros [H1 H2] c Hc. apply in_app_or in Hc. destruct Hc; auto.
Qed.
Lemma nonl_nlfree t : nlfree (nonl t).
Proof. intros c Hc. apply filter_In in Hc. destruct Hc as [_ H]. destruct (is_nl c); [discriminate|reflexivity]. Qed.
Lemma nlfree_nonl t : nlfree t -> nonl t = t.
Proof.
  induction t as [|c r IH]; intro H; [reflexivity|]. apply nlfree_cons in H. destruct H as [H1 H2].
  cbn [nonl filter]. rewrite H1. cbn [negb]. fold (nonl r). rewrite IH by exact H2. reflexivity.
Qed.
Lemma nlfree_skip t : nlfree t -> skip_nl t = t.
Proof. destruct t as [|c r]; intro H; [reflexivity|]. apply nlfree_cons in H. cbn. rewrite (proj1 H). reflexivity. Qed.

Lemma length_quantum_out d k : (length (quantum_out d k) <= k - 1)%nat.
Proof. unfold quantum_out. rewrite firstn_length. lia. Qed.

Lemma quarter_mono a b : (a <= b)%nat -> (a / 4 <= b / 4)%nat.
Proof. apply Nat.div_le_mono. lia. Qed.
Lemma quarter_4 a : (S (S (S (S a))) / 4 = S (a / 4))%nat.
Proof. replace (S (S (S (S a)))) with (a + 1 * 4)%nat by lia. rewrite Nat.div_add by lia. lia. Qed.
Ltac quarter :=
  cbn [length]; rewrite ?quarter_4;
  repeat match goal with |- context [(length ?t / 4)%nat] =>
    lazymatch goal with _ : (length t / 4 <= S (length t) / 4)%nat |- _ => fail | _ => idtac end;
    pose proof (quarter_mono (length t) (S (length t)) ltac:(lia));
    pose proof (quarter_mono (length t) (S (S (length t))) ltac:(lia));
    pose proof (quarter_mono (length t) (S (S (S (length t)))) ltac:(lia)) end;
  change (0 / 4)%nat with 0%nat; change (1 / 4)%nat with 0%nat; change (2 / 4)%nat with 0%nat; change (3 / 4)%nat with 0%nat; lia.

Lemma dq_ref len t : nlfree t -> t <> [] ->
  exists rest o e, decodeQuantum len [] t = Quantum rest o e /\ nlfree rest /\
    (length o + 3 * (length rest / 4) <= 3 * (length t / 4))%nat /\
    match e with
    | Some _ => ref_decode t = (o, true)
    | None => ref_decode t = (o ++ fst (ref_decode rest), snd (ref_decode rest))
    end.
Proof.
  intros Hf Hne. destruct t as [|a t]; [congruence|]. clear Hne.
  apply nlfree_cons in Hf. destruct Hf as [Ha Hf].
  cbn [decodeQuantum app length Nat.eqb]. rewrite Ha.
  destruct (decodeMap a) as [va|] eqn:Da.
  2:{ destruct (beqb a padChar); cbn [negb];
      (do 3 eexists; split; [reflexivity|]; split; [exact Hf|]; split; [quarter|]; cbv beta iota;
       cbn [ref_decode]; rewrite Da; destruct t as [|? [|? [|? ?]]]; reflexivity). }
  destruct t as [|b t].
  { cbn [decodeQuantum]. do 3 eexists. split; [reflexivity|]. split; [intros ? []|]. split; [quarter|]. reflexivity. }
  apply nlfree_cons in Hf. destruct Hf as [Hb Hf].
  cbn [decodeQuantum app length Nat.eqb]. rewrite Hb.
  destruct (decodeMap b) as [vb|] eqn:Db.
  2:{ destruct (beqb b padChar); cbn [negb];
      (do 3 eexists; split; [reflexivity|]; split; [exact Hf|]; split; [quarter|]; cbv beta iota;
       cbn [ref_decode]; rewrite Da, Db; destruct t as [|? [|? ?]]; reflexivity). }
  destruct t as [|c t].
  { cbn [decodeQuantum]. do 3 eexists. split; [reflexivity|]. split; [intros ? []|]. split; [quarter|]. reflexivity. }
  apply nlfree_cons in Hf. destruct Hf as [Hc Hf].
  cbn [decodeQuantum app length Nat.eqb]. rewrite Hc.
  destruct (decodeMap c) as [vc|] eqn:Dc.
  - destruct t as [|d t].
    { cbn [decodeQuantum]. do 3 eexists. split; [reflexivity|]. split; [intros ? []|]. split; [quarter|]. reflexivity. }
    apply nlfree_cons in Hf. destruct Hf as [Hd Hf].
    cbn [decodeQuantum app length Nat.eqb]. rewrite Hd.
    destruct (decodeMap d) as [vd|] eqn:Dd.
    + do 3 eexists. split; [reflexivity|]. split; [exact Hf|].
      split; [pose proof (length_quantum_out [va; vb; vc; vd] 4); quarter|].
      cbn [ref_decode]. rewrite Da, Db, Dc, Dd. destruct (ref_decode t). reflexivity.
    + destruct (beqb d padChar) eqn:Ep; cbn [negb].
      * rewrite nlfree_skip by exact Hf. do 3 eexists. split; [reflexivity|]. split; [exact Hf|].
        split; [pose proof (length_quantum_out [va; vb; vc] 3); quarter|].
        cbn [ref_decode]. rewrite Da, Db, Dc, Dd, Ep. destruct t; [|reflexivity].
        cbn [ref_decode fst snd]. rewrite app_nil_r. reflexivity.
      * do 3 eexists. split; [reflexivity|]. split; [exact Hf|]. split; [quarter|].
        cbn [ref_decode]. rewrite Da, Db, Dc, Dd, Ep. reflexivity.
  - destruct (beqb c padChar) eqn:Ec; cbn [negb].
    2:{ do 3 eexists. split; [reflexivity|]. split; [exact Hf|]. split; [quarter|].
        cbn [ref_decode]. rewrite Da, Db, Dc, Ec. destruct t; reflexivity. }
    rewrite nlfree_skip by exact Hf.
    destruct t as [|d t].
    { do 3 eexists. split; [reflexivity|]. split; [intros ? []|]. split; [quarter|]. reflexivity. }
    apply nlfree_cons in Hf. destruct Hf as [Hd Hf].
    destruct (beqb d padChar) eqn:Ep; cbn [negb].
    + rewrite nlfree_skip by exact Hf. do 3 eexists. split; [reflexivity|]. split; [exact Hf|].
      split; [pose proof (length_quantum_out [va; vb] 2); quarter|].
      cbn [ref_decode]. rewrite Da, Db, Dc, Ec, Ep. cbn [andb]. destruct t; [|reflexivity].
      cbn [ref_decode fst snd]. rewrite app_nil_r. reflexivity.
    + do 3 eexists. split; [reflexivity|]. split; [apply nlfree_cons; split; assumption|].
      split; [pose proof (quarter_mono (S (length t)) (S (S (S (S (length t))))) ltac:(lia)) as Hq; rewrite quarter_4 in Hq; quarter|].
      cbn [ref_decode]. rewrite Da, Db, Dc, Ec, Ep. reflexivity.
Qed.

(* the index at which a text fails, or nothing; k digits of the current group have been read *)
Fixpoint bad_from (len : Z) (k : nat) (s : bytes) : option Z :=
  match s with
  | [] => match k with O => None | _ => Some (len - Z.of_nat k) end
  | c :: r =>
      match decodeMap c with
      | Some _ => bad_from len (match k with 3 => 0 | _ => S k end)%nat r
      | None =>
          if is_nl c then bad_from len k r
          else if negb (beqb c padChar) then Some (index_at len s)
          else match k with
               | 0%nat | 1%nat => Some (index_at len s)
               | 2%nat =>
                   match skip_nl r with
                   | [] => Some len
                   | c2 :: r2 => if negb (beqb c2 padChar) then Some (index_at len (c2 :: r2) - 1)
                                 else match skip_nl r2 with [] => None | r3 => Some (index_at len r3) end
                   end
               | _ => match skip_nl r with [] => None | r3 => Some (index_at len r3) end
               end
      end
  end.
Definition bad_at (s : bytes) : option Z := bad_from (Z.of_nat (length s)) 0 s.
Definition offset (s : bytes) : Z := match bad_at s with Some n => n | None => 0 end.

Lemma index_at_cons len c r : index_at len (c :: r) = index_at len r - 1.
Proof. unfold index_at. cbn [length]. lia. Qed.

Lemma dq_bad len src : forall d, (length d <= 3)%nat -> exists rest o e, decodeQuantum len d src = Quantum rest o e /\
  match e with
  | Some x => exists n, x = CorruptInput n /\ bad_from len (length d) src = Some n
  | None => bad_from len (length d) src = bad_from len 0 rest
  end.
Proof.
  induction src as [|c r IH]; intros d Hd; cbn [decodeQuantum bad_from].
  - destruct d as [|x d]; do 3 eexists; (split; [reflexivity|]); [reflexivity|]. eexists. split; [reflexivity|].
    unfold index_at. cbn [length]. f_equal. lia.
  - destruct (decodeMap c) as [v|] eqn:D.
    + destruct (Nat.eqb_spec (length (d ++ [v])) 4) as [E|E]; rewrite app_length in E; cbn [length] in E.
      * do 3 eexists. split; [reflexivity|]. cbv beta iota. replace (length d) with 3%nat by lia. reflexivity.
      * destruct (IH (d ++ [v])) as (rest & o & e & H1 & H2); [rewrite app_length; cbn [length]; lia|].
        exists rest, o, e. split; [exact H1|]. rewrite app_length in H2. cbn [length] in H2.
        replace (length d + 1)%nat with (match length d with 3%nat => 0%nat | _ => S (length d) end) in H2; [exact H2|].
        destruct (length d) as [|[|[|[|]]]]; lia.
    + destruct (is_nl c); [apply IH; exact Hd|]. destruct (beqb c padChar); cbn [negb].
      2: { do 3 eexists. split; [reflexivity|]. eexists. split; [reflexivity|]. rewrite index_at_cons. reflexivity. }
      destruct d as [|d1 [|d2 [|d3 [|]]]]; cbn [length] in Hd |- *; try lia.
      * do 3 eexists. split; [reflexivity|]. eexists. split; [reflexivity|]. rewrite index_at_cons. reflexivity.
      * do 3 eexists. split; [reflexivity|]. eexists. split; [reflexivity|]. rewrite index_at_cons. reflexivity.
      * destruct (skip_nl r) as [|c2 r2].
        { do 3 eexists. split; [reflexivity|]. eexists. split; reflexivity. }
        destruct (beqb c2 padChar); cbn [negb].
        -- do 3 eexists. split; [reflexivity|]. destruct (skip_nl r2); [reflexivity|]. eexists. split; reflexivity.
        -- do 3 eexists. split; [reflexivity|]. eexists. split; reflexivity.
      * do 3 eexists. split; [reflexivity|]. destruct (skip_nl r); [reflexivity|]. eexists. split; reflexivity.
Qed.

Definition ref_result (at_ : Z) (acc : bytes) (r : bytes * bool) : rres :=
  RRet (acc ++ fst r) (if snd r then Some (CorruptInput at_) else None).

Lemma decode_loop_eq len fuel room c r acc : decode_loop len (S fuel) room (c :: r) acc =
  match decodeQuantum len [] (c :: r) with
  | Quantum rest out e =>
      if room <? Z.of_nat (length out) then RPanic
      else match e with
           | Some _ => RRet (acc ++ out) e
           | None => decode_loop len fuel (room - Z.of_nat (length out)) rest (acc ++ out)
           end end.
Proof. reflexivity. Qed.

Lemma decode_loop_ref len : forall fuel src room acc,
  (length src <= fuel)%nat -> 3 * Z.of_nat (length (nonl src) / 4) <= room ->
  decode_loop len fuel room src acc = ref_result (match bad_from len 0 src with Some n => n | None => 0 end) acc (ref_decode (nonl src)) /\
  is_some (bad_from len 0 src) = snd (ref_decode (nonl src)).
Proof.
  induction fuel as [|fuel IH]; intros src room acc Hf Hr.
  - destruct src; [|cbn in Hf; lia]. unfold ref_result. cbn. rewrite app_nil_r. split; reflexivity.
  - destruct src as [|c0 src0]; [unfold ref_result; cbn; rewrite app_nil_r; split; reflexivity|].
    rewrite decode_loop_eq. set (src := c0 :: src0) in *.
    destruct (dq_nonl len len src [] ltac:(cbn; lia)) as (rest & o & e & H1 & H2 & H2' & rest' & e' & H3 & H5 & H4).
    assert (Hlt : (length rest < length src)%nat) by (apply H2'; discriminate).
    destruct (dq_bad len src [] ltac:(cbn; lia)) as (rest0 & o0 & e0 & H1' & Hb).
    rewrite H1 in H1'. injection H1' as <- <- <-. cbn [length] in Hb.
    rewrite H1.
    destruct (nonl src) as [|n0 ns] eqn:Ens.
    { cbn [decodeQuantum] in H3. injection H3 as <- <- <-. destruct e; [discriminate H5|]. cbn [length].
      replace (room <? Z.of_nat 0) with false.
      2:{ symmetry. apply Z.ltb_ge. cbn [length] in Hr. lia. }
      rewrite Hb. destruct (IH rest (room - Z.of_nat 0) (acc ++ [])) as [I1 I2].
      - lia.
      - rewrite H4. cbn [length]. cbn [nonl filter length]. cbn [length] in Hr. lia.
      - rewrite I1, I2, H4. unfold ref_result. cbn. rewrite !app_nil_r. split; reflexivity. }
    destruct (dq_ref len (n0 :: ns)) as (rest2 & o2 & e2 & G1 & G2 & G3 & G4).
    { rewrite <- Ens. apply nonl_nlfree. }
    { discriminate. }
    rewrite H3 in G1. injection G1 as <- <- <-.
    replace (room <? Z.of_nat (length o)) with false by (symmetry; apply Z.ltb_ge; lia).
    destruct e as [x|]; destruct e' as [x'|]; try discriminate H5.
    + destruct Hb as (n & -> & ->). rewrite G4. split; reflexivity.
    + rewrite Hb. destruct (IH rest (room - Z.of_nat (length o)) (acc ++ o)) as [I1 I2].
      * lia.
      * rewrite H4, (nlfree_nonl _ G2). lia.
      * rewrite I1, I2. rewrite H4, (nlfree_nonl _ G2), G4. unfold ref_result. cbn [fst snd]. rewrite app_assoc. split; reflexivity.
Qed.

Lemma StdDecode_ref room src : 3 * Z.of_nat (length (nonl src) / 4) <= room ->
  StdDecode room src = ref_result (offset src) [] (ref_decode (nonl src)).
Proof. intro H. unfold StdDecode. apply decode_loop_ref; [lia|exact H]. Qed.
Lemma bad_at_ref src : is_some (bad_at src) = snd (ref_decode (nonl src)).
Proof. exact (proj2 (decode_loop_ref _ (length src) src _ [] (le_n _) (Z.le_refl _))). Qed.

Lemma nonl_length t : (length (nonl t) <= length t)%nat.
Proof. unfold nonl. induction t as [|c r IH]; cbn; [lia|]. destruct (negb (is_nl c)); cbn; lia. Qed.

Lemma DecodeString_ref s :
  DecodeString s = match ref_decode (nonl s) with
                   | (b, false) => Ok b
                   | (_, true) => Err (CorruptInput (offset s))
                   end.
Proof.
  unfold DecodeString. rewrite StdDecode_ref.
  - unfold ref_result. destruct (ref_decode (nonl s)) as [b []]; reflexivity.
  - unfold DecodedLen. pose proof (nonl_length s). pose proof (quarter_mono _ _ H) as Hq.
    rewrite Nat2Z.inj_div. apply Nat2Z.inj_le in Hq. rewrite !Nat2Z.inj_div in Hq.
    change (Z.of_nat 4) with 4 in *. lia.
Qed.

Lemma dec3_group a b c : dec3 (c1 a) (c2 a b) (c3 b c) (c4 c) = [a; b; c].
Proof.
  unfold dec3, quantum_out.
  rewrite val4_eq by (try apply c1_range; try apply c2_range; try apply c3_range; apply c4_range).
  cbn [Nat.sub firstn]. rewrite !shr_div by lia. change (2 ^ 16) with 65536. change (2 ^ 8) with 256.
  byte_bounds. unfold c1, c2, c3, c4.
  f_equal; [|f_equal; [|f_equal]]; apply b2z_inj; rewrite b2z_z2b; zdm.
Qed.

Lemma val4_short2 a b : val4 [a; b] = val4 [a; b; 0; 0].
Proof. reflexivity. Qed.
Lemma val4_short3 a b c : val4 [a; b; c] = val4 [a; b; c; 0].
Proof. reflexivity. Qed.

Lemma ref_decode_group a b c t :
  ref_decode (StdEncode [a; b; c] ++ t) = (a :: b :: c :: fst (ref_decode t), snd (ref_decode t)).
Proof.
  rewrite StdEncode_cons3. cbn [app StdEncode ref_decode].
  rewrite !decodeMap_spec_char by (try apply c1_range; try apply c2_range; try apply c3_range; apply c4_range).
  rewrite dec3_group. destruct (ref_decode t). reflexivity.
Qed.

Lemma ref_decode_app x t : (length x mod 3 = 0)%nat ->
  ref_decode (StdEncode x ++ t) = (x ++ fst (ref_decode t), snd (ref_decode t)).
Proof.
  induction x as [|a|a b|a b c r IH] using list_ind3; intro H; try (vm_compute in H; discriminate).
  - cbn [StdEncode app]. destruct (ref_decode t); reflexivity.
  - change (a :: b :: c :: r) with ([a; b; c] ++ r).
    rewrite StdEncode_app by reflexivity. rewrite <- app_assoc, ref_decode_group, IH; [reflexivity|].
    cbn [length] in H. replace (S (S (S (length r)))) with (length r + 1 * 3)%nat in H by lia.
    rewrite Nat.mod_add in H by lia. exact H.
Qed.

Lemma ref_decode_tail x : (length x < 3)%nat -> ref_decode (StdEncode x) = (x, false).
Proof.
  intro H. destruct x as [|a [|b [|]]]; cbn [length] in H; try lia.
  - reflexivity.
  - rewrite StdEncode_1. cbn [ref_decode].
    rewrite !decodeMap_spec_char by (try apply c1_range; apply c2_range).
    change (decodeMap padChar) with (@None Z). cbn [beqb padChar andb].
    rewrite beqb_refl. cbn [andb]. f_equal. unfold quantum_out. cbn [Nat.sub firstn].
    rewrite val4_short2, val4_eq by (try apply c1_range; try apply c2_range; lia).
    rewrite shr_div by lia. change (2 ^ 16) with 65536.
    f_equal. apply b2z_inj. rewrite b2z_z2b. byte_bounds. unfold c1, c2. change (b2z x00) with 0. zdm.
  - rewrite StdEncode_2. cbn [ref_decode].
    rewrite !decodeMap_spec_char by (try apply c1_range; try apply c2_range; apply c3_range).
    change (decodeMap padChar) with (@None Z).
    rewrite beqb_refl. f_equal. unfold quantum_out. cbn [Nat.sub firstn].
    rewrite val4_short3, val4_eq by (try apply c1_range; try apply c2_range; try apply c3_range; lia).
    rewrite !shr_div by lia. change (2 ^ 16) with 65536. change (2 ^ 8) with 256.
    byte_bounds. unfold c1, c2, c3. change (b2z x00) with 0.
    f_equal; [|f_equal]; apply b2z_inj; rewrite b2z_z2b; zdm.
Qed.

Lemma split3 (x : bytes) : exists g r, x = g ++ r /\ (length g mod 3 = 0)%nat /\ (length r < 3)%nat.
Proof.
  induction x as [|a|a b|a b c r IH] using list_ind3.
  - exists [], []. cbn. auto with arith.
  - exists [], [a]. cbn. auto with arith.
  - exists [], [a; b]. cbn. auto with arith.
  - destruct IH as (g & t & -> & H1 & H2). exists (a :: b :: c :: g), t. split; [reflexivity|].
    split; [|exact H2]. cbn [length]. replace (S (S (S (length g)))) with (length g + 1 * 3)%nat by lia.
    rewrite Nat.mod_add by lia. exact H1.
Qed.

Lemma ref_decode_encode x : ref_decode (StdEncode x) = (x, false).
Proof.
  destruct (split3 x) as (g & r & -> & Hg & Hr).
  rewrite StdEncode_app by exact Hg. rewrite ref_decode_app by exact Hg.
  rewrite ref_decode_tail by exact Hr. reflexivity.
Qed.

Lemma StdEncode_nlfree x : nlfree (StdEncode x).
Proof. exact (StdEncode_no_nl x). Qed.

Theorem DecodeString_StdEncode x : DecodeString (StdEncode x) = Ok x.
Proof.
  rewrite DecodeString_ref, (nlfree_nonl _ (StdEncode_nlfree x)), ref_decode_encode. reflexivity.
Qed.

Theorem StdEncode_inj x y : StdEncode x = StdEncode y -> x = y.
Proof. intro H. pose proof (DecodeString_StdEncode x) as E. rewrite H, DecodeString_StdEncode in E. congruence. Qed.

Theorem DecodeString_newlines s t : nonl s = nonl t -> forall b, DecodeString s = Ok b <-> DecodeString t = Ok b.
Proof. intros H b. rewrite !DecodeString_ref, H. destruct (ref_decode (nonl t)) as [o []]; split; intro E; exact E || discriminate E. Qed.

(* never panics *)
Lemma DecodeString_no_panic s : DecodeString s <> Panic.
Proof. rewrite DecodeString_ref. destruct (ref_decode (nonl s)) as [? []]; discriminate. Qed.

Definition count_alpha (t : bytes) : nat := length (filter is_alpha t).

Lemma list_ind4 {A} (P : list A -> Prop) :
  P [] -> (forall a, P [a]) -> (forall a b, P [a; b]) -> (forall a b c, P [a; b; c]) ->
  (forall a b c d r, P r -> P (a :: b :: c :: d :: r)) -> forall l, P l.
Proof.
  intros H0 H1 H2 H3 H4 l.
  assert (H : P l /\ (forall a, P (a :: l)) /\ (forall a b, P (a :: b :: l)) /\ (forall a b c, P (a :: b :: c :: l))).
  { induction l as [|x l IH]; [auto|]. destruct IH as (A1 & A2 & A3 & A4). auto. }
  apply H.
Qed.

Lemma ref_decode_length t b : ref_decode t = (b, false) ->
  length b = (count_alpha t * 3 / 4)%nat /\ (length t mod 4 = 0)%nat.
Proof.
  revert b. induction t as [|x|x y|x y z|x y z w r IH] using list_ind4; intros o H; try discriminate.
  - injection H as <-. split; reflexivity.
  - cbn [ref_decode] in H. unfold count_alpha. cbn [filter].
    rewrite !decodeMap_alpha.
    destruct (decodeMap x) as [va|]; [|discriminate]. destruct (decodeMap y) as [vb|]; [|discriminate].
    destruct (decodeMap z) as [vc|] eqn:Ez.
    + destruct (decodeMap w) as [vd|] eqn:Ew.
      * destruct (ref_decode r) as [o' e']. apply pair_equal_spec in H. destruct H as [<- ->].
        destruct (IH o' eq_refl) as [L1 L2]. unfold count_alpha in L1.
        cbn [length]. split.
        -- rewrite app_length, L1. change (length (dec3 va vb vc vd)) with 3%nat.
           replace (S (S (S (S (length (filter is_alpha r))))) * 3)%nat with (length (filter is_alpha r) * 3 + 3 * 4)%nat by lia.
           rewrite Nat.div_add by lia. lia.
        -- replace (S (S (S (S (length r))))) with (length r + 1 * 4)%nat by lia. rewrite Nat.mod_add by lia. exact L2.
      * destruct (beqb w padChar); [|discriminate]. destruct r; [|discriminate]. injection H as <-. split; reflexivity.
    + destruct (beqb z padChar) eqn:E1; [|discriminate]. cbn [andb] in H.
      destruct (beqb w padChar) eqn:E2; [|discriminate]. destruct r; [|discriminate]. injection H as <-.
      apply beqb_eq in E2. subst w. split; reflexivity.
Qed.

Lemma count_alpha_nonl t : count_alpha (nonl t) = count_alpha t.
Proof.
  unfold count_alpha, nonl. induction t as [|c r IH]; [reflexivity|]. cbn [filter].
  destruct (is_nl c) eqn:E; cbn [negb].
  - rewrite decodeMap_alpha, (decodeMap_nl c E). exact IH.
  - cbn [filter]. destruct (is_alpha c); cbn [length]; [f_equal|]; exact IH.
Qed.

Theorem DecodeString_length s b : DecodeString s = Ok b ->
  length b = (count_alpha s * 3 / 4)%nat /\ (length (nonl s) mod 4 = 0)%nat.
Proof.
  rewrite DecodeString_ref. destruct (ref_decode (nonl s)) as [o []] eqn:E; [discriminate|].
  intro H. injection H as <-. rewrite <- count_alpha_nonl. apply ref_decode_length. exact E.
Qed.

(* output never exceeds three bytes per four characters, error or not *)
Lemma ref_decode_bound t : (length (fst (ref_decode t)) <= 3 * (length t / 4))%nat.
Proof.
  induction t as [|x|x y|x y z|x y z w r IH] using list_ind4; try (cbn; lia).
  cbn [ref_decode]. cbn [length]. rewrite quarter_4.
  destruct (decodeMap x) as [va|]; [|cbn; lia]. destruct (decodeMap y) as [vb|]; [|cbn; lia].
  destruct (decodeMap z) as [vc|].
  - destruct (decodeMap w) as [vd|].
    + destruct (ref_decode r) as [o e]. cbn [fst] in *. rewrite app_length.
      pose proof (length_quantum_out [va; vb; vc; vd] 4). unfold dec3. lia.
    + destruct (beqb w padChar); [|cbn; lia]. cbn [fst].
      pose proof (length_quantum_out [va; vb; vc] 3). lia.
  - destruct (beqb z padChar && beqb w padChar); [|cbn; lia]. cbn [fst].
    pose proof (length_quantum_out [va; vb] 2). lia.
Qed.
