(* Facts about flag parsing and the command. *)
From Verif Require Import SealOpen.
From Verif Require Export SpecFlag Cmd WorldFacts OpenFacts GenFacts.

Definition flags_of (ss : list setting) : flags :=
  Flags (string_value x63 ss) (string_value x6d ss) (string_value x70 ss) (string_value x73 ss) (string_value x78 ss)
        (bool_value x6e ss) (bool_value x44 ss) (bool_value x45 ss) (bool_value x47 ss) (bool_value x53 ss) (bool_value x56 ss).

Lemma kind_string c : string_flag c -> kindOf [c] = KString.
Proof. unfold string_flag. intro H. vm_compute in H. repeat (destruct H as [<-|H]; [reflexivity|]). destruct H. Qed.
Lemma kind_bool c : bool_flag c -> kindOf [c] = KBool.
Proof. unfold bool_flag. intro H. vm_compute in H. repeat (destruct H as [<-|H]; [reflexivity|]). destruct H. Qed.
Lemma kind_inv n : match kindOf n with
  | KString => exists c, n = [c] /\ string_flag c
  | KBool => exists c, n = [c] /\ bool_flag c
  | KUnknown => forall c, n = [c] -> ~ string_flag c /\ ~ bool_flag c
  end.
Proof.
  destruct n as [|c [|d n]]; try (cbn; intros; discriminate).
  destruct (kindOf [c]) eqn:K.
  - exists c. split; [reflexivity|]. unfold kindOf in K. destruct (existsb (beqb c) (str "cmpsx")) eqn:E.
    + apply existsb_exists in E. destruct E as (x & Hx & E). apply beqb_eq in E. subst x. exact Hx.
    + destruct (existsb (beqb c) (str "nDEGSV")); discriminate.
  - exists c. split; [reflexivity|]. unfold kindOf in K. destruct (existsb (beqb c) (str "cmpsx")); [discriminate|].
    destruct (existsb (beqb c) (str "nDEGSV")) eqn:E; [|discriminate].
    apply existsb_exists in E. destruct E as (x & Hx & E). apply beqb_eq in E. subst x. exact Hx.
  - intros c' E. injection E as <-. split; intro H.
    + rewrite (kind_string c H) in K. discriminate.
    + rewrite (kind_bool c H) in K. discriminate.
Qed.

Lemma parse_bool t v : ParseBool t = Some v <-> bool_word t v.
Proof.
  unfold ParseBool, bool_word. 
  set (T := [str "1"; str "t"; str "T"; str "true"; str "TRUE"; str "True"]).
  set (F := [str "0"; str "f"; str "F"; str "false"; str "FALSE"; str "False"]).
  assert (X : forall l, existsb (bytes_eqb t) l = true <-> In t l).
  { intro l. rewrite existsb_exists. split; [intros (x & Hx & E); apply bytes_eqb_eq in E; subst; exact Hx|].
    intro H. exists t. split; [exact H|apply bytes_eqb_refl]. }
  assert (D : In t T -> In t F -> False).
  { intros H1 H2. vm_compute in H1, H2. repeat (destruct H1 as [<-|H1]; [intuition discriminate|]). destruct H1. }
  destruct (existsb (bytes_eqb t) T) eqn:ET.
  - apply X in ET. split; [intro E; injection E as <-; exact ET|]. destruct v; [reflexivity|intro H; contradiction (D ET H)].
  - assert (NT : ~ In t T) by (intro H; apply X in H; congruence).
    destruct (existsb (bytes_eqb t) F) eqn:EF.
    + apply X in EF. split; [intro E; injection E as <-; exact EF|]. destruct v; [intro H; contradiction|reflexivity].
    + assert (NF : ~ In t F) by (intro H; apply X in H; congruence). split; [discriminate|]. destruct v; intro H; contradiction.
Qed.

Lemma split_eq_free s : eq_free s -> split_eq s = (s, None).
Proof.
  induction s as [|c s IH]; intro H; [reflexivity|]. cbn [split_eq].
  destruct (beqb c x3d) eqn:E; [apply beqb_eq in E; subst; exfalso; apply H; left; reflexivity|].
  rewrite IH; [reflexivity|]. intro X. apply H. right. exact X.
Qed.
Lemma split_eq_at n v : eq_free n -> split_eq (n ++ x3d :: v) = (n, Some v).
Proof.
  induction n as [|c n IH]; intro H; [reflexivity|]. cbn [app split_eq].
  destruct (beqb c x3d) eqn:E; [apply beqb_eq in E; subst; exfalso; apply H; left; reflexivity|].
  rewrite IH; [reflexivity|]. intro X. apply H. right. exact X.
Qed.
Lemma split_eq_inv s : match split_eq s with
  | (n, None) => n = s /\ eq_free s
  | (n, Some v) => s = n ++ x3d :: v /\ eq_free n
  end.
Proof.
  induction s as [|c s IH]; [split; [reflexivity|intros []]|]. cbn [split_eq].
  destruct (beqb c x3d) eqn:E; [apply beqb_eq in E; subst; split; [reflexivity|intros []]|].
  assert (Hc : c <> x3d) by (apply beqb_neq, E).
  destruct (split_eq s) as [n [v|]].
  - destruct IH as [-> H]. split; [reflexivity|]. intros [X|X]; [exact (Hc X)|exact (H X)].
  - destruct IH as [-> H]. split; [reflexivity|]. intros [X|X]; [exact (Hc X)|exact (H X)].
Qed.
Lemma split_name_names s n v : s <> [] -> split_name s = (n, v) <-> names s n v.
Proof.
  intro Hs. destruct s as [|c s]; [contradiction|]. cbn [split_name]. split.
  - pose proof (split_eq_inv s) as I. destruct (split_eq s) as [n' [v'|]]; intro E; injection E as <- <-; destruct I as [I1 I2].
    + subst s. apply names_eq; [discriminate|exact I2|reflexivity].
    + subst n'. apply names_bare. exact I2.
  - intro H. inversion H as [He|n' v' Hn He E]; subst.
    + cbn in He. rewrite split_eq_free by exact He. reflexivity.
    + destruct n as [|c' n]; [contradiction|]. injection E as -> ->. cbn in He. rewrite split_eq_at by exact He. reflexivity.
Qed.

(* one flag *)
Definition apply_setting (f : flags) (s : setting) : flags :=
  match s with SetS c v => setString [c] v f | SetB c v => setBool [c] v f end.

Lemma flag_char c : string_flag c \/ bool_flag c -> beqb c x2d = false /\ beqb c x3d = false.
Proof.
  intros [H|H]; vm_compute in H; repeat (destruct H as [<-|H]; [split; reflexivity|]); destruct H.
Qed.

(* parseOne on an argument with dashes *)
Lemma parseOne_dashes d c r rest f : dashes d -> c <> x2d -> parseOne ((d ++ c :: r) :: rest) f = parseFlag (d ++ c :: r) (c :: r) rest f.
Proof.
  intros [-> | ->] Hc.
  - apply beqb_neq in Hc. change (str "-" ++ c :: r) with (x2d :: c :: r). cbn [parseOne].
    change (beqb x2d x2d) with true. cbn [negb]. rewrite Hc. reflexivity.
  - change (str "--" ++ c :: r) with (x2d :: x2d :: c :: r). cbn [parseOne]. change (beqb x2d x2d) with true. reflexivity.
Qed.

Lemma parseOne_renders s args rest f : renders s args -> parseOne (args ++ rest) f = More (apply_setting f s) rest.
Proof.
  intro H. destruct H as [d c v Hd Hc|d c v Hd Hc|d c Hd Hc|d c t v Hd Hc Ht]; cbn [app].
  all: destruct (flag_char c) as [F1 F2]; [auto|]; assert (N : c <> x2d) by (apply beqb_neq, F1).
  - rewrite (parseOne_dashes d c []) by assumption. unfold parseFlag. rewrite F1, F2. cbn [orb split_name split_eq].
    rewrite kind_string by exact Hc. reflexivity.
  - rewrite (parseOne_dashes d c) by assumption. unfold parseFlag. rewrite F1, F2. cbn [orb split_name split_eq].
    change (beqb x3d x3d) with true. cbn iota. rewrite kind_string by exact Hc. reflexivity.
  - rewrite (parseOne_dashes d c []) by assumption. unfold parseFlag. rewrite F1, F2. cbn [orb split_name split_eq].
    rewrite kind_bool by exact Hc. reflexivity.
  - rewrite (parseOne_dashes d c) by assumption. unfold parseFlag. rewrite F1, F2. cbn [orb split_name split_eq].
    change (beqb x3d x3d) with true. cbn iota. rewrite kind_bool by exact Hc.
    apply parse_bool in Ht. rewrite Ht. reflexivity.
Qed.

Lemma parseOne_stops rest f : stops rest -> exists rest', parseOne rest f = Stop rest'.
Proof.
  intros [|r|r|a r Ha]; try (eexists; reflexivity).
  destruct a as [|c [|c2 a]]; try (eexists; reflexivity). cbn [parseOne].
  destruct (beqb c x2d) eqn:E; [apply beqb_eq in E; subst; exfalso; eapply Ha; reflexivity|]. eexists. reflexivity.
Qed.

Lemma parseOne_malformed args f : malformed args -> exists msg, parseOne args f = Bad msg.
Proof.
  intros [d r rest Hd|r rest|d s n v rest Hd Hs Hne Hn Hu|d c t rest Hd Hc Ht|d c Hd Hc].
  - rewrite (parseOne_dashes d x3d) by (assumption || discriminate). unfold parseFlag. change (beqb x3d x3d) with true. rewrite orb_true_r. eexists. reflexivity.
  - change (str "---" ++ r) with (x2d :: x2d :: x2d :: r). cbn [parseOne]. change (beqb x2d x2d) with true. cbn [negb].
    unfold parseFlag. change (beqb x2d x2d) with true. cbn [orb]. eexists. reflexivity.
  - destruct s as [|c s]; [contradiction|].
    assert (N1 : c <> x2d) by (intros ->; destruct (Hne s) as [X _]; contradiction).
    assert (N2 : c <> x3d) by (intros ->; destruct (Hne s) as [_ X]; contradiction).
    rewrite (parseOne_dashes d c s) by assumption. unfold parseFlag. apply beqb_neq in N1, N2. rewrite N1, N2. cbn [orb].
    apply split_name_names in Hn; [|discriminate]. rewrite Hn.
    pose proof (kind_inv n) as K. destruct (kindOf n).
    + destruct K as (x & E & X). destruct (Hu x E) as [Y _]. contradiction.
    + destruct K as (x & E & X). destruct (Hu x E) as [_ Y]. contradiction.
    + destruct (bytes_eqb n (str "help") || bytes_eqb n (str "h")); eexists; reflexivity.
  - destruct (flag_char c) as [F1 F2]; [auto|]. assert (N : c <> x2d) by (apply beqb_neq, F1).
    rewrite (parseOne_dashes d c) by assumption. unfold parseFlag. rewrite F1, F2. cbn [orb split_name split_eq].
    change (beqb x3d x3d) with true. cbn iota. rewrite kind_bool by exact Hc.
    destruct (ParseBool t) as [v|] eqn:E; [apply parse_bool in E; contradiction (Ht v)|]. eexists. reflexivity.
  - destruct (flag_char c) as [F1 F2]; [auto|]. assert (N : c <> x2d) by (apply beqb_neq, F1).
    rewrite (parseOne_dashes d c []) by assumption. unfold parseFlag. rewrite F1, F2. cbn [orb split_name split_eq].
    rewrite kind_string by exact Hc. eexists. reflexivity.
Qed.

(* every argument list is of one of the three kinds *)
Lemma args_cases args : stops args \/ malformed args \/
  exists s a rest, renders s a /\ args = a ++ rest /\ a <> [].
Proof.
  destruct args as [|a rest]; [left; constructor|].
  destruct a as [|c a]; [left; apply stop_word; discriminate|].
  destruct (byte_eq_dec c x2d) as [->|Hc].
  2:{ left. apply stop_word. intros r E. injection E as ->. contradiction. }
  assert (X : forall d s, dashes d -> s <> [] -> (forall r, s <> x2d :: r) -> malformed ((d ++ s) :: rest) \/
     exists s' a' rest', renders s' a' /\ (d ++ s) :: rest = a' ++ rest' /\ a' <> []).
  { intros d s Hd Hs Hm. destruct s as [|c s]; [contradiction|].
    destruct (byte_eq_dec c x3d) as [->|Hc]; [left; constructor; exact Hd|].
    destruct (split_name (c :: s)) as [n v] eqn:E. apply split_name_names in E; [|discriminate].
    pose proof (kind_inv n) as K. destruct (kindOf n).
    - destruct K as (x & -> & Hx). inversion E as [He Ex Ev|n' v' Hn He Ev]; subst.
      + destruct rest as [|v rest]; [left; apply mal_missing; assumption|right].
        exists (SetS x v), [d ++ [x]; v], rest. split; [constructor; assumption|]. split; [reflexivity|discriminate].
      + right. exists (SetS x v'), [d ++ x :: x3d :: v'], rest. cbn in Ev. injection Ev as -> ->. split; [constructor; assumption|]. split; [reflexivity|discriminate].
    - destruct K as (x & -> & Hx). inversion E as [He Ex Ev|n' v' Hn He Ev]; subst.
      + right. exists (SetB x true), [d ++ [x]], rest. split; [constructor; assumption|]. split; [reflexivity|discriminate].
      + cbn in Ev. injection Ev as -> ->. destruct (ParseBool v') as [b|] eqn:Eb.
        * apply parse_bool in Eb. right. exists (SetB x b), [d ++ x :: x3d :: v'], rest. split; [constructor; assumption|]. split; [reflexivity|discriminate].
        * left. apply mal_bool; try assumption. intros b Hb. apply parse_bool in Hb. congruence.
    - left. apply (mal_unknown d (c :: s) n v); try assumption. intro r. split; [apply Hm|]. intro Y. injection Y as -> _. contradiction. }
  destruct a as [|c a]; [left; apply stop_dash|].
  destruct (byte_eq_dec c x2d) as [->|Hc].
  - destruct a as [|c a]; [left; apply stop_dashes|].
    destruct (byte_eq_dec c x2d) as [->|Hc]; [right; left; exact (mal_dashes a rest)|].
    right. apply (X (str "--") (c :: a)); [right; reflexivity|discriminate|]. intros r E. injection E as -> _. contradiction.
  - right. apply (X (str "-") (c :: a)); [left; reflexivity|discriminate|]. intros r E. injection E as -> _. contradiction.
Qed.

(* ---- whole command lines ---- *)
Lemma parseArgs_settings ss argss : Forall2 renders ss argss -> forall fuel rest f,
  parseArgs (length ss + fuel) (concat argss ++ rest) f = parseArgs fuel rest (fold_left apply_setting ss f).
Proof.
  induction 1 as [|s a ss argss Hr _ IH]; intros fuel rest f; [reflexivity|].
  cbn [length Nat.add concat fold_left parseArgs]. rewrite <- app_assoc, (parseOne_renders s a) by exact Hr. apply IH.
Qed.

Lemma renders_length ss argss : Forall2 renders ss argss -> (length ss <= length (concat argss))%nat.
Proof.
  induction 1 as [|s a ss argss Hr _ IH]; [reflexivity|]. cbn [concat length]. rewrite app_length.
  destruct Hr; cbn [length]; lia.
Qed.

Lemma apply_all ss : forall f0 ss0, f0 = flags_of ss0 -> Forall (fun s => match s with SetS c _ => string_flag c | SetB c _ => bool_flag c end) ss ->
  fold_left apply_setting ss f0 = flags_of (ss0 ++ ss).
Proof.
  induction ss as [|s ss IH]; intros f0 ss0 E V; [rewrite app_nil_r; exact E|].
  inversion V as [|? ? V1 V2]; subst. cbn [fold_left]. replace (ss0 ++ s :: ss) with ((ss0 ++ [s]) ++ ss) by (rewrite <- app_assoc; reflexivity).
  apply IH; [|exact V2]. unfold flags_of, string_value, bool_value. rewrite !fold_left_app. cbn [fold_left].
  destruct s as [c v|c v].
  - unfold string_flag in V1. vm_compute in V1. repeat (destruct V1 as [<-|V1]; [reflexivity|]). destruct V1.
  - unfold bool_flag in V1. vm_compute in V1. repeat (destruct V1 as [<-|V1]; [reflexivity|]). destruct V1.
Qed.

Lemma renders_valid ss argss : Forall2 renders ss argss ->
  Forall (fun s => match s with SetS c _ => string_flag c | SetB c _ => bool_flag c end) ss.
Proof. induction 1 as [|s a ss argss Hr _ IH]; constructor; [destruct Hr; assumption|exact IH]. Qed.

Lemma flagParse_settings ss args rest : command_line ss args rest -> 
  flagParse args = parseArgs (S (length args - length ss)) rest (flags_of ss).
Proof.
  intros (argss & Hr & ->). unfold flagParse. pose proof (renders_length _ _ Hr).
  replace (S (length (concat argss ++ rest))) with (length ss + S (length (concat argss ++ rest) - length ss))%nat by (rewrite app_length; lia).
  rewrite parseArgs_settings by exact Hr. f_equal.
  rewrite (apply_all ss noFlags []); [reflexivity|reflexivity|exact (renders_valid _ _ Hr)].
Qed.

Lemma flagParse_stops ss args rest : command_line ss args rest -> stops rest -> exists r, flagParse args = Parsed (flags_of ss) r.
Proof.
  intros H Hs. rewrite (flagParse_settings _ _ _ H). cbn [parseArgs].
  destruct (parseOne_stops rest (flags_of ss) Hs) as (r & E). rewrite E. eexists. reflexivity.
Qed.
Lemma flagParse_malformed ss args rest : command_line ss args rest -> malformed rest -> exists msg, flagParse args = Malformed msg.
Proof.
  intros H Hs. rewrite (flagParse_settings _ _ _ H). cbn [parseArgs].
  destruct (parseOne_malformed rest (flags_of ss) Hs) as (r & E). rewrite E. eexists. reflexivity.
Qed.

Lemma every_command_line args : exists ss rest, command_line ss args rest /\ (stops rest \/ malformed rest).
Proof.
  remember (length args) as n eqn:En. revert args En. induction n as [n IH] using lt_wf_ind. intros args En.
  destruct (args_cases args) as [H|[H|(s & a & rest & Hr & -> & Ha)]].
  - exists [], args. split; [exists []; split; [constructor|reflexivity]|left; exact H].
  - exists [], args. split; [exists []; split; [constructor|reflexivity]|right; exact H].
  - destruct (IH (length rest)) with (args := rest) as (ss & r & (argss & H1 & ->) & H2).
    + rewrite En, app_length. destruct a; [contradiction|cbn; lia].
    + reflexivity.
    + exists (s :: ss), r. split; [|exact H2]. exists (a :: argss). split; [constructor; assumption|]. cbn [concat]. rewrite app_assoc. reflexivity.
Qed.

(* ---- what the command does ---- *)
Lemma action_acts m onErr onOk w n w' : action m onErr onOk w = (n, w') -> acts m w n w'.
Proof.
  unfold action. intro H. destruct (m w) as [r w1] eqn:E. exists r, w1.
  destruct r as [u|e|]; [destruct onOk as [t|]| |]; injection H as <- <-.
  - exists [EvOut t]. destruct u. split; [exact E|]. split; [reflexivity|]. split; [reflexivity|]. split; [repeat constructor|].
    repeat split; try discriminate; try (intros (? & X); discriminate); auto.
  - exists []. destruct u. split; [exact E|]. split; [reflexivity|]. split; [rewrite app_nil_r; reflexivity|]. split; [constructor|].
    repeat split; try discriminate; try (intros (? & X); discriminate); auto.
  - exists [EvErr (onErr e)]. split; [exact E|]. split; [reflexivity|]. split; [reflexivity|]. split; [repeat constructor|].
    repeat split; try discriminate; eauto.
  - exists []. split; [exact E|]. split; [reflexivity|]. split; [rewrite app_nil_r; reflexivity|]. split; [constructor|].
    repeat split; try discriminate; try (intros (? & X); discriminate); auto.
Qed.

Lemma or_default_eq v base ext : (if isEmpty v && negb (isEmpty base) then base ++ ext else v) = or_default v base ext.
Proof. destruct v, base; reflexivity. Qed.

Lemma main_dispatch C arg0 u ss args rest w : command_line ss args rest -> stops rest ->
  main C arg0 u args w = dispatch C arg0 u (flags_of ss) w.
Proof. intros H Hs. unfold main. destruct (flagParse_stops _ _ _ H Hs) as (r & ->). reflexivity. Qed.

Lemma main_sign C arg0 u ss args rest w n w' : command_line ss args rest -> stops rest ->
  main C arg0 u args w = (n, w') -> bool_value x47 ss = false -> bool_value x53 ss = true ->
  let sec := or_default (string_value x73 ss) (defaultKeyBase u) (str ".sec") in
  (sec <> [] /\ string_value x6d ss <> [] -> acts (Sign C sec (string_value x6d ss) (string_value x78 ss)) w n w') /\
  (sec = [] \/ string_value x6d ss = [] -> n = 1 /\ exists t, w' = emit w (EvErr t)).
Proof.
  intros Hc Hs H HG HS sec. rewrite (main_dispatch _ _ _ _ _ _ _ Hc Hs) in H. unfold dispatch in H.
  cbn [flags_of f_s f_p f_G f_S f_m f_x] in H. rewrite HG, HS, !or_default_eq in H. fold sec in H.
  split.
  - intros [N1 N2]. destruct sec; [contradiction|]. destruct (string_value x6d ss); [contradiction|]. cbn [isEmpty orb] in H.
    exact (action_acts _ _ _ _ _ _ H).
  - intro N. assert (X : isEmpty sec || isEmpty (string_value x6d ss) = true) by (destruct N as [-> | ->]; [reflexivity|apply orb_true_r]).
    rewrite X in H. injection H as <- <-. split; [reflexivity|]. eexists. reflexivity.
Qed.

Lemma main_verify C arg0 u ss args rest w n w' : command_line ss args rest -> stops rest ->
  main C arg0 u args w = (n, w') -> bool_value x47 ss = false -> bool_value x53 ss = false -> bool_value x56 ss = true ->
  acts (Verify C (or_default (string_value x70 ss) (defaultKeyBase u) (str ".pub")) (string_value x6d ss) (string_value x78 ss)) w n w'.
Proof.
  intros Hc Hs H HG HS HV. rewrite (main_dispatch _ _ _ _ _ _ _ Hc Hs) in H. unfold dispatch in H.
  cbn [flags_of f_s f_p f_G f_S f_V f_m f_x] in H. rewrite HG, HS, HV, !or_default_eq in H. exact (action_acts _ _ _ _ _ _ H).
Qed.
Lemma main_seal C arg0 u ss args rest w n w' : command_line ss args rest -> stops rest ->
  main C arg0 u args w = (n, w') -> bool_value x47 ss = false -> bool_value x53 ss = false -> bool_value x56 ss = false -> bool_value x45 ss = true ->
  acts (Seal C (or_default (string_value x70 ss) (defaultKeyBase u) (str ".pub")) (string_value x6d ss) (string_value x63 ss)) w n w'.
Proof.
  intros Hc Hs H HG HS HV HE. rewrite (main_dispatch _ _ _ _ _ _ _ Hc Hs) in H. unfold dispatch in H.
  cbn [flags_of f_s f_p f_G f_S f_V f_E f_m f_c] in H. rewrite HG, HS, HV, HE, !or_default_eq in H. exact (action_acts _ _ _ _ _ _ H).
Qed.
Lemma main_open C arg0 u ss args rest w n w' : command_line ss args rest -> stops rest ->
  main C arg0 u args w = (n, w') -> bool_value x47 ss = false -> bool_value x53 ss = false -> bool_value x56 ss = false ->
  bool_value x45 ss = false -> bool_value x44 ss = true ->
  acts (Open C (or_default (string_value x73 ss) (defaultKeyBase u) (str ".sec")) (string_value x63 ss) (string_value x6d ss)) w n w'.
Proof.
  intros Hc Hs H HG HS HV HE HD. rewrite (main_dispatch _ _ _ _ _ _ _ Hc Hs) in H. unfold dispatch in H.
  cbn [flags_of f_s f_p f_G f_S f_V f_E f_D f_m f_c] in H. rewrite HG, HS, HV, HE, HD, !or_default_eq in H. exact (action_acts _ _ _ _ _ _ H).
Qed.
Lemma main_none C arg0 u ss args rest w n w' : command_line ss args rest -> stops rest ->
  main C arg0 u args w = (n, w') -> bool_value x47 ss = false -> bool_value x53 ss = false -> bool_value x56 ss = false ->
  bool_value x45 ss = false -> bool_value x44 ss = false ->
  n = 1 /\ exists t, w' = emit w (EvErr t).
Proof.
  intros Hc Hs H HG HS HV HE HD. rewrite (main_dispatch _ _ _ _ _ _ _ Hc Hs) in H. unfold dispatch in H.
  cbn [flags_of f_s f_p f_G f_S f_V f_E f_D f_m f_c] in H. rewrite HG, HS, HV, HE, HD in H. injection H as <- <-. eauto.
Qed.

Lemma main_generate_n C arg0 u ss args rest w n w' : command_line ss args rest -> stops rest ->
  main C arg0 u args w = (n, w') -> bool_value x47 ss = true -> bool_value x6e ss = true ->
  let k := or_default (string_value x70 ss) (defaultKeyBase u) (str ".pub") in
  (k <> [] -> acts (GenerateKey C k [] None) w n w') /\ (k = [] -> n = 1 /\ exists t, w' = emit w (EvErr t)).
Proof.
  intros Hc Hs H HG Hn k. rewrite (main_dispatch _ _ _ _ _ _ _ Hc Hs) in H. unfold dispatch in H.
  cbn [flags_of f_s f_p f_G f_n] in H. rewrite HG, Hn, !or_default_eq in H. fold k in H. unfold generateAction in H. split.
  - intro N. destruct k; [contradiction|]. cbn [isEmpty] in H. exact (action_acts _ _ _ _ _ _ H).
  - intros ->. injection H as <- <-. eauto.
Qed.

(* without -n the passphrase has to be entered twice *)
Lemma prompt_outcome w :
  (exists pass tl i w1, w_tty w = Ok pass :: Ok pass :: tl /\ PassphrasePrompt true w = (Ok i, w1) /\
     buf_get i w1 = (Ok pass, w1) /\
     w_fs w1 = w_fs w /\ w_rng w1 = w_rng w /\ w_faults w1 = w_faults w /\ w_tty w1 = tl) \/
  ((forall pass tl, w_tty w <> Ok pass :: Ok pass :: tl) /\
   exists r w1, PassphrasePrompt true w = (r, w1) /\ (forall i, r <> Ok i) /\ w_fs w1 = w_fs w).
Proof.
  rewrite prompt_true. destruct (w_tty w) as [|[a|e|] t]; [| | |];
    try (right; split; [discriminate|]; eexists; eexists; split; [reflexivity|]; split; [discriminate|reflexivity]).
  destruct t as [|[b|e|] t]; cbv zeta;
    try (right; split; [discriminate|]; eexists; eexists; split; [reflexivity|]; split; [discriminate|reflexivity]).
  destruct (bytes_eqb a b) eqn:E.
  - apply bytes_eqb_eq in E. subst b. left. exists a, t. eexists. eexists. split; [reflexivity|]. split; [reflexivity|].
    split; [|repeat split]. unfold buf_get. cbn [w_bufs set_bufs].
    rewrite nth_error_app2, Nat.sub_diag by lia. reflexivity.
  - apply bytes_eqb_neq in E. right. split; [intros pass tl X; injection X; intros; congruence|].
    eexists; eexists; split; [reflexivity|]; split; [discriminate|reflexivity].
Qed.

Lemma generate_asks C k w n w' : k <> [] -> generateAction C k false w = (n, w') ->
  (exists pass tl w1, w_tty w = Ok pass :: Ok pass :: tl /\ acts (GenerateKey C k pass None) w1 n w' /\
     w_fs w1 = w_fs w /\ w_rng w1 = w_rng w /\ w_faults w1 = w_faults w /\ w_tty w1 = tl) \/
  ((forall pass tl, w_tty w <> Ok pass :: Ok pass :: tl) /\ n <> 0 /\ w_fs w' = w_fs w).
Proof.
  intros Hk H. unfold generateAction in H.
  assert (Ek : isEmpty k = false) by (destruct k; [contradiction|reflexivity]). rewrite Ek in H.
  destruct (prompt_outcome w) as [(pass & tl & i & w1 & E1 & E2 & E3 & F1 & F2 & F3 & F4)|(N & r & w1 & E & Nr & F)].
  - left. exists pass, tl, w1. rewrite E2, E3 in H. split; [exact E1|].
    split; [exact (action_acts _ _ _ _ _ _ H)|]. auto.
  - right. split; [exact N|]. rewrite E in H. destruct r as [i|e|]; [exfalso; exact (Nr i eq_refl)| |].
    + apply pair_equal_spec in H. destruct H as [<- <-]. split; [discriminate|exact F].
    + apply pair_equal_spec in H. destruct H as [<- <-]. split; [discriminate|exact F].
Qed.

Lemma main_generate C arg0 u ss args rest w n w' : command_line ss args rest -> stops rest ->
  main C arg0 u args w = (n, w') -> bool_value x47 ss = true -> bool_value x6e ss = false ->
  let k := or_default (string_value x70 ss) (defaultKeyBase u) (str ".pub") in k <> [] ->
  (exists pass tl w1, w_tty w = Ok pass :: Ok pass :: tl /\ acts (GenerateKey C k pass None) w1 n w' /\
     w_fs w1 = w_fs w /\ w_rng w1 = w_rng w /\ w_faults w1 = w_faults w /\ w_tty w1 = tl) \/
  ((forall pass tl, w_tty w <> Ok pass :: Ok pass :: tl) /\ n <> 0 /\ w_fs w' = w_fs w).
Proof.
  intros Hc Hs H HG Hn k Hk. rewrite (main_dispatch _ _ _ _ _ _ _ Hc Hs) in H. unfold dispatch in H.
  cbn [flags_of f_s f_p f_G f_n] in H. rewrite HG, Hn, !or_default_eq in H. exact (generate_asks _ _ _ _ _ Hk H).
Qed.

(* -G without a name for the key pair *)
Lemma main_generate_unnamed C arg0 u ss args rest w n w' : command_line ss args rest -> stops rest ->
  main C arg0 u args w = (n, w') -> bool_value x47 ss = true ->
  or_default (string_value x70 ss) (defaultKeyBase u) (str ".pub") = [] ->
  n = 1 /\ exists t, w' = emit w (EvErr t).
Proof.
  intros Hc Hs H HG Hk. rewrite (main_dispatch _ _ _ _ _ _ _ Hc Hs) in H. unfold dispatch in H.
  cbn [flags_of f_s f_p f_G f_n] in H. rewrite HG, !or_default_eq, Hk in H. unfold generateAction in H. cbn [isEmpty] in H.
  injection H as <- <-. eauto.
Qed.

Lemma main_malformed C arg0 u ss args rest w n w' : command_line ss args rest -> malformed rest ->
  main C arg0 u args w = (n, w') ->
  n = 0 /\ exists outs, Forall is_text outs /\
    w' = World (w_fs w) (w_faults w) (w_rng w) (w_tty w) (w_bufs w) (w_fds w) (w_log w ++ outs).
Proof.
  intros Hc Hm H. unfold main in H. destruct (flagParse_malformed _ _ _ Hc Hm) as (msg & E). rewrite E in H.
  injection H as <- <-. split; [reflexivity|]. destruct msg as [|c msg].
  - exists [EvOut (usageText arg0)]. split; [repeat constructor|reflexivity].
  - exists [EvErr (c :: msg); EvOut (usageText arg0)]. split; [repeat constructor|].
    unfold emit. cbn [w_fs w_faults w_rng w_tty w_bufs w_fds w_log]. rewrite <- app_assoc. reflexivity.
Qed.

(* ---- C49 ---- *)
(* -G without -p writes <base>.pub.sec and <base>.pub.pub and nothing else *)
Lemma acts_fs m w n w' : acts m w n w' -> w_fs w' = w_fs (snd (m w)).
Proof. intros (r & w1 & outs & E & F & _). rewrite E. exact F. Qed.

Lemma main_generate_default C arg0 u ss args rest w w' : LengthLaws C ->
  command_line ss args rest -> stops rest -> main C arg0 u args w = (0, w') ->
  bool_value x47 ss = true -> string_value x70 ss = [] ->
  let b := defaultKeyBase u in b <> [] ->
  (exists priv pub, contents w' (b ++ str ".pub.sec") (sec_file priv) /\ contents w' (b ++ str ".pub.pub") (pub_file pub) /\
     readPrivateKeyFile (sec_file priv) = Ok priv /\ readPublicKeyFile (pub_file pub) = Ok pub) /\
  (forall q, q <> b ++ str ".pub.sec" -> q <> b ++ str ".pub.pub" -> w_fs w' q = w_fs w q).
Proof.
  intros LL Hc Hs H HG Hp b Hb.
  assert (Ek : or_default (string_value x70 ss) (defaultKeyBase u) (str ".pub") = b ++ str ".pub").
  { rewrite Hp. unfold or_default. fold b. destruct b; [contradiction|reflexivity]. }
  assert (Nk : b ++ str ".pub" <> []) by (destruct b; discriminate).
  assert (Main : forall pass w1 , w_fs w1 = w_fs w -> acts (GenerateKey C (b ++ str ".pub") pass None) w1 0 w' ->
    (exists priv pub, contents w' (b ++ str ".pub.sec") (sec_file priv) /\ contents w' (b ++ str ".pub.pub") (pub_file pub) /\
     readPrivateKeyFile (sec_file priv) = Ok priv /\ readPublicKeyFile (pub_file pub) = Ok pub) /\
    (forall q, q <> b ++ str ".pub.sec" -> q <> b ++ str ".pub.pub" -> w_fs w' q = w_fs w q)).
  { intros pass w1 E1 (r & w2 & outs & E & F & _ & _ & (R0 & _) & _). rewrite (R0 eq_refl) in E. clear R0.
    assert (P1 : sec_path (b ++ str ".pub") = b ++ str ".pub.sec") by (unfold sec_path; rewrite <- app_assoc; reflexivity).
    assert (P2 : pub_path (b ++ str ".pub") = b ++ str ".pub.pub") by (unfold pub_path; rewrite <- app_assoc; reflexivity).
    split.
    - destruct (GenerateKey_success _ _ _ _ _ _ LL E) as (priv & pub & w0 & GK & S1 & S2 & R1 & R2).
      rewrite P1, P2, <- F in *. exists priv, pub. split; [eexists; exact S1|]. split; [eexists; exact S2|]. auto.
    - intros q Q1 Q2. rewrite F, <- E1. apply (GenerateKey_other _ _ _ _ _ _ _ _ E); [rewrite P1|rewrite P2]; assumption. }
  destruct (bool_value x6e ss) eqn:Hn.
  - destruct (main_generate_n _ _ _ _ _ _ _ _ _ Hc Hs H HG Hn) as [A _]. rewrite Ek in A. exact (Main [] w eq_refl (A Nk)).
  - pose proof (main_generate _ _ _ _ _ _ _ _ _ Hc Hs H HG Hn) as A. rewrite Ek in A.
    destruct (A Nk) as [(pass & tl & w1 & _ & B & E1 & _)|(_ & X & _)]; [exact (Main pass w1 E1 B)|contradiction X; reflexivity].
Qed.

(* after that, -S without -s does not find a key unless there already was one *)
Lemma default_not_found C arg0 u ss args rest w w' ss2 args2 rest2 arg0' n w2 : LengthLaws C ->
  command_line ss args rest -> stops rest -> main C arg0 u args w = (0, w') ->
  bool_value x47 ss = true -> string_value x70 ss = [] ->
  let b := defaultKeyBase u in b <> [] -> w_fs w (b ++ str ".sec") = None ->
  command_line ss2 args2 rest2 -> stops rest2 -> main C arg0' u args2 w' = (n, w2) ->
  bool_value x47 ss2 = false -> bool_value x53 ss2 = true -> string_value x73 ss2 = [] ->
  n = 1 /\ w_fs w2 = w_fs w'.
Proof.
  intros LL Hc Hs H HG Hp b Hb Hno Hc2 Hs2 H2 HG2 HS2 Hs0.
  destruct (main_generate_default _ _ _ _ _ _ _ _ LL Hc Hs H HG Hp Hb) as [_ O]. fold b in O.
  assert (Ek : or_default (string_value x73 ss2) (defaultKeyBase u) (str ".sec") = b ++ str ".sec").
  { rewrite Hs0. unfold or_default. fold b. destruct b; [contradiction|reflexivity]. }
  assert (Nk : b ++ str ".sec" <> []) by (destruct b; discriminate).
  assert (No : w_fs w' (b ++ str ".sec") = None).
  { rewrite O; [exact Hno| |]; intro X; apply app_inv_head in X; discriminate. }
  destruct (main_sign _ _ _ _ _ _ _ _ _ Hc2 Hs2 H2 HG2 HS2) as [A B]. rewrite Ek in A, B.
  destruct (string_value x6d ss2) as [|c m] eqn:Em.
  { destruct (B (or_intror eq_refl)) as [-> (t & ->)]. split; reflexivity. }
  assert (Nm : c :: m <> []) by (intro Y; inversion Y).
  destruct (A (conj Nk Nm)) as (r & w1 & outs & E & F & _ & _ & _ & (_ & R1) & _).
  assert (X : exists e, r = Err e /\ w_fs w1 = w_fs w').
  { unfold Sign, bind in E. rewrite LoadPrivateKey_eq in E. unfold ReadFile, pop_fault in E.
    destruct (w_faults w') as [|[|k|k] fl]; cbn [w_fs set_faults] in E; rewrite ?No in E; injection E as <- <-; eexists; split; reflexivity. }
  destruct X as (e & -> & X). split; [apply R1; eexists; reflexivity|]. rewrite F. exact X.
Qed.

(* ---- the default key base ---- *)

Lemma split_slash_free a : ~ In slash a -> forall cur, split_slash cur a = [rev cur ++ a].
Proof.
  induction a as [|x a IH]; intros H cur; cbn [split_slash]; [rewrite app_nil_r; reflexivity|].
  destruct (beqb x slash) eqn:E; [apply beqb_eq in E; subst; exfalso; apply H; left; reflexivity|].
  rewrite IH by (intro X; apply H; right; exact X). cbn [rev]. rewrite <- app_assoc. reflexivity.
Qed.
Lemma split_slash_app a b : ~ In slash a -> forall cur, split_slash cur (a ++ slash :: b) = (rev cur ++ a) :: split_slash [] b.
Proof.
  induction a as [|x a IH]; intros H cur; cbn [app split_slash].
  - change (beqb slash slash) with true. cbn iota. rewrite app_nil_r. reflexivity.
  - destruct (beqb x slash) eqn:E; [apply beqb_eq in E; subst; exfalso; apply H; left; reflexivity|].
    rewrite IH by (intro X; apply H; right; exact X). cbn [rev]. rewrite <- app_assoc. reflexivity.
Qed.
Lemma split_join cs : cs <> [] -> Forall (fun c => ~ In slash c) cs -> split_slash [] (join_slash cs) = cs.
Proof.
  intros H F. induction cs as [|c cs IH]; [contradiction|]. inversion F as [|? ? F1 F2]; subst.
  destruct cs as [|d cs]; [cbn [join_slash]; rewrite split_slash_free by exact F1; reflexivity|].
  change (join_slash (c :: d :: cs)) with (c ++ slash :: join_slash (d :: cs)).
  rewrite split_slash_app by exact F1. rewrite IH by (discriminate || exact F2). reflexivity.
Qed.
Lemma clean_plain r cs : Forall plain_name cs -> forall acc, clean_comps r acc cs = rev acc ++ cs.
Proof.
  induction 1 as [|c cs (P1 & P2 & P3 & P4) _ IH]; intro acc; cbn [clean_comps]; [rewrite app_nil_r; reflexivity|].
  assert (E1 : bytes_eqb c [] = false) by (apply bytes_eqb_neq, P1).
  assert (E2 : bytes_eqb c dot = false) by (apply bytes_eqb_neq, P3).
  assert (E3 : bytes_eqb c dotdot = false) by (apply bytes_eqb_neq, P4).
  rewrite E1, E2, E3. cbn [orb]. rewrite IH. cbn [rev]. rewrite <- app_assoc. reflexivity.
Qed.
Lemma rooted_join cs : cs <> [] -> rooted cs = slash :: join_slash cs.
Proof.
  intro H. induction cs as [|c cs IH]; [contradiction|]. unfold rooted in *. cbn [map concat app].
  destruct cs as [|d cs]; [cbn; rewrite app_nil_r; reflexivity|]. rewrite IH by discriminate. reflexivity.
Qed.
Lemma join_app a b : a <> [] -> b <> [] -> join_slash (a ++ b) = join_slash a ++ slash :: join_slash b.
Proof.
  intros Ha Hb. induction a as [|c a IH]; [contradiction|]. destruct a as [|d a].
  - cbn [app]. destruct b; [contradiction|reflexivity].
  - change ((c :: d :: a) ++ b) with (c :: (d :: a) ++ b). 
    change (join_slash (c :: (d :: a) ++ b)) with (c ++ slash :: join_slash ((d :: a) ++ b)).
    rewrite IH by discriminate. change (join_slash (c :: d :: a)) with (c ++ slash :: join_slash (d :: a)). rewrite <- app_assoc. reflexivity.
Qed.

Lemma Clean_rooted cs : cs <> [] -> Forall plain_name cs -> Clean (rooted cs) = rooted cs.
Proof.
  intros H F. rewrite rooted_join by exact H. unfold Clean. change (beqb slash slash) with true. cbn iota.
  change (split_slash [] (slash :: join_slash cs)) with ([] :: split_slash [] (join_slash cs)).
  rewrite split_join; [|exact H|eapply Forall_impl; [|exact F]; intros c (_ & P & _); exact P].
  cbn [clean_comps]. change (bytes_eqb [] []) with true. cbn [orb]. rewrite clean_plain by exact F. reflexivity.
Qed.

Lemma default_base cs name : cs <> [] -> Forall plain_name cs -> plain_name name ->
  defaultKeyBase (Some (rooted cs, name)) = rooted cs ++ str "/.signify/" ++ name.
Proof.
  intros H F P. 
  assert (Ec : rooted (cs ++ [str ".signify"; name]) = rooted cs ++ str "/.signify/" ++ name).
  { unfold rooted. rewrite map_app, concat_app. f_equal. cbn [map concat]. rewrite app_nil_r. reflexivity. }
  rewrite <- Ec, <- (Clean_rooted (cs ++ [str ".signify"; name])).
  - unfold defaultKeyBase. rewrite (rooted_join cs) by exact H. cbn [Join]. f_equal.
    rewrite (rooted_join (cs ++ _)) by (destruct cs; discriminate). rewrite join_app by (exact H || discriminate). reflexivity.
  - destruct cs; discriminate.
  - apply Forall_app. split; [exact F|]. constructor; [|constructor; [exact P|constructor]].
    repeat split; try discriminate. intro X. vm_compute in X. intuition discriminate.
Qed.

(* ---- C48: -V with a malformed flag ---- *)
From Verif Require Import ToyCrypto.
Lemma zero_unverified : exists C arg0 u ss args rest w w',
  LengthLaws C /\ EdCorrect C /\ command_line ss args rest /\ bool_value x47 ss = false /\
  bool_value x53 ss = false /\ bool_value x56 ss = true /\
  main C arg0 u args w = (0, w') /\
  forall w2, Verify C (string_value x70 ss) (string_value x6d ss) (string_value x78 ss) w <> (Ok tt, w2).
Proof.
  exists toy, (str "psignify"), None, [SetB x56 true; SetS x70 (str "k.pub")], [str "-V"; str "-p"; str "k.pub"; str "-message"; str "m"], [str "-message"; str "m"].
  exists (World (fun _ => None) [] [] [] [] [] []). eexists. split; [exact toy_lengths|]. split; [exact toy_ed|]. split.
  { exists [[str "-V"]; [str "-p"; str "k.pub"]]. split; [|reflexivity].
    repeat (apply Forall2_cons || apply Forall2_nil).
    - apply (ren_bool (str "-") x56); [left; reflexivity|vm_compute; auto 10].
    - apply (ren_next (str "-") x70 (str "k.pub")); [left; reflexivity|vm_compute; auto 10]. }
  do 3 (split; [reflexivity|]). split; [vm_compute; reflexivity|]. intros w2 H. vm_compute in H. discriminate.
Qed.
