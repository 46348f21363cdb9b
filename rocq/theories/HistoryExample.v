(* A history to show that the hypotheses of C96 can be met. *)
From Verif Require Import CmdFacts PrintFacts SignWitness.
From Verif Require Export HistoryFacts.
Local Open Scope Z_scope.

Definition hist_start : world := start [(str "m", str "attack at dawn"); (str "k.pub", str "old")] [Ok (str "pw"); Ok (str "pw")] (rng_new ++ rng_old).
Definition hist_made : world := snd (main toy (str "psignify") None [str "-G"; str "-p"; str "k"] hist_start).
(* then someone else's key is made, the message verified in vain, and a mistake made *)
Definition hist_1 : world := snd (main toy (str "psignify") None [str "-G"; str "-n"; str "-p=other"] (World (w_fs hist_made) [] (rng_old ++ rng_new) [] [] [] [])).
Definition hist_2 : world := snd (main toy (str "psignify") None [str "-V"; str "-p"; str "k.pub"; str "-m"; str "m"] (World (w_fs hist_1) [FOk] [] [] [] [] [])).
Definition hist_3 : world := snd (main toy (str "psignify") None [str "-S"; str "-q"] (World (w_fs hist_2) [] [] [] [] [] [])).
Definition hist_then : world := World (fs_create (w_fs hist_3) (str "note") 420) [] (rng_new ++ rng_old) [Ok (str "pw")] [] [] [].
Definition hist_events : list happening :=
  [Psignify None [str "-G"; str "-n"; str "-p=other"] 0; Psignify None [str "-V"; str "-p"; str "k.pub"; str "-m"; str "m"] 1;
   Psignify None [str "-S"; str "-q"] 0; Others [str "note"]].

Definition hist_G : list setting := [SetB x47 true; SetS x70 (str "k")].
Definition hist_S : list setting := [SetB x53 true; SetS x73 (str "k.sec"); SetS x6d (str "m")].
Definition hist_V : list setting := [SetB x56 true; SetS x70 (str "k.pub"); SetS x6d (str "m"); SetS x78 (str "m.sig")].
Definition hist_E : list setting := [SetB x45 true; SetS x70 (str "k.pub"); SetS x6d (str "m")].
Definition hist_D : list setting := [SetB x44 true; SetS x73 (str "k.sec"); SetS x63 (str "m.enc"); SetS x6d (str "out")].
Definition hist_argv (ss : list setting) : list bytes :=
  concat (map (fun s => match s with SetB c _ => [[x2d; c]] | SetS c v => [[x2d; c]; v] end) ss).

Lemma hist_line ss : Forall (fun s => match s with SetB c v => v = true /\ bool_flag c | SetS c _ => string_flag c end) ss -> command_line ss (hist_argv ss) [].
Proof.
  intro H. exists (map (fun s => match s with SetB c _ => [[x2d; c]] | SetS c v => [[x2d; c]; v] end) ss). split; [|unfold hist_argv; rewrite app_nil_r; reflexivity].
  induction H as [|s ss Hs H IH]; [constructor|]. cbn [map]. constructor; [|exact IH]. destruct s as [c v|c v].
  - apply (ren_next (str "-") c v); [left; reflexivity|exact Hs].
  - destruct Hs as [-> Hs]. apply (ren_bool (str "-") c); [left; reflexivity|exact Hs].
Qed.

Lemma hist_run arg0 u args w n l v fs0 fs : fs0 = w_fs w -> fst (main toy arg0 u args w) = n -> v = snd (main toy arg0 u args w) -> history toy (w_fs v) l fs ->
  history toy fs0 (Psignify u args n :: l) fs.
Proof.
  intros -> E -> H. destruct (main toy arg0 u args w) as [a b] eqn:M. cbn [fst snd] in *. subst a. exact (HRun toy arg0 u args w n b l fs M H).
Qed.
Lemma hist_happens : history toy (w_fs hist_made) hist_events (w_fs hist_then).
Proof.
  unfold hist_events.
  apply (hist_run (str "psignify") None _ (World (w_fs hist_made) [] (rng_old ++ rng_new) [] [] [] []) _ _ hist_1); [cbn [w_fs]; reflexivity|vm_compute; reflexivity|unfold hist_1; reflexivity|].
  apply (hist_run (str "psignify") None _ (World (w_fs hist_1) [FOk] [] [] [] [] []) _ _ hist_2); [cbn [w_fs]; reflexivity|vm_compute; reflexivity|unfold hist_2; reflexivity|].
  apply (hist_run (str "psignify") None _ (World (w_fs hist_2) [] [] [] [] [] []) _ _ hist_3); [cbn [w_fs]; reflexivity|vm_compute; reflexivity|unfold hist_3; reflexivity|].
  apply (HOthers toy (w_fs hist_3) [str "note"] (w_fs hist_then)); [|apply HNil].
  intros p N. unfold hist_then. cbn [w_fs]. unfold fs_create. destruct (bytes_eqb p (str "note")) eqn:E; [|reflexivity].
  apply bytes_eqb_eq in E. subst p. destruct N. left. reflexivity.
Qed.

Lemma hist_called ss w n :
  Forall (fun s => match s with SetB c v => v = true /\ bool_flag c | SetS c _ => string_flag c end) ss ->
  fst (main toy (str "psignify") None (hist_argv ss) w) = n -> called toy None ss w n (snd (main toy (str "psignify") None (hist_argv ss) w)).
Proof.
  intros H E. exists (str "psignify"), (hist_argv ss), []. split; [apply hist_line, H|]. split; [constructor|].
  destruct (main toy (str "psignify") None (hist_argv ss) w) as [a b]. cbn in *. congruence.
Qed.

Ltac flags_ok := unfold hist_G, hist_S, hist_E; repeat (apply Forall_cons; [cbv; tauto|]); apply Forall_nil.
Lemma hist_meets :
  called toy None hist_G hist_start 0 hist_made /\ mode hist_G x47 /\ public_key None hist_G = str "k" /\ chosen hist_G hist_start (str "pw") /\
  history toy (w_fs hist_made) hist_events (w_fs hist_then) /\ spares (str "k.sec") hist_events /\ spares (str "k.pub") hist_events /\
  mode hist_S x53 /\ secret_key None hist_S = str "k.sec" /\ signature_name hist_S = str "m.sig" /\
  mode hist_E x45 /\ public_key None hist_E = str "k.pub" /\ sealed_name hist_E = str "m.enc" /\
  given hist_then (str "pw") /\ no_faults hist_then /\ (32 <= length (w_rng hist_then))%nat /\
  contents hist_then (str "m") (str "attack at dawn") /\ not_mistaken toy (str "pw") None (w_rng hist_start) /\
  (exists v, called toy None hist_S hist_then 0 v) /\ (exists v, called toy None hist_E hist_then 0 v) /\
  mode hist_V x56 /\ signature_name hist_V = signature_name hist_S /\ mode hist_D x44 /\
  last_component (str "k.pub") (str "k.pub") /\ lf_free (str "k.pub").
Proof.
  split.
  { unfold hist_made. change [str "-G"; str "-p"; str "k"] with (hist_argv hist_G). apply hist_called; [|vm_compute; reflexivity].
    flags_ok. }
  split; [apply mode_G; reflexivity|]. split; [reflexivity|]. split; [right; split; [reflexivity|exists []; reflexivity]|].
  split; [exact hist_happens|]. split; [apply avoided_spares; vm_compute; reflexivity|]. split; [apply avoided_spares; vm_compute; reflexivity|].
  split; [apply mode_S; reflexivity|]. split; [reflexivity|]. split; [reflexivity|]. split; [apply mode_E; reflexivity|]. split; [reflexivity|]. split; [reflexivity|].
  split; [intros _; exists []; reflexivity|]. split; [reflexivity|]. split; [apply Nat.leb_le; vm_compute; reflexivity|].
  split; [exists 420; vm_compute; reflexivity|]. split; [intros _; vm_compute; discriminate|].
  split; [eexists; apply hist_called; [flags_ok|vm_compute; reflexivity]|].
  split; [eexists; apply hist_called; [flags_ok|vm_compute; reflexivity]|].
  split; [apply mode_V; reflexivity|]. split; [reflexivity|]. split; [apply mode_D; reflexivity|].
  split; [|intro X; vm_compute in X; intuition discriminate]. split; [intro X; vm_compute in X; intuition discriminate|]. exists []. split; [reflexivity|left; reflexivity].
Qed.
Lemma hist_unspared : ~ spares (str "m.sig") [Psignify None [str "-S"; str "-s"; str "k.sec"; str "-m"; str "m"] 0] /\ ~ spares (str "note") hist_events.
Proof.
  split.
  - intros [A _]. apply (A None (hist_argv hist_S) 0 hist_S [] (or_introl eq_refl)); [|constructor|exact (ForSignature None hist_S (mode_S hist_S eq_refl eq_refl))].
    apply hist_line. flags_ok.
  - intros [_ B]. apply (B [str "note"]); [unfold hist_events; do 3 right; left; reflexivity|left; reflexivity].
Qed.

(* the key is lost by a decryption that fails *)
Lemma key_lost : exists C u args w w' f, main C (str "psignify") u args w = (1, w') /\
  args = [str "-D"; str "-s"; str "k.sec"; str "-c"; str "k.pub"; str "-m"; str "k.sec"] /\
  contents w (str "k.sec") f /\ f <> [] /\ contents w' (str "k.sec") [].
Proof.
  set (w := World (w_fs hist_made) [] [] [Ok (str "pw")] [] [] []). set (args := [str "-D"; str "-s"; str "k.sec"; str "-c"; str "k.pub"; str "-m"; str "k.sec"]).
  set (x := main toy (str "psignify") None args w).
  exists toy, None, args, w, (snd x). eexists. split; [|split; [reflexivity|split; [|split]]].
  - fold x. assert (E : fst x = 1) by (vm_compute; reflexivity). clearbody x. destruct x as [a b]. cbn in *. congruence.
  - exists 420. vm_compute. reflexivity.
  - discriminate.
  - exists 420. vm_compute. reflexivity.
Qed.
