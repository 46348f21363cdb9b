(* C96: histories of any length. *)
From Verif Require Import SignWitness ToyCrypto SealWitness RealCrypto HistoryFacts HistoryExample RoundTrip CmdFacts GenFacts.
From Verif Require Export SpecHistory.
Local Open Scope Z_scope.

Theorem C96_spared : forall C fs l fs' p, history C fs l fs' -> spares p l -> fs' p = fs p.
Proof. exact history_spares. Qed.
Print Assumptions C96_spared.

Theorem C96_kept : forall C fs l fs' p, history C fs l fs' -> (forall ps, In (Others ps) l -> ~ In p ps) -> fs p <> None -> fs' p <> None.
Proof. exact history_keeps. Qed.
Print Assumptions C96_kept.

Theorem C96_verifies : forall C fs l fs' p, history C fs l fs' -> only_verifies l -> fs' p = fs p.
Proof. exact history_verifies. Qed.
Print Assumptions C96_verifies.

Theorem C96_verdict : forall C l u ss w n v u' ss' w' n' v', history C (w_fs w) l (w_fs w') ->
  spares (public_key u ss) l -> spares (message_name ss) l -> spares (signature_name ss) l ->
  called C u ss w n v -> called C u' ss' w' n' v' -> mode ss x56 -> mode ss' x56 ->
  public_key u' ss' = public_key u ss -> message_name ss' = message_name ss -> signature_name ss' = signature_name ss ->
  undisturbed 3 w -> undisturbed 3 w' -> n' = n.
Proof. exact verdict_lasts. Qed.
Print Assumptions C96_verdict.

Theorem C96_signature : forall C k pass u1 ss1 w1 v1 l1 u2 ss2 w2 m n n2 v2,
  LengthLaws C -> EdCorrect C ->
  called C u1 ss1 w1 0 v1 -> mode ss1 x47 -> public_key u1 ss1 = k -> chosen ss1 w1 pass ->
  history C (w_fs v1) l1 (w_fs w2) -> spares (k ++ str ".sec") l1 -> spares (k ++ str ".pub") l1 ->
  called C u2 ss2 w2 n2 v2 -> mode ss2 x53 -> secret_key u2 ss2 = k ++ str ".sec" -> given w2 pass -> no_faults w2 ->
  contents w2 (message_name ss2) m -> message_name ss2 <> [] ->
  signature_name ss2 <> k ++ str ".pub" -> signature_name ss2 <> message_name ss2 ->
  last_component (k ++ str ".pub") n -> lf_free n -> Z.of_nat (length n) <= 65000 ->
  n2 = 0 /\
  forall l2 u3 ss3 w3 n3 v3, history C (w_fs v2) l2 (w_fs w3) ->
    spares (k ++ str ".pub") l2 -> spares (message_name ss2) l2 -> spares (signature_name ss2) l2 ->
    called C u3 ss3 w3 n3 v3 -> mode ss3 x56 -> public_key u3 ss3 = k ++ str ".pub" ->
    message_name ss3 = message_name ss2 -> signature_name ss3 = signature_name ss2 -> undisturbed 3 w3 ->
    n3 = 0 /\ w_log v3 = w_log w3 ++ [EvOut (line (message_name ss3 ++ str ": OK"))].
Proof. exact signature_lasts. Qed.
Print Assumptions C96_signature.

Theorem C96_secret : forall C k pass u1 ss1 w1 v1 l1 u2 ss2 w2 m n2 v2,
  LengthLaws C -> BoxTidy C -> BoxCorrect C -> DHCorrect C -> ToBoxAgree C ->
  called C u1 ss1 w1 0 v1 -> mode ss1 x47 -> public_key u1 ss1 = k -> chosen ss1 w1 pass -> not_mistaken C pass None (w_rng w1) ->
  history C (w_fs v1) l1 (w_fs w2) -> spares (k ++ str ".sec") l1 -> spares (k ++ str ".pub") l1 ->
  called C u2 ss2 w2 n2 v2 -> mode ss2 x45 -> public_key u2 ss2 = k ++ str ".pub" -> no_faults w2 -> (32 <= length (w_rng w2))%nat ->
  contents w2 (message_name ss2) m -> m <> [] -> Z.of_nat (length m) < 2 ^ 63 ->
  sealed_name ss2 <> message_name ss2 -> sealed_name ss2 <> k ++ str ".sec" ->
  n2 = 0 /\
  forall l2 u3 ss3 w3 n3 v3, history C (w_fs v2) l2 (w_fs w3) ->
    spares (k ++ str ".sec") l2 -> spares (sealed_name ss2) l2 ->
    called C u3 ss3 w3 n3 v3 -> mode ss3 x44 -> secret_key u3 ss3 = k ++ str ".sec" -> given w3 pass -> no_faults w3 ->
    string_value x63 ss3 = sealed_name ss2 -> message_name ss3 <> [] -> message_name ss3 <> sealed_name ss2 ->
    n3 = 0 /\ contents v3 (message_name ss3) m.
Proof. exact secret_lasts. Qed.
Print Assumptions C96_secret.

(* with the primitives of C71 *)
Theorem C96_signature_real : forall k pass u1 ss1 w1 v1 l1 u2 ss2 w2 m n n2 v2,
  called real u1 ss1 w1 0 v1 -> mode ss1 x47 -> public_key u1 ss1 = k -> chosen ss1 w1 pass ->
  history real (w_fs v1) l1 (w_fs w2) -> spares (k ++ str ".sec") l1 -> spares (k ++ str ".pub") l1 ->
  called real u2 ss2 w2 n2 v2 -> mode ss2 x53 -> secret_key u2 ss2 = k ++ str ".sec" -> given w2 pass -> no_faults w2 ->
  contents w2 (message_name ss2) m -> message_name ss2 <> [] ->
  signature_name ss2 <> k ++ str ".pub" -> signature_name ss2 <> message_name ss2 ->
  last_component (k ++ str ".pub") n -> lf_free n -> Z.of_nat (length n) <= 65000 ->
  n2 = 0 /\
  forall l2 u3 ss3 w3 n3 v3, history real (w_fs v2) l2 (w_fs w3) ->
    spares (k ++ str ".pub") l2 -> spares (message_name ss2) l2 -> spares (signature_name ss2) l2 ->
    called real u3 ss3 w3 n3 v3 -> mode ss3 x56 -> public_key u3 ss3 = k ++ str ".pub" ->
    message_name ss3 = message_name ss2 -> signature_name ss3 = signature_name ss2 -> undisturbed 3 w3 ->
    n3 = 0 /\ w_log v3 = w_log w3 ++ [EvOut (line (message_name ss3 ++ str ": OK"))].
Proof. exact (fun k pass u1 ss1 w1 v1 l1 u2 ss2 w2 m n n2 v2 => signature_lasts real k pass u1 ss1 w1 v1 l1 u2 ss2 w2 m n n2 v2 real_lengths real_correct). Qed.
Print Assumptions C96_signature_real.

Theorem C96_secret_real : forall k pass u1 ss1 w1 v1 l1 u2 ss2 w2 m n2 v2,
  called real u1 ss1 w1 0 v1 -> mode ss1 x47 -> public_key u1 ss1 = k -> chosen ss1 w1 pass -> not_mistaken real pass None (w_rng w1) ->
  history real (w_fs v1) l1 (w_fs w2) -> spares (k ++ str ".sec") l1 -> spares (k ++ str ".pub") l1 ->
  called real u2 ss2 w2 n2 v2 -> mode ss2 x45 -> public_key u2 ss2 = k ++ str ".pub" -> no_faults w2 -> (32 <= length (w_rng w2))%nat ->
  contents w2 (message_name ss2) m -> m <> [] -> Z.of_nat (length m) < 2 ^ 63 ->
  sealed_name ss2 <> message_name ss2 -> sealed_name ss2 <> k ++ str ".sec" ->
  n2 = 0 /\
  forall l2 u3 ss3 w3 n3 v3, history real (w_fs v2) l2 (w_fs w3) ->
    spares (k ++ str ".sec") l2 -> spares (sealed_name ss2) l2 ->
    called real u3 ss3 w3 n3 v3 -> mode ss3 x44 -> secret_key u3 ss3 = k ++ str ".sec" -> given w3 pass -> no_faults w3 ->
    string_value x63 ss3 = sealed_name ss2 -> message_name ss3 <> [] -> message_name ss3 <> sealed_name ss2 ->
    n3 = 0 /\ contents v3 (message_name ss3) m.
Proof. exact (fun k pass u1 ss1 w1 v1 l1 u2 ss2 w2 m n2 v2 => secret_lasts real k pass u1 ss1 w1 v1 l1 u2 ss2 w2 m n2 v2 real_lengths real_tidy real_box real_dh real_agree). Qed.
Print Assumptions C96_secret_real.

(* a decryption that fails may cost the key it was to be made with *)
Theorem C96_key_refuted : exists C u args w w' f, main C (str "psignify") u args w = (1, w') /\
  args = [str "-D"; str "-s"; str "k.sec"; str "-c"; str "k.pub"; str "-m"; str "k.sec"] /\
  contents w (str "k.sec") f /\ f <> [] /\ contents w' (str "k.sec") [].
Proof. exact key_lost. Qed.
Print Assumptions C96_key_refuted.

Example C96_instance :
  called toy None hist_G hist_start 0 hist_made /\ mode hist_G x47 /\ public_key None hist_G = str "k" /\ chosen hist_G hist_start (str "pw") /\
  history toy (w_fs hist_made) hist_events (w_fs hist_then) /\ spares (str "k.sec") hist_events /\ spares (str "k.pub") hist_events /\
  mode hist_S x53 /\ secret_key None hist_S = str "k.sec" /\ signature_name hist_S = str "m.sig" /\
  mode hist_E x45 /\ public_key None hist_E = str "k.pub" /\ sealed_name hist_E = str "m.enc" /\
  given hist_then (str "pw") /\ no_faults hist_then /\ (32 <= length (w_rng hist_then))%nat /\
  contents hist_then (str "m") (str "attack at dawn") /\ not_mistaken toy (str "pw") None (w_rng hist_start) /\
  (exists v, called toy None hist_S hist_then 0 v) /\ (exists v, called toy None hist_E hist_then 0 v) /\
  mode hist_V x56 /\ signature_name hist_V = signature_name hist_S /\ mode hist_D x44 /\
  last_component (str "k.pub") (str "k.pub") /\ lf_free (str "k.pub").
Proof. exact hist_meets. Qed.
(* a history that does not spare a file: a signature written over, and a file changed by others *)
Example C96_not_spared : ~ spares (str "m.sig") [Psignify None [str "-S"; str "-s"; str "k.sec"; str "-m"; str "m"] 0] /\ ~ spares (str "note") hist_events.
Proof. exact hist_unspared. Qed.
