(* Property theorems: a function put in place of PassphrasePrompt (C93). *)
From Verif Require Import SpecPrompt ToyCrypto SpecFmt SignWitness PromptFacts.
Local Open Scope Z_scope.

Theorem C93_standard : forall C,
  (forall k m s w, Sign_by C PassphrasePrompt k m s w = Sign C k m s w) /\
  (forall p w, ToBox_by C PassphrasePrompt p w = priv_ToBox C p w) /\
  (forall k e m w, Open_by C PassphrasePrompt k e m w = Open C k e m w).
Proof. exact standard_by. Qed.
Print Assumptions C93_standard.

(* a function that answers ans does what typing ans at the terminal does *)
Theorem C93_sign : forall C prompt w ans, gives prompt w ans -> forall k m s,
  fst (Sign_by C prompt k m s w) = fst (Sign C k m s (typing w ans)) /\
  still (snd (Sign_by C prompt k m s w)) (snd (Sign C k m s (typing w ans))).
Proof. exact sign_by_alike. Qed.
Print Assumptions C93_sign.
Theorem C93_tobox : forall C prompt w ans, gives prompt w ans -> forall p,
  fst (ToBox_by C prompt p w) = fst (priv_ToBox C p (typing w ans)) /\
  still (snd (ToBox_by C prompt p w)) (snd (priv_ToBox C p (typing w ans))).
Proof. exact tobox_by_alike. Qed.
Print Assumptions C93_tobox.
Theorem C93_open : forall C prompt w ans, gives prompt w ans -> forall k e m,
  fst (Open_by C prompt k e m w) = fst (Open C k e m (typing w ans)) /\
  still (snd (Open_by C prompt k e m w)) (snd (Open C k e m (typing w ans))).
Proof. exact open_by_alike. Qed.
Print Assumptions C93_open.

(* it is asked once at most, without confirmation, after the key file was read, and not at all for a key without a passphrase *)
Theorem C93_once : forall C k m s w prompt prompt', prompt false (snd (ReadFile k w)) = prompt' false (snd (ReadFile k w)) ->
  Sign_by C prompt k m s w = Sign_by C prompt' k m s w.
Proof. exact sign_once. Qed.
Print Assumptions C93_once.
Theorem C93_unasked : forall C k m s w kf p, fst (ReadFile k w) = Ok kf -> readPrivateKeyFile kf = Ok p ->
  forall prompt prompt', kdfRounds p = 0 -> Sign_by C prompt k m s w = Sign_by C prompt' k m s w.
Proof. exact sign_unasked. Qed.
Print Assumptions C93_unasked.

(* Sign overwrites the buffer it got with zeros, however it ends, and no other *)
Theorem C93_wiped : forall C k m s w kf p, fst (ReadFile k w) = Ok kf -> readPrivateKeyFile kf = Ok p ->
  forall prompt i w2 pass r w', 0 < kdfRounds p -> prompt false (snd (ReadFile k w)) = (Ok i, w2) -> nth_error (w_bufs w2) i = Some pass ->
  Sign_by C prompt k m s w = (r, w') ->
  nth_error (w_bufs w') i = Some (repeat x00 (length pass)) /\ forall j, j <> i -> nth_error (w_bufs w') j = nth_error (w_bufs w2) j.
Proof. exact sign_wiped. Qed.
Print Assumptions C93_wiped.

(* so a function returning a passphrase it keeps serves one signature only; Open leaves it alone *)
Theorem C93_kept_refuted : exists C i k m s w pass w1 w2,
  LengthLaws C /\ gives (kept_pass i) w (Ok pass) /\ Sign_by C (kept_pass i) k m s w = (Ok tt, w1) /\
  w_fs w1 k = w_fs w k /\ w_fs w1 m = w_fs w m /\ w_faults w1 = [] /\
  Sign_by C (kept_pass i) k m s w1 = (Err (EMsg (str "signify: invalid private key checksum")), w2).
Proof. exact keep_refuted. Qed.
Print Assumptions C93_kept_refuted.
Theorem C93_open_again : forall C i k e m w pass, nth_error (w_bufs w) i = Some pass ->
  gives (kept_pass i) w (Ok pass) /\ gives (kept_pass i) (snd (Open_by C (kept_pass i) k e m w)) (Ok pass).
Proof. exact open_again. Qed.
Print Assumptions C93_open_again.

Example C93_instance :
  gives (kept_pass 0) keep_world (Ok (str "right")) /\
  fst (keep_sign keep_world) = Ok tt /\ fst (keep_sign (snd (keep_sign keep_world))) = Err (EMsg (str "signify: invalid private key checksum")) /\
  w_fs (snd (keep_sign keep_world)) (str "l.sec") = w_fs keep_world (str "l.sec") /\
  w_bufs (snd (keep_sign keep_world)) = [repeat x00 5].
Proof. split; [apply kept_gives; reflexivity|exact example_keep]. Qed.
