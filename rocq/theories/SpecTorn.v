(* A file of which only a first part is there: how much of the payload it holds. *)
From Verif Require Export SpecFmt Keys.

(* Of a file with a comment line of lc characters and a payload line for n bytes the first k bytes hold
   exactly j complete groups of four payload characters and no part of another one. *)
Definition groups_left (lc n k j : nat) : Prop :=
  (1 <= j <= (n + 2) / 3)%nat /\ (k = lc + 1 + 4 * j \/ (j = (n + 2) / 3 /\ lc + 1 + 4 * j <= k))%nat.

(* "", "untr" and "untruste" are themselves base64 text *)
Definition small_cut (k : nat) : Prop := (k = 0 \/ k = 4 \/ k = 8)%nat.

(* a key, and a signature, of which only the first n bytes are left *)
Definition cut_private (p : Private) (n : nat) : Private :=
  Priv (keyAlgo p) (kdfAlgo p) (kdfRounds p) (salt p) (checksum p) (keyNum p) (zero_extend 64 (firstn n (key p))).
Definition cut_signature (s : Signature) (n : nat) : Signature :=
  Sig (pkAlgo s) (s_keyNum s) (zero_extend 64 (firstn n (sig s))).
