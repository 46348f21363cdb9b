(* Specification of the file and key formats, independent of the model. *)
From Verif Require Export Bytes.

(* bytes [off, off+n) *)
Definition slice (off n : nat) (l : bytes) : bytes := firstn n (skipn off l).

(* first n bytes of l, filled up with zero bytes if l is shorter *)
Definition zero_extend (n : nat) (l : bytes) : bytes :=
  firstn n l ++ repeat x00 (n - length l).

Definition lf_free (l : bytes) : Prop := ~ In x0a l.
(* l without one carriage return at its end, if it ends with one *)
Definition without_cr (l : bytes) : bytes :=
  match rev l with x0d :: r => rev r | _ => l end.

(* X25519 clamping of a 32-byte string: clear bits 0, 1, 2 and 255, set bit 254 *)
Definition clamped (k : bytes) : Prop :=
  length k = 32%nat /\ b2z (nth 0 k x00) mod 8 = 0 /\
  64 <= b2z (nth 31 k x00) < 128.
(* equal except in the clamped bits *)
Definition clamp_of (h k : bytes) : Prop :=
  length h = 32%nat /\ clamped k /\
  b2z (nth 0 k x00) / 8 = b2z (nth 0 h x00) / 8 /\
  b2z (nth 31 k x00) mod 64 = b2z (nth 31 h x00) mod 64 /\
  slice 1 30 k = slice 1 30 h.

(* the part of a path after its last slash *)
Definition last_component (p b : bytes) : Prop :=
  ~ In x2f b /\ exists d, p = d ++ b /\ (d = [] \/ exists d', d = d' ++ [x2f]).

(* the name written into the comment of a signature made with the key at path k:
   the last component of k with the ending ".sec" (if any) replaced by ".pub" *)
Definition pub_name (k n : bytes) : Prop :=
  exists x, (k = x ++ str ".sec" \/ ((forall y, k <> y ++ str ".sec") /\ x = k)) /\
            last_component (x ++ str ".pub") n.
