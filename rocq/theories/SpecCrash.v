(* File systems that can be found after the machine stops during a run. *)
From Verif Require Export Go.

(* [fs'] is what is on disk when a run whose mutations are [evs] is interrupted:
   some of the mutations have happened, and of a write in progress any prefix of
   its bytes. *)
Definition crash_state (fs : path -> option file) (evs : list event) (fs' : path -> option file) : Prop :=
  exists done rest, evs = done ++ rest /\
    (fs' = replay fs done \/
     exists p b1 b2 rest', rest = EvAppend p (b1 ++ b2) :: rest' /\
       fs' = replay fs (done ++ [EvAppend p b1])).

Definition is_prefix (a b : bytes) : Prop := exists c, b = a ++ c.
