(* Reading and writing whole files, call by call. *)
From Verif Require Export Ioutil SpecCmdCalls.
From Verif Require Export SpecCalls.
Local Open Scope Z_scope.

(* a file has an end: reading it, one request of room bytes after the other, does not go on
   for more than n calls *)
Fixpoint comes_to_end (L : os) (room : list step -> nat) (n fd : nat) (h : list step) : Prop :=
  match n with
  | O => False
  | S n => match o_read L h fd (S (room h)) with
           | (_, Some _) => True
           | (b, None) => comes_to_end L room n fd (h ++ [SRead fd (S (room h)) b None])
           end
  end.
Definition files_end (L : os) (room fuel : list step -> nat) : Prop :=
  forall h fd, comes_to_end L room (fuel h) fd h.

(* successful read_pieces of the pieces ds *)
Inductive read_pieces (fd : nat) : list bytes -> list step -> Prop :=
| rd_nil : read_pieces fd [] []
| rd_cons n d ds l : read_pieces fd ds l -> read_pieces fd (d :: ds) (SRead fd (S n) d None :: l).

(* the calls of ReadFile p with the result r *)
Inductive file_read_as (p : path) : bytes + error -> list step -> Prop :=
| fr_none e : file_read_as p (inr e) [SOpen p (inr e)]
| fr_all fd z ds l n c : read_pieces fd ds l -> file_read_as p (inl (concat ds)) ([SOpen p (inl fd); SStat fd z] ++ l ++ [SRead fd (S n) [] (Some EOF); SClose fd c])
| fr_part fd z ds l n e c : read_pieces fd ds l -> e <> EOF ->
    file_read_as p (inr e) ([SOpen p (inl fd); SStat fd z] ++ l ++ [SRead fd (S n) [] (Some e); SClose fd c]).
(* the calls of WriteFile p b with the result r *)
Inductive file_written_as (p : path) (b : bytes) (mode : Z) : option error -> list step -> Prop :=
| fw_none e : file_written_as p b mode (Some e) [SCreate p mode (inr e)]
| fw_failed fd n e c : file_written_as p b mode (Some e) [SCreate p mode (inl fd); SWrite fd b n (Some e); SClose fd c]
| fw_short fd n c : n < Z.of_nat (length b) ->
    file_written_as p b mode (Some (EMsg (str "short write"))) [SCreate p mode (inl fd); SWrite fd b n None; SClose fd c]
| fw_closed fd n c : Z.of_nat (length b) <= n -> file_written_as p b mode c [SCreate p mode (inl fd); SWrite fd b n None; SClose fd c].

(* a call that opens and closes its file itself *)
Definition whole_file (s : step) : Prop := match s with SReadFile _ _ => True | SWriteFile _ _ _ _ => True | _ => False end.
(* the calls l are those of h, with the calls on whole files replaced by what they consist of *)
Inductive in_detail : list step -> list step -> Prop :=
| id_nil : in_detail [] []
| id_read p r h c l : file_read_as p r c -> in_detail h l -> in_detail (SReadFile p r :: h) (c ++ l)
| id_write p b m r h c l : file_written_as p b m r c -> in_detail h l -> in_detail (SWriteFile p b m r :: h) (c ++ l)
| id_same s h l : ~ whole_file s -> in_detail h l -> in_detail (s :: h) (s :: l).

(* where a descriptor stands: the file it was opened for, and how much was read since *)
Definition reading (fd : nat) (h : list step) : option path :=
  fold_left (fun o s => match s with
                        | SOpen p (inl f) => if Nat.eqb f fd then Some p else o
                        | SCreate _ _ (inl f) => if Nat.eqb f fd then None else o
                        | SClose f _ => if Nat.eqb f fd then None else o
                        | _ => o
                        end) h None.
Definition offset (fd : nat) (h : list step) : nat :=
  fold_left (fun n s => match s with
                        | SOpen p (inl f) => if Nat.eqb f fd then 0%nat else n
                        | SRead f _ b None => if Nat.eqb f fd then (n + length b)%nat else n
                        | _ => n
                        end) h 0%nat.
(* files that hold content, which may change from call to call: a read delivers what is in the
   file at that moment, from where the last one stopped *)
Definition serves (L : os) (content : list step -> path -> bytes) : Prop :=
  forall h fd p n, reading fd h = Some p ->
  o_read L h fd (S n) = match skipn (offset fd h) (content h p) with
                        | [] => ([], Some EOF)
                        | r => (firstn (S n) r, None)
                        end.
(* the content of p is x from the calls h on, as long as the calls c go on *)
Definition steady (content : list step -> path -> bytes) (p : path) (x : bytes) (h c : list step) : Prop :=
  forall c1 c2, c = c1 ++ c2 -> content (h ++ c1) p = x.
