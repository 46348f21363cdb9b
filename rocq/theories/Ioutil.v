(* ioutil.ReadFile and ioutil.WriteFile (Go 1.12, io/ioutil/ioutil.go), which Calls.v counts
   as single calls, as the calls they consist of.  What they answer is then determined by the
   operating system below them, so that such a system gives one of those of Calls.v.
   Used in signify/common.go:59, signify/key.go:189, 222, 369, 388 and signify/signature.go:45.
   Definitions only. *)
From Verif Require Export CmdCalls.
Local Open Scope Z_scope.

Section Low.
(* the fields o_readfile and o_writefile are not used *)
Variable L : os.
(* bytes.Buffer decides how much is asked for with each read (at least one byte); [fuel]
   is the number of reads after which the model stops looking *)
Variable room : list step -> nat.
Variable fuel : list step -> nat.

(* bytes.Buffer.ReadFrom on a file; nil if the fuel is used up *)
Fixpoint read_all (n fd : nat) (acc : bytes) (h : list step) : option (res bytes) * list step :=
  match n with
  | O => (None, h)
  | S n =>
      let '(b, r) := o_read L h fd (S (room h)) in
      let h' := h ++ [SRead fd (S (room h)) b r] in
      match r with
      | None => read_all n fd (acc ++ b) h'
      | Some EOF => (Some (Ok (acc ++ b)), h')
      | Some e => (Some (Err e), h')
      end
  end.

(* ReadFile: open, ask for the size (an error of which is ignored), read to the end, close
   (an error of which is ignored) *)
Definition ReadFile_low (p : path) : H bytes := fun h =>
  let r := o_open L h p in
  let h := h ++ [SOpen p r] in
  match r with
  | inr e => (Err e, h)
  | inl fd =>
      let h := h ++ [SStat fd (o_stat L h fd)] in
      let '(d, h) := read_all (fuel h) fd [] h in
      (match d with Some d => d | None => Panic end, h_close L fd h)
  end.

(* WriteFile: create or truncate, write, close; the first error counts *)
Definition WriteFile_low (p : path) (b : bytes) (mode : Z) : H unit := fun h =>
  let r := o_create L h p mode in
  let h := h ++ [SCreate p mode r] in
  match r with
  | inr e => (Err e, h)
  | inl fd =>
      let '(n, r) := o_write L h fd b in
      let h := h ++ [SWrite fd b n r] in
      let e := match r with
               | Some e => Some e
               | None => if n <? Z.of_nat (length b) then Some (EMsg (str "short write")) else None
               end in
      let c := o_close L h fd in
      (gone (match e with Some e => Some e | None => c end), h ++ [SClose fd c])
  end.

(* the calls a history of Calls.v consists of *)
Definition expand1 (h : list step) (s : step) : list step :=
  match s with
  | SReadFile p _ => snd (ReadFile_low p h)
  | SWriteFile p b m _ => snd (WriteFile_low p b m h)
  | s => h ++ [s]
  end.
Definition expand (h : list step) : list step := fold_left expand1 h [].

Definition sum_of {A} (r : res A) : A + error := match r with Ok a => inl a | Err e => inr e | Panic => inr EFault end.
Definition error_of (r : res unit) : option error := match r with Ok _ => None | Err e => Some e | Panic => Some EFault end.

Definition over : os := {|
  o_readfile := fun h p => sum_of (fst (ReadFile_low p (expand h)));
  o_writefile := fun h p b m => error_of (fst (WriteFile_low p b m (expand h)));
  o_open := fun h => o_open L (expand h);
  o_create := fun h => o_create L (expand h);
  o_stat := fun h => o_stat L (expand h);
  o_read := fun h => o_read L (expand h);
  o_write := fun h => o_write L (expand h);
  o_close := fun h => o_close L (expand h);
  o_rand := fun h => o_rand L (expand h);
  o_pass := fun h => o_pass L (expand h)
|}.
End Low.
