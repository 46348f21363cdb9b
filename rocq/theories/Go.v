(* The part of the Go runtime and operating system the model needs: error
   returns, panics, io.Reader / io.Writer, the file system with faults, the
   terminal, the random source and passphrase buffers.  Definitions only. *)
From Verif Require Export Bytes.

(* Error values. *)
Inductive error : Set :=
| EOF                    (* io.EOF *)
| ErrUnexpectedEOF       (* io.ErrUnexpectedEOF *)
| CorruptInput (at_ : Z)  (* base64.CorruptInputError *)
| ENotExist (p : bytes)  (* an os.PathError: open p, ENOENT *)
| EFault                 (* an injected operating-system failure *)
| ERand                  (* the random source failed *)
| ETty                   (* the terminal could not be read *)
| EMsg (s : bytes)       (* errors.New / fmt.Errorf *)
| EChunk (i : Z).        (* "signify/crypto: failed to decrypt chunk=%d" *)

(* Result of a Go call returning (T, error): a value with nil error, an error,
   or a run-time panic. *)
Inductive res (A : Type) : Type :=
| Ok (a : A)
| Err (e : error)
| Panic.
Arguments Ok {A} a.
Arguments Err {A} e.
Arguments Panic {A}.

Definition rbind {A B} (r : res A) (k : A -> res B) : res B :=
  match r with Ok a => k a | Err e => Err e | Panic => Panic end.

(* io.Reader: Read(p) with len(p) = n returns the bytes placed at the front of
   p together with an error (nil = None), or panics. *)
Inductive rres : Type :=
| RRet (b : bytes) (e : option error)
| RPanic.
Definition Reader (S : Type) := nat -> S -> rres * S.

(* io.Writer: Write(p) returns (n, err). *)
Definition Writer (S : Type) := bytes -> S -> (Z * option error) * S.

(* ---- the world ---- *)
Definition path := bytes.

(* A regular file: contents and the permission bits requested when it was
   created (umask not applied).  Simplification: a path is a canonical name, no
   links, directories or relative aliases. *)
Record file := File { f_data : bytes; f_mode : Z }.

(* Each system call consumes one entry of the fault schedule (none left: the
   call is not disturbed).  [FFail k]: the call fails; if it is a write, its
   first k bytes reach the file first.  [FShort k]: a read returns at most k+1
   bytes; other calls are not disturbed. *)
Inductive fault := FOk | FFail (k : nat) | FShort (k : nat).

(* Observable effects in program order. *)
Inductive event :=
| EvCreate (p : path) (mode : Z)    (* open(O_CREAT|O_TRUNC) succeeded *)
| EvAppend (p : path) (b : bytes)   (* bytes reached the file *)
| EvOut (b : bytes)                 (* text on standard output *)
| EvErr (b : bytes).                (* text on standard error *)

Record world := World {
  w_fs     : path -> option file;
  w_faults : list fault;
  w_rng    : bytes;              (* bytes crypto/rand will deliver; fails when used up *)
  w_tty    : list (res bytes);   (* results of successive terminal.ReadPassword calls *)
  w_bufs   : list bytes;         (* passphrase buffers handed out so far, current contents *)
  w_fds    : list (path * nat);  (* read handles: path and offset *)
  w_log    : list event
}.

Definition M (A : Type) := world -> res A * world.
Definition ret {A} (a : A) : M A := fun w => (Ok a, w).
Definition fail {A} (e : error) : M A := fun w => (Err e, w).
Definition panic {A} : M A := fun w => (Panic, w).
Definition lift {A} (r : res A) : M A := fun w => (r, w).
(* "if err != nil { return err }" *)
Definition bind {A B} (m : M A) (k : A -> M B) : M B := fun w =>
  match m w with
  | (Ok a, w') => k a w'
  | (Err e, w') => (Err e, w')
  | (Panic, w') => (Panic, w')
  end.
(* defer: run the cleanup after m, whatever its outcome *)
Definition defer {A} (cleanup : world -> world) (m : M A) : M A := fun w =>
  let '(r, w') := m w in (r, cleanup w').

Declare Scope go_scope.
Delimit Scope go_scope with go.
Notation "x <- m ;; k" := (bind m (fun x => k))
  (at level 61, m at next level, right associativity) : go_scope.
Notation "m ;;; k" := (bind m (fun _ => k))
  (at level 61, right associativity) : go_scope.

(* ---- field updates ---- *)
Definition set_fs (w : world) f :=
  World f (w_faults w) (w_rng w) (w_tty w) (w_bufs w) (w_fds w) (w_log w).
Definition set_faults (w : world) f :=
  World (w_fs w) f (w_rng w) (w_tty w) (w_bufs w) (w_fds w) (w_log w).
Definition set_rng (w : world) r :=
  World (w_fs w) (w_faults w) r (w_tty w) (w_bufs w) (w_fds w) (w_log w).
Definition set_tty (w : world) t :=
  World (w_fs w) (w_faults w) (w_rng w) t (w_bufs w) (w_fds w) (w_log w).
Definition set_bufs (w : world) b :=
  World (w_fs w) (w_faults w) (w_rng w) (w_tty w) b (w_fds w) (w_log w).
Definition set_fds (w : world) d :=
  World (w_fs w) (w_faults w) (w_rng w) (w_tty w) (w_bufs w) d (w_log w).
Definition emit (w : world) (e : event) :=
  World (w_fs w) (w_faults w) (w_rng w) (w_tty w) (w_bufs w) (w_fds w) (w_log w ++ [e]).

(* ---- file system primitives ---- *)
Definition fs_create (fs : path -> option file) (p : path) (mode : Z) : path -> option file :=
  fun q => if bytes_eqb q p
           then Some (File [] (match fs p with Some f => f_mode f | None => mode end))
           else fs q.

Definition fs_append (fs : path -> option file) (p : path) (b : bytes) : path -> option file :=
  fun q => if bytes_eqb q p
           then match fs p with
                | Some f => Some (File (f_data f ++ b) (f_mode f))
                | None => None
                end
           else fs q.

Definition pop_fault (w : world) : fault * world :=
  match w_faults w with
  | [] => (FOk, w)
  | f :: r => (f, set_faults w r)
  end.

Definition do_create (p : path) (mode : Z) (w : world) : world :=
  emit (set_fs w (fs_create (w_fs w) p mode)) (EvCreate p mode).
Definition do_append (p : path) (b : bytes) (w : world) : world :=
  emit (set_fs w (fs_append (w_fs w) p b)) (EvAppend p b).

(* ioutil.ReadFile.  Simplification: one fault point for open+read. *)
Definition ReadFile (p : path) : M bytes := fun w =>
  let '(f, w) := pop_fault w in
  match f with
  | FFail _ => (Err EFault, w)
  | _ => match w_fs w p with
         | None => (Err (ENotExist p), w)
         | Some fl => (Ok (f_data fl), w)
         end
  end.

(* os.OpenFile(O_RDWR or O_WRONLY, O_CREATE|O_TRUNC, mode), as in os.Create and
   ioutil.WriteFile.  The empty path never names a file. *)
Definition create_file (p : path) (mode : Z) : M unit := fun w =>
  let '(f, w) := pop_fault w in
  match f with
  | FFail _ => (Err EFault, w)
  | _ => match p with
         | [] => (Err (ENotExist p), w)
         | _ => (Ok tt, do_create p mode w)
         end
  end.

(* os.File.Write on a handle returned by create_file.  The handle's offset is
   always the end of what it has written, so this is an append. *)
Definition file_write (p : path) : Writer world := fun b w =>
  let '(f, w) := pop_fault w in
  match f with
  | FFail k => let part := firstn k b in
               ((Z.of_nat (length part), Some EFault), do_append p part w)
  | _ => ((Z.of_nat (length b), None), do_append p b w)
  end.

(* ioutil.WriteFile: create, write, close (its error is returned). *)
Definition WriteFile (p : path) (data : bytes) (mode : Z) : M unit := fun w =>
  match create_file p mode w with
  | (Ok _, w) =>
      let '((_, e), w) := file_write p data w in
      match e with
      | Some e => (Err e, w)
      | None => let '(f, w) := pop_fault w in
                match f with FFail _ => (Err EFault, w) | _ => (Ok tt, w) end
      end
  | (r, w) => (r, w)
  end.

(* os.Open: the result is a handle (index into w_fds) at offset 0. *)
Definition open_read (p : path) : M nat := fun w =>
  let '(f, w) := pop_fault w in
  match f with
  | FFail _ => (Err EFault, w)
  | _ => match w_fs w p with
         | None => (Err (ENotExist p), w)
         | Some _ => (Ok (length (w_fds w)), set_fds w (w_fds w ++ [(p, O)]))
         end
  end.

(* os.File.Stat().Size() *)
Definition file_size (fd : nat) : M Z := fun w =>
  let '(f, w) := pop_fault w in
  match f with
  | FFail _ => (Err EFault, w)
  | _ => match nth_error (w_fds w) fd with
         | None => (Panic, w)
         | Some (p, _) =>
             (Ok (match w_fs w p with Some fl => Z.of_nat (length (f_data fl)) | None => 0 end), w)
         end
  end.

Fixpoint set_nth {A} (n : nat) (x : A) (l : list A) : list A :=
  match l, n with
  | [], _ => []
  | _ :: r, O => x :: r
  | y :: r, S k => y :: set_nth k x r
  end.

(* os.File.Read into a buffer of n bytes: reads the current contents of the
   file at the handle's offset; (0, io.EOF) at the end (if n > 0). *)
Definition file_read (fd : nat) : Reader world := fun n w =>
  let '(f, w) := pop_fault w in
  match f with
  | FFail _ => (RRet [] (Some EFault), w)
  | _ =>
    match nth_error (w_fds w) fd with
    | None => (RPanic, w)
    | Some (p, off) =>
        let data := match w_fs w p with Some fl => f_data fl | None => [] end in
        let lim := match f with FShort k => Nat.min n (S k) | _ => n end in
        let got := firstn lim (skipn off data) in
        match n, got with
        | S _, [] => (RRet [] (Some EOF), w)
        | _, _ => (RRet got None, set_fds w (set_nth fd (p, (off + length got)%nat) (w_fds w)))
        end
    end
  end.

(* io.ReadFull(rand.Reader, buf) with len(buf) = n (also crypto/rand.Read) *)
Definition rand_read (n : nat) : M bytes := fun w =>
  if (length (w_rng w) <? n)%nat then (Err ERand, w)
  else (Ok (firstn n (w_rng w)), set_rng w (skipn n (w_rng w))).

(* terminal.ReadPassword: a fresh buffer holding the entry *)
Definition ReadPassword : M nat := fun w =>
  match w_tty w with
  | [] => (Err ETty, w)
  | Ok b :: r => (Ok (length (w_bufs w)), set_bufs (set_tty w r) (w_bufs w ++ [b]))
  | Err e :: r => (Err e, set_tty w r)
  | Panic :: r => (Panic, set_tty w r)
  end.

(* current contents of a passphrase buffer *)
Definition buf_get (i : nat) : M bytes := fun w =>
  match nth_error (w_bufs w) i with Some b => (Ok b, w) | None => (Panic, w) end.

Definition stdout (b : bytes) : M unit := fun w => (Ok tt, emit w (EvOut b)).
Definition stderr (b : bytes) : M unit := fun w => (Ok tt, emit w (EvErr b)).

(* ---- crash states ----
   The file system reconstructed from a prefix of the mutation log.  Assumption:
   mutations reach the disk in program order. *)
Definition replay1 (fs : path -> option file) (e : event) : path -> option file :=
  match e with
  | EvCreate p m => fs_create fs p m
  | EvAppend p b => fs_append fs p b
  | _ => fs
  end.
Definition replay (fs : path -> option file) (l : list event) : path -> option file :=
  fold_left replay1 l fs.
