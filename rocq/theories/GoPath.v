(* path/filepath (Unix) and strings functions used by signify/key.go:236-237 and
   cmd/psignify/main.go:42.  Definitions only. *)
From Verif Require Export Go.

Definition slash : byte := x2f.

(* strings.TrimSuffix *)
Definition TrimSuffix (s suffix : bytes) : bytes :=
  if has_prefix (rev suffix) (rev s) then firstn (length s - length suffix) s else s.

Fixpoint drop_slashes (l : bytes) : bytes :=
  match l with
  | c :: r => if beqb c slash then drop_slashes r else l
  | [] => []
  end.
Fixpoint take_nonslash (l : bytes) : bytes :=
  match l with
  | c :: r => if beqb c slash then [] else c :: take_nonslash r
  | [] => []
  end.

(* filepath.Base, working on the reversed path *)
Definition Base (p : bytes) : bytes :=
  match p with
  | [] => [x2e]
  | _ =>
    let r := take_nonslash (drop_slashes (rev p)) in
    match r with [] => [slash] | _ => rev r end
  end.

(* filepath.Clean on the components of a path: drops empty and "." components,
   resolves "..".  [rooted]: the path starts with a slash. *)
Fixpoint split_slash (cur : bytes) (l : bytes) : list bytes :=
  match l with
  | [] => [rev cur]
  | c :: r => if beqb c slash then rev cur :: split_slash [] r else split_slash (c :: cur) r
  end.
Definition dot : bytes := [x2e].
Definition dotdot : bytes := [x2e; x2e].
(* acc: reversed list of kept components *)
Fixpoint clean_comps (rooted : bool) (acc : list bytes) (l : list bytes) : list bytes :=
  match l with
  | [] => rev acc
  | c :: r =>
      if bytes_eqb c [] || bytes_eqb c dot then clean_comps rooted acc r
      else if bytes_eqb c dotdot then
        match acc with
        | a :: acc' => if bytes_eqb a dotdot then clean_comps rooted (c :: acc) r
                       else clean_comps rooted acc' r
        | [] => if rooted then clean_comps rooted [] r else clean_comps rooted [c] r
        end
      else clean_comps rooted (c :: acc) r
  end.
Fixpoint join_slash (l : list bytes) : bytes :=
  match l with
  | [] => []
  | [c] => c
  | c :: r => c ++ slash :: join_slash r
  end.
Definition Clean (p : bytes) : bytes :=
  match p with
  | [] => dot
  | c :: _ =>
      let rooted := beqb c slash in
      let comps := clean_comps rooted [] (split_slash [] p) in
      if rooted then slash :: join_slash comps
      else match comps with [] => dot | _ => join_slash comps end
  end.

(* filepath.Join: leading empty elements are ignored, the rest is joined with
   slashes and cleaned *)
Fixpoint Join (elems : list bytes) : bytes :=
  match elems with
  | [] => []
  | e :: r => match e with [] => Join r | _ => Clean (join_slash elems) end
  end.
