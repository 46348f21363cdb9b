(* Key pairs and signatures made by this program (the model) or by OpenBSD's signify
   (SpecOpenBSD).  Definitions only. *)
From Verif Require Export SpecOpenBSD SignFacts.
Local Open Scope Z_scope.

(* text fit for a comment line read by a C program *)
Definition plain_text (t : bytes) : Prop := ~ In x0a t /\ ~ In x00 t.

(* (secret key file, public key file) of one run of either program *)
Inductive key_files (C : Crypto) (pass : bytes) : bytes -> bytes -> Prop :=
| made_here k opts w w' s p :
    GenerateKey C k pass opts w = (Ok tt, w') ->
    contents w' (k ++ str ".sec") s -> contents w' (k ++ str ".pub") p ->
    (pass <> [] -> match opts with Some r => r | None => 42 end mod 2 ^ 32 < 2 ^ 31) ->
    key_files C pass s p
| made_there seed num slt rounds comment s p :
    length seed = 32%nat -> length num = 8%nat -> length slt = 16%nat -> 0 <= rounds -> plain_text comment ->
    ob_generate C pass seed num slt rounds comment = Some (s, p) ->
    key_files C pass s p.

(* signature files of the message m made with that secret key file and passphrase *)
Inductive signed (C : Crypto) (pass secfile m : bytes) : bytes -> Prop :=
| signed_here k mp s w w' n f :
    contents w k secfile -> contents w mp m -> (pass = [] \/ exists tl, w_tty w = Ok pass :: tl) ->
    pub_name k n -> plain_text n -> Z.of_nat (length n) < 1012 ->
    Sign C k mp s w = (Ok tt, w') -> contents w' (sigPathOf mp s) f ->
    signed C pass secfile m f
| signed_there comment f :
    plain_text comment -> comment <> [] ->
    ob_sign C pass secfile comment m = Some f ->
    signed C pass secfile m f.

(* no white space that only OpenBSD's decoder skips: TAB, VT, FF and space *)
Definition no_blanks (file : bytes) : Prop :=
  forall line text rest, split_line file = Some (line, text) -> split_line text = Some rest ->
    forall c, In c (fst rest) -> ob_space c = true -> c = x0d.
