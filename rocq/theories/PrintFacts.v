(* Everything psignify prints: lemmas for C85. *)
From Verif Require Export SpecPrint ReportOpen ReportSeal FlagFacts SealCrash.
Local Open Scope Z_scope.

Lemma texts_app a b : texts (a ++ b) = texts a ++ texts b.
Proof. induction a as [|[] a IH]; cbn [app texts]; rewrite ?IH; reflexivity. Qed.
Lemma prints_nothing w w' : w_log w' = w_log w -> prints w w' [].
Proof. intro E. exists []. rewrite app_nil_r. auto. Qed.
Lemma prints_trans u v w a b : prints u v a -> prints v w b -> prints u w (a ++ b).
Proof. intros (x & X & <-) (y & Y & <-). exists (x ++ y). rewrite Y, X, app_assoc, texts_app. auto. Qed.
Lemma prints_then v w b u a : prints u v a -> prints v w b -> prints u w (a ++ b).
Proof. apply prints_trans. Qed.
Lemma prints_log u v w t : w_log v = w_log u -> prints v w t -> prints u w t.
Proof. intros E (x & X & <-). exists x. rewrite X, E. auto. Qed.
Lemma prints_log_r u v w t : w_log w = w_log v -> prints u v t -> prints u w t.
Proof. intros E (x & X & <-). exists x. rewrite E. auto. Qed.
Lemma prints_out w t : prints w (emit w (EvOut t)) [EvOut t].
Proof. exists [EvOut t]. auto. Qed.
Lemma prints_err w t : prints w (emit w (EvErr t)) [EvErr t].
Proof. exists [EvErr t]. auto. Qed.
Lemma prints_fun w w' t t' : prints w w' t -> prints w w' t' -> t = t'.
Proof. intros (x & X & <-) (y & Y & <-). rewrite X in Y. apply app_inv_head in Y. congruence. Qed.
Lemma silent_trans u v w : prints u v [] -> prints v w [] -> prints u w [].
Proof. exact (prints_trans u v w [] []). Qed.

(* ---- what prints nothing ---- *)
Definition mute {A} (m : world -> A * world) : Prop := forall w, prints w (snd (m w)) [].
Lemma mute_pop : mute pop_fault.
Proof. intro w. rewrite pop_fault_eq. apply prints_nothing. reflexivity. Qed.
Lemma mute_read fd n : mute (file_read fd n).
Proof.
  intro w. apply prints_nothing. unfold file_read. rewrite pop_fault_eq. change (w_fds (next w)) with (w_fds w). change (w_fs (next w)) with (w_fs w).
  destruct (hd FOk (w_faults w)); try reflexivity;
    (destruct (nth_error (w_fds w) fd) as [[p off]|]; [|reflexivity]; cbv zeta; destruct n; [reflexivity|];
     destruct (firstn _ _); reflexivity).
Qed.
Lemma mute_write p b : mute (file_write p b).
Proof.
  intro w. unfold file_write. rewrite pop_fault_eq. destruct (hd FOk (w_faults w)); (eexists [_]; split; [reflexivity|reflexivity]).
Qed.
Lemma mute_WriteFile p d m : mute (WriteFile p d m).
Proof.
  intro w. unfold WriteFile. destruct (create_file_spec p m w) as (r & w1 & E & _ & H). rewrite E.
  assert (S1 : prints w w1 []).
  { destruct H as [(_ & -> & _)|(e & _ & -> & _)]; [eexists [_]; split; reflexivity|apply prints_nothing; reflexivity]. }
  destruct H as [(-> & _)|(e & -> & _)]; [|exact S1].
  pose proof (mute_write p d w1) as S2. destruct (file_write p d w1) as [[k [e|]] w2]; cbn [snd] in *; [exact (silent_trans _ _ _ S1 S2)|].
  pose proof (mute_pop w2) as S3. destruct (pop_fault w2) as [f w3]. cbn [snd] in S3.
  pose proof (silent_trans _ _ _ (silent_trans _ _ _ S1 S2) S3). destruct f; assumption.
Qed.

Section Loops.
Variable rd : Reader world.
Hypothesis Hr : forall n, mute (rd n).
Lemma mute_skip fuel : forall c, mute (skip_loop fuel rd c).
Proof.
  induction fuel as [|fuel IH]; intros c w; cbn [skip_loop]; [apply prints_nothing; reflexivity|].
  pose proof (Hr 1%nat w) as S1. destruct (rd 1%nat w) as [[got err|] w1]; cbn [snd] in S1; [|exact S1].
  destruct err as [e|]; [exact S1|]. cbv zeta. destruct (beqb _ x0a); [exact S1|]. exact (silent_trans _ _ _ S1 (IH _ w1)).
Qed.
Lemma mute_dec_loop fuel : forall el c n buf, mute (dec_loop fuel rd el c n buf).
Proof.
  induction fuel as [|fuel IH]; intros el c n buf w; cbn [dec_loop]; (destruct (n =? el); [apply prints_nothing; reflexivity|]).
  { apply prints_nothing; reflexivity. }
  pose proof (Hr 1%nat w) as S1. destruct (rd 1%nat w) as [[got err|] w1]; cbn [snd] in S1; [|exact S1].
  destruct err as [e|]; [destruct e; exact S1|]. cbv zeta. destruct (beqb _ x0a); exact (silent_trans _ _ _ S1 (IH _ _ _ _ w1)).
Qed.
Lemma mute_dec_read fuel n : mute (dec_read fuel rd n).
Proof.
  intro w. unfold dec_read. pose proof (mute_dec_loop (fuel w (EncodedLen (Z.of_nat n))) (EncodedLen (Z.of_nat n)) x00 0 [] w) as S1.
  destruct (dec_loop _ _ _ _ _ _ _) as [[[b|e|]|] w1]; exact S1.
Qed.
End Loops.

Definition mute_step {St R} (f : St -> world) (g : R -> world) (step : Z -> St -> St + R) : Prop :=
  forall i st, match step i st with inl st' => prints (f st) (f st') [] | inr r => prints (f st) (g r) [] end.
Lemma mute_for_pos {St R} (f : St -> world) (g : R -> world) step : mute_step f g step -> forall p, mute_step f g (for_pos p step).
Proof.
  intro H. induction p as [p IH|p IH|]; intros i st; cbn [for_pos].
  - pose proof (H i st) as X. destruct (step i st) as [s1|r]; [|exact X].
    pose proof (IH (i + 1) s1) as Y. destruct (for_pos p step (i + 1) s1) as [s2|r]; [|exact (silent_trans _ _ _ X Y)].
    pose proof (silent_trans _ _ _ X Y) as XY. pose proof (IH (i + 1 + Z.pos p) s2) as Z2.
    destruct (for_pos p step (i + 1 + Z.pos p) s2); exact (silent_trans _ _ _ XY Z2).
  - pose proof (IH i st) as X. destruct (for_pos p step i st) as [s1|r]; [|exact X].
    pose proof (IH (i + Z.pos p) s1) as Y. destruct (for_pos p step (i + Z.pos p) s1); exact (silent_trans _ _ _ X Y).
  - apply H.
Qed.

Lemma mute_open_step C shared rd wr : (forall n, mute (rd n)) -> (forall b, mute (wr b)) ->
  mute_step (@snd bytes world) (@snd (res unit) world) (open_step C world shared rd wr).
Proof.
  intros Hr Hw i [nonce w]. cbn [snd]. unfold open_step. pose proof (Hr sealed_nat w) as S1.
  destruct (rd sealed_nat w) as [[chunk [e|]|] w1]; cbn [snd] in S1; try exact S1.
  destruct (box_open C chunk nonce shared) as [out|]; [|exact S1].
  pose proof (Hw out w1) as S2. destruct (wr out w1) as [[k [e|]] w2]; cbn [snd] in S2; pose proof (silent_trans _ _ _ S1 S2) as S3; [exact S3|].
  destruct (incrementNonce nonce) as [n' [e|]]; exact S3.
Qed.
Lemma mute_open_body C edpriv rd wr : (forall n, mute (rd n)) -> (forall b, mute (wr b)) -> mute (open_body C world edpriv rd wr).
Proof.
  intros Hr Hw w. unfold open_body. pose proof (Hr header_nat w) as S1.
  destruct (rd header_nat w) as [[header [e|]|] w1]; cbn [snd] in S1; try exact S1.
  destruct (negb (length header =? header_nat)%nat); [exact S1|]. cbv zeta.
  destruct (negb (auth_Verify _ _ _ _)); [exact S1|].
  set (sh := box_precompute C _ _). unfold for_loop. destruct (be_decode (firstn 8 header)) as [|p|p]; [exact S1| |exact S1].
  pose proof (mute_for_pos _ _ _ (mute_open_step C sh rd wr Hr Hw) p 0 (zeroNonce, w1)) as S2. cbn [snd] in S2.
  destruct (for_pos p _ 0 (zeroNonce, w1)) as [[n' w2]|[r w2]]; exact (silent_trans _ _ _ S1 S2).
Qed.

(* ---- prompts ---- *)
Lemma asked_world w w' t : w_tty w' = w_tty w -> asked w' t -> asked w t.
Proof.
  intros E [pass A|e A|A]; unfold answers in A; rewrite E in A.
  - exact (AskTyped _ pass A).
  - exact (AskError _ e A).
  - exact (AskPanic _ A).
Qed.

(* ---- Sign ---- *)
Lemma signFinish_mute C k mp sp p : mute (signFinish C k mp sp p).
Proof.
  intro w. rewrite signFinish_eq. pose proof (ReadFile_eq mp w) as E.
  assert (L : w_log (snd (ReadFile mp w)) = w_log w) by (rewrite E; reflexivity).
  destruct (ReadFile mp w) as [[m|e|] w1]; cbn [snd] in L; [|apply prints_nothing; exact L|apply prints_nothing; exact L].
  exact (prints_log _ _ _ _ L (mute_WriteFile sp (signed_file C k p m) 420 w1)).
Qed.

Lemma prompt_out w v t : w_log v = w_log w -> prints w (emit v (EvOut t)) [EvOut t].
Proof. intro E. exists [EvOut t]. cbn [w_log emit]. rewrite E. auto. Qed.
Lemma prints_ask w v b tl : w_log v = w_log w -> prints w (ask_world v b tl) [EvOut (str "Password: "); EvOut [x0a]].
Proof.
  intro E. exists [EvOut (str "Password: "); EvOut [x0a]]. unfold ask_world. cbn [w_log emit set_bufs set_tty]. rewrite E, <- app_assoc. auto.
Qed.

Theorem Sign_prints C kp mp s w : exists t, sign_asks w kp t /\ prints w (snd (Sign C kp mp s w)) t.
Proof.
  rewrite Sign_eq, LoadPrivateKey_eq. cbv zeta. destruct (ReadFile_cases kp w) as [(e & E)|(kf & R)].
  { rewrite (ReadFile_error _ _ _ E). exists []. split; [exact (SANoFile _ _ _ E)|apply prints_nothing; reflexivity]. }
  rewrite (ReadFile_reads _ _ _ R). destruct (private_cases kf) as [(e & E)|([a kdf r sl c n k] & E)].
  { rewrite (private_error_read _ _ E). exists []. split; [exact (SANoKey _ _ _ _ R E)|apply prints_nothing; reflexivity]. }
  rewrite E. assert (T : private_text kf kdf r sl c k) by (apply private_text_read; exists a, n; exact E).
  assert (W : priv_wf (Priv a kdf r sl c n k)) by (apply private_file_iff in E; apply E).
  change (w_tty (next w)) with (w_tty w). change (w_bufs (next w)) with (w_bufs w).
  destruct (Z.eq_dec r 0) as [-> | Nz].
  { change (IsEncrypted (Priv a kdf 0 sl c n k)) with false. cbv iota. exists [].
    split; [exact (SAPlain _ _ _ _ _ _ _ R T)|]. apply (prints_log w (next w)); [reflexivity|]. apply signFinish_mute. }
  assert (Ie : IsEncrypted (Priv a kdf r sl c n k) = true) by (unfold IsEncrypted; cbn; apply Z.gtb_lt; destruct W as (_ & _ & W & _); cbn in W; lia).
  rewrite Ie. pose proof (fun t => SAAsk w kp kf kdf r sl c k t R T Nz) as A.
  destruct (w_tty w) as [|[b|e|] tl] eqn:Ty.
  - exists [EvOut (str "Password: ")]. split; [apply A, (AskError _ ETty); unfold answers; rewrite Ty; reflexivity|apply prompt_out; reflexivity].
  - exists [EvOut (str "Password: "); EvOut [x0a]]. split; [apply A, (AskTyped _ b); unfold answers; rewrite Ty; reflexivity|].
    pose proof (prints_ask w (next w) b tl eq_refl) as S1.
    destruct (decrypt C _ b) as [[u|e|] p'] eqn:Ed.
    + pose proof (signFinish_mute C kp mp (sigPathOf mp s) p' (ask_world (next w) b tl)) as S2.
      destruct (signFinish C kp mp (sigPathOf mp s) p' (ask_world (next w) b tl)) as [r3 w3]. cbn [snd] in *.
      apply (prints_log_r _ w3); [apply zero_buf_log|]. exact (prints_trans _ _ _ _ _ S1 S2).
    + cbn [snd]. apply (prints_log_r _ _ _ _ (zero_buf_log _ _)). exact S1.
    + cbn [snd]. apply (prints_log_r _ _ _ _ (zero_buf_log _ _)). exact S1.
  - exists [EvOut (str "Password: ")]. split; [apply A, (AskError _ e); unfold answers; rewrite Ty; reflexivity|]. cbn [snd].
    apply (prints_log_r _ (emit (next w) (EvOut (str "Password: ")))); [reflexivity|]. apply prompt_out; reflexivity.
  - exists [EvOut (str "Password: ")]. split; [apply A, AskPanic; unfold answers; rewrite Ty; reflexivity|]. cbn [snd].
    apply (prints_log_r _ (emit (next w) (EvOut (str "Password: ")))); [reflexivity|]. apply prompt_out; reflexivity.
Qed.

(* ---- Verify, Seal ---- *)
Theorem Verify_prints C pp mp x w : prints w (snd (Verify C pp mp x w)) [].
Proof. destruct (Verify C pp mp x w) as [r w'] eqn:E. destruct (Verify_world _ _ _ _ _ _ _ E) as (fl & ->). apply prints_nothing. reflexivity. Qed.
Lemma texts_appends q ps : texts (map (EvAppend q) ps) = [].
Proof. induction ps as [|p ps IH]; [reflexivity|exact IH]. Qed.
Theorem Seal_prints C pk mp ep w : prints w (snd (Seal C pk mp ep w)) [].
Proof.
  destruct (Seal C pk mp ep w) as [r w'] eqn:E. cbn [snd]. destruct (Seal_log _ _ _ _ _ _ _ E) as [(L & _)|(ps & L & _)].
  - apply prints_nothing. exact L.
  - eexists. split; [exact L|]. apply texts_appends.
Qed.

(* ---- Open ---- *)
Lemma ToBox_prints C p w : priv_wf p ->
  (firstn 8 (sha512 C (key p)) = checksum p /\ prints w (snd (priv_ToBox C p w)) []) \/
  (firstn 8 (sha512 C (key p)) <> checksum p /\ exists t, asked w t /\ prints w (snd (priv_ToBox C p w)) t).
Proof.
  intro W. rewrite ToBox_eq by exact W. destruct p as [a kdf r s c n k]. rewrite check_is. cbn [key checksum].
  destruct (bytes_eqb (firstn 8 (sha512 C k)) c) eqn:E.
  { apply bytes_eqb_eq in E. left. split; [exact E|apply prints_nothing; reflexivity]. }
  apply bytes_eqb_neq in E. right. split; [exact E|].
  destruct (w_tty w) as [|[b|e|] tl] eqn:Ty.
  - exists [EvOut (str "Password: ")]. split; [apply (AskError _ ETty); unfold answers; rewrite Ty; reflexivity|apply prompt_out; reflexivity].
  - exists [EvOut (str "Password: "); EvOut [x0a]]. split; [apply (AskTyped _ b); unfold answers; rewrite Ty; reflexivity|].
    pose proof (prints_ask w w b tl eq_refl). destruct (decrypt C _ b) as [[u|e|] p']; assumption.
  - exists [EvOut (str "Password: ")]. split; [apply (AskError _ e); unfold answers; rewrite Ty; reflexivity|]. cbn [snd].
    apply (prints_log_r _ (emit w (EvOut (str "Password: ")))); [reflexivity|]. apply prompt_out; reflexivity.
  - exists [EvOut (str "Password: ")]. split; [apply AskPanic; unfold answers; rewrite Ty; reflexivity|]. cbn [snd].
    apply (prints_log_r _ (emit w (EvOut (str "Password: ")))); [reflexivity|]. apply prompt_out; reflexivity.
Qed.

Theorem Open_prints C sk ep mp w : no_faults w -> exists t, open_asks (sha512 C) w sk ep mp t /\ prints w (snd (Open C sk ep mp w)) t.
Proof.
  intro Hn. rewrite Open_eq, LoadPrivateKey_eq.
  destruct (w_fs w sk) as [[kf mk]|] eqn:Fk.
  2: { assert (E : ReadFile sk w = (Err (ENotExist sk), next w)).
       { apply ReadFile_error. right. split; [|auto]. unfold call_fails. unfold no_faults in Hn. rewrite Hn. cbn. auto. }
       rewrite E. exists []. split; [exact (OANoFile _ _ _ _ _ Fk)|apply prints_nothing; reflexivity]. }
  assert (Ck : contents w sk kf) by (exists mk; exact Fk).
  rewrite (ReadFile_contents sk w kf) by (try apply undisturbed_nil; assumption). rewrite next_id by exact Hn.
  destruct (private_cases kf) as [(e & E)|([a kdf r s c n k] & E)].
  { rewrite (private_error_read _ _ E). exists []. split; [exact (OANoKey _ _ _ _ _ _ _ Ck E)|apply prints_nothing; reflexivity]. }
  rewrite E. assert (T : private_text kf kdf r s c k) by (apply private_text_read; exists a, n; exact E).
  assert (W : priv_wf (Priv a kdf r s c n k)) by (apply private_file_iff in E; apply E).
  destruct (open_read_spec ep w) as (r2 & w2 & E2 & O2 & N2 & D2). rewrite E2. specialize (N2 Hn).
  pose proof O2 as (F2f & F2r & F2t & F2b & F2l).
  destruct D2 as [(d & -> & Cd & Hh)|(e & -> & D2)].
  2: { exists []. split; [exact (OANoText _ _ _ _ _ (D2 Hn))|apply prints_nothing; exact F2l]. }
  pose proof Cd as (mo & Fd).
  assert (Fd2 : w_fs w2 ep = Some (File d mo)) by (rewrite F2f; exact Fd).
  destruct (skipComment_file (length (w_fds w)) ep _ mo w2 Hh Fd2) as (r3 & w3 & E3 & O3 & N3 & C3). rewrite E3. specialize (N3 N2).
  assert (Fr3 : only_reads w w3) by (eapply only_reads_trans; [exact O2|exact O3]).
  pose proof Fr3 as (F3f & F3r & F3t & F3b & F3l).
  destruct C3 as [(c' & t' & off & Ed & Hc' & -> & Hh3 & Hs3)|(e & -> & C3)].
  2: { exists []. split; [exact (OANoLine _ _ _ _ _ _ Cd (C3 N2))|apply prints_nothing; exact F3l]. }
  assert (Hin : In x0a d) by (rewrite Ed; apply in_line).
  destruct (create_file_spec mp 438 w3) as (r4 & w4 & E4 & N4 & C4). rewrite E4.
  destruct C4 as [(-> & E4' & Hmp)|(e & -> & E4' & C4)].
  2: { exists []. split; [exact (OANoName _ _ _ _ _ (C4 N3))|]. subst w4. apply prints_nothing. exact F3l. }
  assert (S4 : prints w w4 []).
  { subst w4. exists [EvCreate mp 438]. split; [|reflexivity]. cbn [w_log do_create emit set_fs next set_faults]. rewrite F3l. reflexivity. }
  assert (T4 : w_tty w4 = w_tty w) by (subst w4; exact F3t). clear E4'.
  unfold open_file. pose proof (ToBox_prints C _ w4 W) as B. cbn [key checksum] in B.
  destruct (priv_ToBox C (Priv a kdf r s c n k) w4) as [[rb p] w5] eqn:Eb. cbn [snd] in B.
  assert (Last : forall t, prints w4 w5 t -> prints w (snd (match rb with Ok edpriv => open_body C world edpriv (file_decoder (length (w_fds w))) (file_write mp) w5 | Err e => (Err e, w5) | Panic => (Panic, w5) end)) t).
  { intros t S5. pose proof (prints_trans _ _ _ _ _ S4 S5) as S6. cbn [app] in S6. destruct rb as [edpriv|e|]; [|exact S6|exact S6].
    rewrite <- (app_nil_r t). apply (prints_trans _ _ _ _ _ S6). apply mute_open_body; [intro; apply mute_dec_read; intro; apply mute_read|intro; apply mute_write]. }
  destruct B as [(Es & B)|(Es & t & A & B)].
  - exists []. split; [exact (OASum _ _ _ _ _ _ _ _ _ _ _ Ck T Es)|]. specialize (Last _ B). destruct rb; exact Last.
  - exists t. split; [exact (OAAsk _ _ _ _ _ _ _ _ _ _ _ _ _ Ck T Cd Hin Hmp Es (asked_world _ _ _ T4 A))|]. specialize (Last _ B). destruct rb; exact Last.
Qed.

(* ---- GenerateKey ---- *)
Lemma GenerateKey_mute C k pass opts : mute (GenerateKey C k pass opts).
Proof.
  intro w. rewrite GenerateKey_eq. destruct (GenerateKeypair C pass opts w) as [r1 w1] eqn:E1.
  destruct (generate_world _ _ _ _ _ _ E1) as (N1 & g & ->).
  destruct r1 as [[priv pub]|e|]; try (apply prints_nothing; reflexivity).
  pose proof (mute_WriteFile (sec_path k) (sec_file priv) 420 (set_rng w g)) as S1.
  destruct (WriteFile (sec_path k) (sec_file priv) 420 (set_rng w g)) as [[u|e|] w2]; cbn [snd] in S1;
    apply (prints_log w (set_rng w g)) in S1; try reflexivity; try exact S1.
  exact (silent_trans _ _ _ S1 (mute_WriteFile _ _ _ w2)).
Qed.

Lemma GenerateKeypair_fails C pass opts w : LengthLaws C ->
  ((length (w_rng w) < 56)%nat -> fst (GenerateKeypair C pass opts w) = Err ERand) /\
  ((56 <= length (w_rng w))%nat -> pass <> [] -> rounds_of opts mod 4294967296 = 0 ->
    fst (GenerateKeypair C pass opts w) = Err (EMsg (str "bcrypt_pbkdf: number of rounds is too small"))).
Proof.
  intro LL. unfold GenerateKeypair, bind. rewrite rand_read_eq. 
  destruct (Nat.ltb_spec (length (w_rng w)) 32); [split; [reflexivity|intros; lia]|].
  rewrite rand_read_eq. unfold saltLength. cbn [w_rng set_rng]. rewrite skipn_length.
  destruct (Nat.ltb_spec (length (w_rng w) - 32) 16); [split; [reflexivity|intros; lia]|].
  rewrite rand_read_eq. unfold keyNumLength. cbn [w_rng set_rng]. rewrite !skipn_length.
  destruct (Nat.ltb_spec (length (w_rng w) - 32 - 16) 8); [split; [reflexivity|intros; lia]|].
  split; [intros; lia|]. intros _ Np Er.
  assert (Er' : match opts with Some r => r | None => defaultRounds end mod 4294967296 = 0) by (destruct opts; exact Er).
  destruct pass as [|c pass]; [contradiction|]. rewrite Er'. unfold lift. rewrite bcrypt_Key_ok.
  - reflexivity.
  - rewrite firstn_length, skipn_length. lia.
Qed.

Lemma generate_outcome_fun w pass r o o' : generate_outcome w pass r o -> generate_outcome w pass r o' -> o = o'.
Proof. intros [A|A B D|A B] [A'|A' B' D'|A' B']; try reflexivity; try lia; exfalso; tauto. Qed.

Lemma GenerateKey_has_outcome C k pass opts w : LengthLaws C -> no_faults w ->
  generate_outcome w pass (rounds_of opts) (fst (GenerateKey C k pass opts w)).
Proof.
  intros LL Hn. destruct (GenerateKeypair_fails C pass opts w LL) as [F1 F2].
  destruct (Nat.lt_ge_cases (length (w_rng w)) 56) as [L|L].
  { rewrite GenerateKey_eq. specialize (F1 L). destruct (GenerateKeypair C pass opts w) as [[[pr pu]|e|] w1]; cbn [fst] in *; try discriminate.
    injection F1 as ->. apply GRandom, L. }
  assert (D : {pass = []} + {pass <> []}) by (destruct pass; [left; reflexivity|right; discriminate]).
  assert (Good : pass = [] \/ rounds_of opts mod 4294967296 <> 0 -> generate_outcome w pass (rounds_of opts) (fst (GenerateKey C k pass opts w))).
  { intro G. destruct (GenerateKey_runs C k pass opts w LL L G Hn) as (w' & E & _). rewrite E. apply GDone; assumption. }
  destruct D as [D|D]; [apply Good; left; exact D|].
  destruct (Z.eq_dec (rounds_of opts mod 4294967296) 0) as [Z0|Z0]; [|apply Good; right; exact Z0].
  rewrite GenerateKey_eq. specialize (F2 L D Z0). destruct (GenerateKeypair C pass opts w) as [[[pr pu]|e|] w1]; cbn [fst] in *; try discriminate.
  injection F2 as ->. apply GRounds; assumption.
Qed.
Theorem GenerateKey_outcome C k pass opts w r : LengthLaws C -> no_faults w ->
  fst (GenerateKey C k pass opts w) = r <-> generate_outcome w pass (rounds_of opts) r.
Proof.
  intros LL Hn. pose proof (GenerateKey_has_outcome C k pass opts w LL Hn) as H. split; [intros <-; exact H|].
  exact (generate_outcome_fun _ _ _ _ _ H).
Qed.

(* ---- PassphrasePrompt(true) ---- *)
Lemma Prompt_prints w : exists p, prints w (snd (PassphrasePrompt true w)) p /\
  match fst (PassphrasePrompt true w) with
  | Ok i => exists pass, new_pass w (Ok pass) p /\ buf_get i (snd (PassphrasePrompt true w)) = (Ok pass, snd (PassphrasePrompt true w)) /\
      w_rng (snd (PassphrasePrompt true w)) = w_rng w /\ w_faults (snd (PassphrasePrompt true w)) = w_faults w
  | Err e => new_pass w (Err e) p
  | Panic => new_pass w Panic p
  end.
Proof.
  rewrite prompt_true. destruct (w_tty w) as [|[a|e|] t] eqn:Ty; cbn [fst snd].
  - exists [EvOut (str "Password: ")]. split; [apply prompt_out; reflexivity|]. apply NPFirst. unfold answers. rewrite Ty. reflexivity.
  - pose proof (prints_trans _ _ _ _ _ (prints_ask w w a t eq_refl) (prints_out (ask_world w a t) (str "Confirm password: "))) as S1. cbn [app] in S1. cbv zeta.
    destruct t as [|[b|e|] t2]; cbn [fst snd].
    + eexists. split; [exact S1|]. exact (NPSecond w a [] ETty Ty eq_refl).
    + exists twice. split.
      { refine (prints_log_r _ (emit (emit (ask_world w a (Ok b :: t2)) (EvOut (str "Confirm password: "))) (EvOut [x0a])) _ _ eq_refl _).
        exact (prints_trans _ _ _ _ _ S1 (prints_out _ _)). }
      destruct (bytes_eqb a b) eqn:E.
      * apply bytes_eqb_eq in E. subst b. exists a. split; [exact (NPSame w a t2 Ty)|]. split; [|split; reflexivity].
        unfold buf_get. cbn [w_bufs set_bufs]. rewrite nth_error_app2, Nat.sub_diag by lia. reflexivity.
      * apply bytes_eqb_neq in E. exact (NPDiffer w a b t2 Ty E).
    + eexists. split; [exact S1|]. exact (NPSecond w a (Err e :: t2) e Ty eq_refl).
    + eexists. split; [exact S1|]. exact (NPSecondPanic w a (Panic :: t2) Ty eq_refl).
  - exists [EvOut (str "Password: ")]. split; [apply prompt_out; reflexivity|]. apply NPFirst. unfold answers. rewrite Ty. reflexivity.
  - exists [EvOut (str "Password: ")]. split; [apply prompt_out; reflexivity|]. apply NPFirstPanic. unfold answers. rewrite Ty. reflexivity.
Qed.

(* ---- the command ---- *)
Lemma shown_errText e : shown e (errText e).
Proof. intros t []; reflexivity. Qed.

Lemma action_prints m failed ok w p o : prints w (snd (m w)) p -> fst (m w) = o ->
  let done := match ok with Some t => [EvOut (line t)] | None => [] end in
  exists n w' t, action m (fun e => line (failed (errText e))) (option_map line ok) w = (n, w') /\ report failed done o n t /\ prints w w' (p ++ t).
Proof.
  intros S1 <- done. unfold action. destruct (m w) as [[u|e|] w1]; cbn [fst snd] in *.
  - destruct u. unfold done. destruct ok as [t|]; cbn [option_map].
    + eexists _, _, _. split; [reflexivity|]. split; [apply RepOk|]. exact (prints_trans _ _ _ _ _ S1 (prints_out _ _)).
    + eexists _, _, _. split; [reflexivity|]. split; [apply RepOk|]. rewrite app_nil_r. exact S1.
  - eexists _, _, _. split; [reflexivity|]. split; [exact (RepErr _ _ _ _ (shown_errText e))|]. exact (prints_trans _ _ _ _ _ S1 (prints_err _ _)).
  - eexists _, _, _. split; [reflexivity|]. split; [apply RepPanic|]. rewrite app_nil_r. exact S1.
Qed.

Lemma usage_text arg0 : usageText arg0 = usage arg0.
Proof. unfold usageText, usage, line. cbn [map concat app]. rewrite <- ?app_assoc. cbn [app]. rewrite <- ?app_assoc. reflexivity. Qed.

Lemma mode_G ss : bool_value x47 ss = true -> mode ss x47.
Proof. intro H. split; [exact H|]. exists [], (str "SVED"). split; [reflexivity|]. intros d []. Qed.
Lemma mode_S ss : bool_value x47 ss = false -> bool_value x53 ss = true -> mode ss x53.
Proof. intros G H. split; [exact H|]. exists (str "G"), (str "VED"). split; [reflexivity|]. intros d [<- | []]. exact G. Qed.
Lemma mode_V ss : bool_value x47 ss = false -> bool_value x53 ss = false -> bool_value x56 ss = true -> mode ss x56.
Proof. intros G S H. split; [exact H|]. exists (str "GS"), (str "ED"). split; [reflexivity|]. intros d [<- |[<- | []]]; assumption. Qed.
Lemma mode_E ss : bool_value x47 ss = false -> bool_value x53 ss = false -> bool_value x56 ss = false -> bool_value x45 ss = true -> mode ss x45.
Proof. intros G S V H. split; [exact H|]. exists (str "GSV"), (str "D"). split; [reflexivity|]. intros d [<- |[<- |[<- | []]]]; assumption. Qed.
Lemma mode_D ss : bool_value x47 ss = false -> bool_value x53 ss = false -> bool_value x56 ss = false -> bool_value x45 ss = false ->
  bool_value x44 ss = true -> mode ss x44.
Proof. intros G S V E H. split; [exact H|]. exists (str "GSVE"), []. split; [reflexivity|]. intros d [<- |[<- |[<- |[<- | []]]]]; assumption. Qed.

Lemma generate_world_outcome w w1 pass r o : w_rng w1 = w_rng w -> generate_outcome w1 pass r o -> generate_outcome w pass r o.
Proof. intros E [A|A B D|A B]; rewrite E in A; [apply GRandom|apply GRounds|apply GDone]; assumption. Qed.

Theorem main_prints C arg0 u ss args rest w : LengthLaws C -> command_line ss args rest -> stops rest ->
  (mode ss x47 \/ mode ss x45 \/ mode ss x44 -> no_faults w) ->
  (mode ss x45 -> enc_path (string_value x6d ss) (string_value x63 ss) <> string_value x6d ss /\
     forall m, contents w (string_value x6d ss) m -> Z.of_nat (length m) < 2 ^ 63) ->
  (mode ss x44 -> string_value x63 ss <> string_value x6d ss) ->
  exists n w' t, main C arg0 u args w = (n, w') /\ session C (box_secret C) arg0 u ss w n t /\ prints w w' t.
Proof.
  intros LL Hc Hs Hn HE HD. rewrite (main_dispatch _ _ _ _ _ _ _ Hc Hs). unfold dispatch.
  cbn [flags_of f_s f_p f_G f_S f_V f_E f_D f_m f_x f_c f_n]. rewrite !or_default_eq. cbv zeta.
  destruct (bool_value x47 ss) eqn:G.
  { pose proof (mode_G ss G) as M. specialize (Hn (or_introl M)). unfold generateAction.
    set (kp := or_default (string_value x70 ss) (defaultKeyBase u) (str ".pub")).
    destruct (isEmpty kp) eqn:Ek.
    { eexists _, _, _. split; [reflexivity|]. split; [|apply prints_err]. apply Generate_unnamed; [exact M|]. fold kp. destruct kp; [reflexivity|discriminate]. }
    assert (Nk : kp <> []) by (destruct kp; discriminate). clear Ek.
    assert (Gen : forall pass w1 p, prints w w1 p -> w_rng w1 = w_rng w -> w_faults w1 = w_faults w ->
      exists o n w' t, action (GenerateKey C kp pass None) (fun e => str "Failed to generate keypair: " ++ errText e ++ [x0a]) None w1 = (n, w') /\
        generate_outcome w pass 42 o /\ report (fun s => str "Failed to generate keypair: " ++ s) [] o n t /\ prints w w' (p ++ t)).
    { intros pass w1 p S1 R1 F1.
      pose proof (action_prints (GenerateKey C kp pass None) (fun s => str "Failed to generate keypair: " ++ s) None w1 [] _ (GenerateKey_mute C kp pass None w1) eq_refl) as (n & w' & t & A & R & S2).
      exists (fst (GenerateKey C kp pass None w1)), n, w', t. split; [exact A|]. split; [|split; [exact R|exact (prints_trans _ _ _ _ _ S1 S2)]].
      apply (generate_world_outcome w w1 _ _ _ R1). apply (GenerateKey_has_outcome C kp pass None w1 LL). unfold no_faults. rewrite F1. exact Hn. }
    destruct (bool_value x6e ss) eqn:N.
    { destruct (Gen [] w [] (prints_nothing _ _ eq_refl) eq_refl eq_refl) as (o & n & w' & t & A & O & R & S2).
      exists n, w', t. split; [exact A|]. split; [|exact S2]. exact (Generate_open _ _ _ _ _ _ o n t M Nk N O R). }
    destruct (Prompt_prints w) as (p & S1 & P). destruct (PassphrasePrompt true w) as [[i|e|] w1]; cbn [fst snd] in *.
    - destruct P as (pass & P & B & R1 & F1). rewrite B.
      destruct (Gen pass w1 p S1 R1 F1) as (o & n & w' & t & A & O & R & S2).
      exists n, w', (p ++ t). split; [exact A|]. split; [|exact S2]. exact (Generate_locked _ _ _ _ _ _ pass o n t p M Nk N P O R).
    - eexists _, _, _. split; [reflexivity|]. split; [exact (Generate_error _ _ _ _ _ _ e _ p M Nk N P (shown_errText e))|].
      exact (prints_trans _ _ _ _ _ S1 (prints_err _ _)).
    - eexists _, _, _. split; [reflexivity|]. split; [exact (Generate_panic _ _ _ _ _ _ p M Nk N P)|exact S1]. }
  destruct (bool_value x53 ss) eqn:S.
  { pose proof (mode_S ss G S) as M. set (kp := or_default (string_value x73 ss) (defaultKeyBase u) (str ".sec")). set (mp := string_value x6d ss).
    destruct (isEmpty kp || isEmpty mp) eqn:Ek.
    { eexists _, _, _. split; [reflexivity|]. split; [|apply prints_err]. apply Sign_missing; [exact M|]. fold kp mp.
      destruct kp; [left; reflexivity|]. destruct mp; [right; reflexivity|discriminate]. }
    assert (Nk : kp <> []) by (destruct kp; discriminate). assert (Nm : mp <> []) by (destruct kp, mp; discriminate).
    destruct (Sign_prints C kp mp (string_value x78 ss) w) as (p & P & S1).
    pose proof (action_prints (Sign C kp mp (string_value x78 ss)) (fun s => str "Signing " ++ mp ++ str " failed: " ++ s) None w p _ S1 eq_refl) as (n & w' & t & A & R & S2).
    exists n, w', (p ++ t). split.
    { rewrite <- A. unfold action, line. destruct (Sign C kp mp (string_value x78 ss) w) as [[?|e|] w1]; [reflexivity| |reflexivity].
      rewrite <- !app_assoc. reflexivity. }
    split; [|exact S2]. apply (Signing _ _ _ _ _ _ p (fst (Sign C kp mp (string_value x78 ss) w)) n t M Nk Nm P); [|exact R].
    apply (Sign_outcome C kp mp (string_value x78 ss) w). reflexivity. }
  destruct (bool_value x56 ss) eqn:V.
  { pose proof (mode_V ss G S V) as M. set (kp := or_default (string_value x70 ss) (defaultKeyBase u) (str ".pub")). set (mp := string_value x6d ss).
    pose proof (action_prints (Verify C kp mp (string_value x78 ss)) (fun _ => mp ++ str ": invalid signature") (Some (mp ++ str ": OK")) w [] _ (Verify_prints C kp mp (string_value x78 ss) w) eq_refl) as (n & w' & t & A & R & S2).
    exists n, w', t. split.
    { rewrite <- A. unfold action, line, option_map. destruct (Verify C kp mp (string_value x78 ss) w) as [[?|e|] w1]; rewrite <- ?app_assoc; reflexivity. }
    split; [|exact S2]. apply (Verifying _ _ _ _ _ _ (fst (Verify C kp mp (string_value x78 ss) w)) n t M); [|exact R].
    apply (Verify_outcome C kp mp (string_value x78 ss) w). reflexivity. }
  destruct (bool_value x45 ss) eqn:E.
  { pose proof (mode_E ss G S V E) as M. set (kp := or_default (string_value x70 ss) (defaultKeyBase u) (str ".pub")). set (mp := string_value x6d ss).
    destruct (HE M) as [H1 H2]. specialize (Hn (or_intror (or_introl M))).
    pose proof (action_prints (Seal C kp mp (string_value x63 ss)) (fun s => s) (Some (mp ++ str ": OK")) w [] _ (Seal_prints C kp mp (string_value x63 ss) w) eq_refl) as (n & w' & t & A & R & S2).
    exists n, w', t. split.
    { rewrite <- A. unfold action, line, option_map. destruct (Seal C kp mp (string_value x63 ss) w) as [[?|e|] w1]; rewrite <- ?app_assoc; reflexivity. }
    split; [|exact S2]. apply (Sealing _ _ _ _ _ _ (fst (Seal C kp mp (string_value x63 ss) w)) n t M); [|exact R].
    apply (Seal_outcome C kp mp (string_value x63 ss) w _ Hn H1 H2). reflexivity. }
  destruct (bool_value x44 ss) eqn:D.
  { pose proof (mode_D ss G S V E D) as M. set (kp := or_default (string_value x73 ss) (defaultKeyBase u) (str ".sec")). set (mp := string_value x6d ss).
    set (ep := string_value x63 ss). specialize (HD M). specialize (Hn (or_intror (or_intror M))).
    destruct (Open_prints C kp ep mp w Hn) as (p & P & S1).
    pose proof (action_prints (Open C kp ep mp) (fun s => s) (Some (ep ++ str ": OK")) w p _ S1 eq_refl) as (n & w' & t & A & R & S2).
    exists n, w', (p ++ t). split.
    { rewrite <- A. unfold action, line, option_map. destruct (Open C kp ep mp w) as [[?|e|] w1]; rewrite <- ?app_assoc; reflexivity. }
    split; [|exact S2]. apply (Opening _ _ _ _ _ _ p (fst (Open C kp ep mp w)) n t M P); [|exact R].
    apply (Open_outcome C kp ep mp w _ Hn HD). reflexivity. }
  eexists _, _, _. split; [reflexivity|]. rewrite usage_text. split; [|apply prints_err]. apply Nothing.
  intros c [<- |[<- |[<- |[<- |[<- |[]]]]]]; assumption.
Qed.

(* ---- command lines that cannot be read ---- *)
Lemma quote_byte b t q : b2z b <= 126 -> quoted t q -> quoted (b :: t) (quoteByte b ++ q).
Proof.
  intros Hb Q.
  assert (L : forall c e, In (c, e) escapes -> quoteByte c = [x5c; e] -> quoted (c :: t) (quoteByte c ++ q)).
  { intros c e I E. rewrite E. exact (QLetter c e t q I Q). }
  assert (H : forall c i j, b2z c <? 32 = true -> existsb (fun ce => beqb c (fst ce)) escapes = false -> (i < 16)%nat -> (j < 16)%nat ->
    b2z c = 16 * Z.of_nat i + Z.of_nat j -> quoteByte c = [x5c; x78; nth i (str "0123456789abcdef") x00; nth j (str "0123456789abcdef") x00] ->
    quoted (c :: t) (quoteByte c ++ q)).
  { intros c i j Lc Ne Hi Hj V E. rewrite E. apply (QHex c _ _ i j); [apply Z.ltb_lt, Lc| | | |exact V|exact Q].
    - intros e X. assert (Y : existsb (fun ce => beqb c (fst ce)) escapes = true).
      { apply existsb_exists. exists (c, e). split; [exact X|apply beqb_refl]. } rewrite Y in Ne. discriminate Ne.
    - apply nth_error_nth'. exact Hi.
    - apply nth_error_nth'. exact Hj. }
  assert (P : forall c, (32 <=? b2z c) && (b2z c <=? 126) && negb (beqb c x22) && negb (beqb c x5c) = true -> quoteByte c = [c] -> quoted (c :: t) (quoteByte c ++ q)).
  { intros c B E. rewrite E. apply andb_true_iff in B as [B B4]. apply andb_true_iff in B as [B B3]. apply andb_true_iff in B as [B1 B2].
    apply QPlain; [split; apply Z.leb_le; assumption|apply beqb_neq, negb_true_iff, B3|apply beqb_neq, negb_true_iff, B4|exact Q]. }
  destruct b; try (exfalso; vm_compute in Hb; apply Hb; reflexivity);
  first [apply P; reflexivity
        |eapply L; [cbn; repeat first [left; reflexivity|right]|reflexivity]
        |match goal with |- quoted (?c :: _) _ =>
           let i := eval vm_compute in (Z.to_nat (b2z c / 16)) in let j := eval vm_compute in (Z.to_nat (b2z c mod 16)) in
           apply (H c i j); [reflexivity|reflexivity|lia|lia|reflexivity|reflexivity] end].
Qed.
Lemma quote_text t : (forall b, In b t -> b2z b <= 126) -> quoted t (concat (map quoteByte t)).
Proof.
  induction t as [|b t IH]; intro H; [constructor|]. cbn [map concat]. apply quote_byte; [apply H; left; reflexivity|]. apply IH. intros c X. apply H. right. exact X.
Qed.
Definition said (msg : bytes) : list event := match msg with [] => [] | _ => [EvErr msg] end.
Lemma parseOne_complaint args f : malformed args -> exists msg, parseOne args f = Bad msg /\ complaint args (said msg).
Proof.
  intros [d r rest Hd|r rest|d s n v rest Hd Hs Hne Hn Hu|d c t rest Hd Hc Ht|d c Hd Hc].
  - rewrite (parseOne_dashes d x3d) by (assumption || discriminate). unfold parseFlag. change (beqb x3d x3d) with true. rewrite orb_true_r. eexists. split; [reflexivity|].
    pose proof (CEq d r rest Hd) as X. destruct Hd as [-> | ->]; exact X.
  - change (str "---" ++ r) with (x2d :: x2d :: x2d :: r). cbn [parseOne]. change (beqb x2d x2d) with true. cbn [negb].
    unfold parseFlag. change (beqb x2d x2d) with true. cbn [orb]. eexists. split; [reflexivity|]. exact (CDashes r rest).
  - destruct s as [|c s]; [contradiction|].
    assert (N1 : c <> x2d) by (intros ->; destruct (Hne s) as [X _]; contradiction).
    assert (N2 : c <> x3d) by (intros ->; destruct (Hne s) as [_ X]; contradiction).
    rewrite (parseOne_dashes d c s) by assumption. unfold parseFlag. apply beqb_neq in N1, N2. rewrite N1, N2. cbn [orb].
    pose proof Hn as Hn'. apply split_name_names in Hn; [|discriminate]. rewrite Hn.
    pose proof (kind_inv n) as K. destruct (kindOf n).
    + destruct K as (x & E & X). destruct (Hu x E) as [Y _]. contradiction.
    + destruct K as (x & E & X). destruct (Hu x E) as [_ Y]. contradiction.
    + destruct (bytes_eqb n (str "help")) eqn:E1; cbn [orb].
      { apply bytes_eqb_eq in E1. exists []. split; [reflexivity|]. exact (CHelp d (c :: s) n v rest Hd Hn' (or_intror E1)). }
      destruct (bytes_eqb n (str "h")) eqn:E2.
      { apply bytes_eqb_eq in E2. exists []. split; [reflexivity|]. exact (CHelp d (c :: s) n v rest Hd Hn' (or_introl E2)). }
      apply bytes_eqb_neq in E1, E2. eexists. split; [reflexivity|]. exact (CUnknown d (c :: s) n v rest Hd Hs Hne Hn' Hu E2 E1).
  - destruct (flag_char c) as [F1 F2]; [auto|]. assert (N : c <> x2d) by (apply beqb_neq, F1).
    rewrite (parseOne_dashes d c) by assumption. unfold parseFlag. rewrite F1, F2. cbn [orb split_name split_eq].
    change (beqb x3d x3d) with true. cbn iota. rewrite kind_bool by exact Hc.
    destruct (ParseBool t) as [v|] eqn:E; [apply parse_bool in E; contradiction (Ht v)|]. eexists. split; [reflexivity|].
    pose proof (CBool d c t (Quote t) rest Hd Hc Ht (fun P => ex_intro _ _ (conj (quote_text t P) eq_refl))) as X. unfold line in X.
    match goal with |- complaint _ (said ?m) => match type of X with complaint _ [EvErr ?m'] => assert (Em : m' = m) end end.
    { rewrite <- !app_assoc. reflexivity. }
    rewrite Em in X. exact X.
  - destruct (flag_char c) as [F1 F2]; [auto|]. assert (N : c <> x2d) by (apply beqb_neq, F1).
    rewrite (parseOne_dashes d c []) by assumption. unfold parseFlag. rewrite F1, F2. cbn [orb split_name split_eq].
    rewrite kind_string by exact Hc. eexists. split; [reflexivity|]. exact (CMissing d c Hd Hc).
Qed.

Theorem main_complains C arg0 u ss args rest w : command_line ss args rest -> malformed rest ->
  exists w' t, main C arg0 u args w = (0, w') /\ complaint rest t /\ prints w w' (t ++ [EvOut (usage arg0)]).
Proof.
  intros Hc Hm. destruct (parseOne_complaint rest (flags_of ss) Hm) as (msg & E & X).
  assert (F : flagParse args = Malformed msg).
  { rewrite (flagParse_settings _ _ _ Hc). cbn [parseArgs]. rewrite E. reflexivity. }
  unfold main. rewrite F, usage_text. eexists _, (said msg). split; [reflexivity|]. split; [exact X|].
  destruct msg as [|c msg]; [exact (prints_out _ _)|]. exact (prints_trans _ _ _ _ _ (prints_err _ _) (prints_out _ _)).
Qed.

(* ---- the status is determined ---- *)
Lemma report_fun failed done o n t n' t' : report failed done o n t -> report failed done o n' t' -> n = n'.
Proof. intros [|e s A|] H; inversion H; reflexivity. Qed.
Lemma mode_fun ss c c' : mode ss c -> mode ss c' -> c = c'.
Proof.
  intros (H & b & a & E & F) (H' & b' & a' & E' & F'). rewrite E in E'. clear E. revert b' E' F'.
  induction b as [|x b IH]; intros [|x' b'] E' F'; cbn [app] in E'; injection E' as X Y.
  - congruence.
  - subst x'. rewrite (F' c (or_introl eq_refl)) in H. discriminate.
  - subst x. rewrite (F c' (or_introl eq_refl)) in H'. discriminate.
  - subst x'. apply (IH (fun d I => F d (or_intror I)) b' Y (fun d I => F' d (or_intror I))).
Qed.
Lemma new_pass_fun w r p r' p' : new_pass w r p -> new_pass w r' p' -> r = r' /\ p = p'.
Proof.
  intros A B. destruct A, B; unfold answers in *; repeat match goal with E : w_tty w = _ |- _ => rewrite E in *; clear E end; cbn [hd] in *;
    repeat match goal with
    | E : _ :: _ = _ :: _ |- _ => injection E; clear E; intros; subst
    | E : Ok _ = Ok _ |- _ => injection E; clear E; intros; subst
    | E : Err _ = Err _ |- _ => injection E; clear E; intros; subst
    end; cbn [hd] in *; try (split; reflexivity); try (split; congruence); try congruence.
Qed.
Ltac other_mode := match goal with A : mode ?ss ?c, B : mode ?ss ?d |- _ => discriminate (mode_fun ss c d A B)
  | A : mode ?ss ?c, B : forall c, In c (str "GSVED") -> bool_value c ?ss = false |- _ =>
      exfalso; destruct A as (A & _); rewrite B in A; [discriminate|cbn; tauto] end.
Lemma session_fun C secret arg0 u ss w n t n' t' : let pk := or_default (string_value x70 ss) (defaultKeyBase u) (str ".pub") in
  (forall r r', seal_outcome w pk (string_value x6d ss) r -> seal_outcome w pk (string_value x6d ss) r' -> mode ss x45 -> r = r') ->
  session C secret arg0 u ss w n t -> session C secret arg0 u ss w n' t' -> n = n'.
Proof.
  intros pk SF A B.
  destruct A as [M H|o n t M Nk N O R|pass o n t p M Nk N P O R|e s p M Nk N P H|p M Nk N P|M H|p o n t M Nk Nm P O R|o n t M O R|o n t M O R|p o n t M P O R|H];
  destruct B as [M' H'|o' n' t' M' Nk' N' O' R'|pass' o' n' t' p' M' Nk' N' P' O' R'|e' s' p' M' Nk' N' P' H'|p' M' Nk' N' P'|M' H'|p' o' n' t' M' Nk' Nm' P' O' R'|o' n' t' M' O' R'|o' n' t' M' O' R'|p' o' n' t' M' P' O' R'|H'];
  try reflexivity; try other_mode; try contradiction; try congruence;
  try (destruct (new_pass_fun _ _ _ _ _ P P') as [X _]; try discriminate X).
  - rewrite (generate_outcome_fun _ _ _ _ _ O O') in R. exact (report_fun _ _ _ _ _ _ _ R R').
  - injection X as ->. rewrite (generate_outcome_fun _ _ _ _ _ O O') in R. exact (report_fun _ _ _ _ _ _ _ R R').
  - destruct H; contradiction.
  - destruct H'; contradiction.
  - apply (Sign_outcome C _ _ (string_value x78 ss) w) in O. apply (Sign_outcome C _ _ (string_value x78 ss) w) in O'. rewrite O in O'. subst o'.
    exact (report_fun _ _ _ _ _ _ _ R R').
  - apply (Verify_outcome C _ _ (string_value x78 ss) w) in O. apply (Verify_outcome C _ _ (string_value x78 ss) w) in O'. rewrite O in O'. subst o'.
    exact (report_fun _ _ _ _ _ _ _ R R').
  - rewrite (SF _ _ O O' M) in R. exact (report_fun _ _ _ _ _ _ _ R R').
  - rewrite (open_outcome_fun _ _ _ _ _ _ _ _ _ O O') in R. exact (report_fun _ _ _ _ _ _ _ R R').
Qed.

Theorem session_status C arg0 u ss args rest w n t : LengthLaws C -> command_line ss args rest -> stops rest ->
  (mode ss x47 \/ mode ss x45 \/ mode ss x44 -> no_faults w) ->
  (mode ss x45 -> enc_path (string_value x6d ss) (string_value x63 ss) <> string_value x6d ss /\
     forall m, contents w (string_value x6d ss) m -> Z.of_nat (length m) < 2 ^ 63) ->
  (mode ss x44 -> string_value x63 ss <> string_value x6d ss) ->
  session C (box_secret C) arg0 u ss w n t -> fst (main C arg0 u args w) = n.
Proof.
  intros LL Hc Hs Hn HE HD H. destruct (main_prints C arg0 u ss args rest w LL Hc Hs Hn HE HD) as (n' & w' & t' & E & H' & _). rewrite E. cbn [fst].
  refine (session_fun _ _ _ _ _ _ _ _ _ _ _ H' H). intros r r' O O' M. destruct (HE M) as [H1 H2].
  pose proof (proj2 (Seal_outcome C _ _ _ w r (Hn (or_intror (or_introl M))) H1 H2) O) as X.
  pose proof (proj2 (Seal_outcome C _ _ _ w r' (Hn (or_intror (or_introl M))) H1 H2) O') as Y. congruence.
Qed.

Theorem operations_print C :
  (forall pp mp x w, prints w (snd (Verify C pp mp x w)) []) /\
  (forall pk mp ep w, prints w (snd (Seal C pk mp ep w)) []) /\
  (forall k pass opts w, prints w (snd (GenerateKey C k pass opts w)) []) /\
  (forall kp mp x w, exists t, sign_asks w kp t /\ prints w (snd (Sign C kp mp x w)) t) /\
  (forall sk ep mp w, no_faults w -> exists t, open_asks (sha512 C) w sk ep mp t /\ prints w (snd (Open C sk ep mp w)) t).
Proof.
  split; [exact (Verify_prints C)|]. split; [exact (Seal_prints C)|]. split; [exact (GenerateKey_mute C)|].
  split; [exact (Sign_prints C)|exact (Open_prints C)].
Qed.
