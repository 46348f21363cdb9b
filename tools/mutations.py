"""Wrong programs: realistic bugs put into the model (see mutate.py)."""
MUTATIONS = []
def m(name, file, definition, old, new, claim, **kw):
    MUTATIONS.append(dict(name=name, file=file, definition=definition, old=old, new=new, claim=claim, **kw))

# ---- base64 streaming
m("b64-line-57", "B64Stream.v", "decodedSize", "Definition decodedSize : Z := 54.", "Definition decodedSize : Z := 57.",
  "C01/C02: lines of 72 characters")
m("b64-close-twice-newline", "B64Stream.v", "enc_close", "        let e := Enc 0 (e_buf e) 0 in\n", "        let e := Enc 0 (e_buf e) (e_index e) in\n",
  "Close forgets to reset the pending count: a second Close or a later Write repeats the last bytes")
m("b64-close-no-newline", "B64Stream.v", "enc_close",
  "        let '((_, err), s) := wr [x0a] s in\n        (err, (e, s))\n    end\n  else", "        (None, (e, s))\n    end\n  else",
  "C01: the last line ends with a newline")
m("b64-write-line-reset", "B64Stream.v", "enc_write_loop", "enc_write_loop wr r (written + 3) (Enc 0 buf 0) s", "enc_write_loop wr r (written + 3) (Enc line buf 0) s",
  "C01: only the first line is wrapped")
m("b64-write-error-dropped", "B64Stream.v", "enc_write_loop", "        | Some x => ((written, Some x), (Enc (e_line e) buf 0, s))\n        | None =>", "        | Some x => enc_write_loop wr r written (Enc (e_line e) buf 0) s\n        | None =>",
  "C03: a failed write is reported")
m("b64-read-counts-newlines", "B64Stream.v", "dec_loop", "if beqb c x0a then dec_loop fuel rd enclen c n buf s", "if beqb c x0a then dec_loop fuel rd enclen c (n + 1) buf s",
  "C04: newlines do not count towards the characters of a read")
m("b64-read-skips-cr", "B64Stream.v", "dec_loop", "if beqb c x0a then dec_loop", "if beqb c x0a || beqb c x0d || beqb c x20 then dec_loop",
  "C08: only newlines are skipped by the reader")
m("b64-read-eof-error", "B64Stream.v", "dec_loop", "          | Some EOF => (Some (Ok buf), s)\n", "          | Some EOF => (Some (Err ErrUnexpectedEOF), s)\n",
  "C04/C07: at the end of the input the decoder returns what it has")
m("b64-read-error-swallowed", "B64Stream.v", "dec_loop", "          | Some e => (Some (Err e), s)\n", "          | Some e => (Some (Ok buf), s)\n",
  "C07: a read error is reported")
m("b64-enclen-floor", "GoBase64.v", "EncodedLen", "(n + 2) / 3 * 4.", "(n + 1) / 3 * 4.", "C04/C06: length of the encoding")
m("b64-decode-lenient-pad", "GoBase64.v", "decodeQuantum", "      | _ => Quantum [] [] (Some CorruptInput)        (* padding is required *)", "      | _ => Quantum [] (quantum_out d (length d)) None        (* padding is required *)",
  "C08: padding is required")
m("b64-alphabet-url", "GoBase64.v", "encodeStd", "0123456789+/", "0123456789-_", "C01/C06: RFC 4648 standard alphabet")
m("b64-encode-shift", "GoBase64.v", "StdEncode", "[enc_char (Z.shiftr v 18); enc_char (Z.shiftr v 12); enc_char (Z.shiftr v 6); padChar]", "[enc_char (Z.shiftr v 18); enc_char (Z.shiftr v 12); enc_char v; padChar]",
  "C01: two remaining bytes are encoded in three characters")
m("b64-decode-trailing", "GoBase64.v", "decodeQuantum", "                   let r3 := skip_nl r in\n                   Quantum r3 (quantum_out d 3)\n                     (match r3 with [] => None | _ => Some CorruptInput end)", "                   let r3 := skip_nl r in\n                   Quantum [] (quantum_out d 3) None",
  "C08: nothing may follow the padding")

# ---- data files
m("df-no-final-newline", "DataFile.v", "df_Encode", "df_comment d ++ [x0a] ++ df_data d ++ [x0a].", "df_comment d ++ [x0a] ++ df_data d.", "C09: the data line ends with a newline")
m("df-first-line-skipped", "DataFile.v", "scan_loop", "        if has_prefix commentPrefix line\n", "        if has_prefix (str \"untrusted\") line\n", "C10: which lines are comments")
m("df-comment-replaced", "DataFile.v", "scan_loop", "scan_loop rest line (comment ++ skipn (length commentPrefix) line)", "scan_loop rest line (skipn (length commentPrefix) line)", "C10: the comments of several lines are joined")
m("df-mode-600", "DataFile.v", "writeDataFile", "(dataFileBytes comment data) 420.", "(dataFileBytes comment data) 384.", "C27: the secret key file is created with mode 0644 (refuted expectation)")
m("df-no-dropcr", "DataFile.v", "scan_loop", "let line := dropCR raw in", "let line := raw in", "C10/C11: carriage returns at line ends")
m("df-zero-noop", "DataFile.v", "zero_bytes", "map (fun x => bxor x x) b.", "map (fun x => bxor x x00) b.", "C22/C46: passphrase buffers are wiped")

# ---- keys
m("key-rounds-le", "Keys.v", "priv_encode", "be_encode 4 (kdfRounds p)", "rev (be_encode 4 (kdfRounds p))", "C12: rounds are big-endian")
m("key-encode-swap", "Keys.v", "priv_encode", "salt p ++ checksum p ++", "checksum p ++ salt p ++", "C12: field order of secret keys")
m("key-isencrypted-algo", "Keys.v", "IsEncrypted", "kdfRounds p >? 0.", "kdfRounds p >? 1.", "C16: a key is encrypted iff it has rounds")
m("key-check-prefix", "Keys.v", "Check", "bytes_eqb (firstn checksumLength digest) (checksum p)", "bytes_eqb (firstn 4 digest) (firstn 4 (checksum p))", "C17: the whole checksum is compared")
m("key-decrypt-nocheck", "Keys.v", "decrypt", "      | Err e => (Err e, p)\n      | Panic => (Panic, p)\n      | Ok _ => (Ok tt, p)\n", "      | _ => (Ok tt, p)\n", "C17/C22: a wrong passphrase is detected")
m("key-decrypt-kdf-any", "Keys.v", "decrypt", "  else if negb (bytes_eqb (kdfAlgo p) (str \"BK\"))\n", "  else if negb (bytes_eqb (kdfAlgo p) (str \"BK\")) && false\n", "C18: unsupported KDFs are rejected")
m("key-sign-noalgo", "Keys.v", "priv_sign", "(fit 8 (keyNum p)) (fit 64", "(fit 8 []) (fit 64", "C20: the signature carries the key number")
m("key-read-strict", "Keys.v", "buffer_read", "Ok (fit n (firstn n buf), skipn n buf)", "if (length buf <? n)%nat then Err EOF else Ok (fit n (firstn n buf), skipn n buf)", "C14: short secret key data is zero-filled (refuted expectation)")
m("key-pub-lenient", "Keys.v", "readPublicKeyData", "  if negb (length data =? (keyAlgoLength + keyNumLength + publicKeyLength))%nat\n", "  if (length data <? (keyAlgoLength + keyNumLength + publicKeyLength))%nat\n", "C13: public key data has exactly 42 bytes")
m("key-verify-nonum", "Keys.v", "verifyEd25519", "negb (bytes_eqb (p_keyNum p) (s_keyNum s))", "negb (bytes_eqb (p_keyNum p) (p_keyNum p))", "C21/C23: the key numbers must agree")
m("key-verify-noalgo", "Keys.v", "verifyEd25519", "negb (bytes_eqb (pkAlgo s) (str \"Ed\"))", "false", "C21: the signature's algorithm is checked")
m("key-verify-arg-order", "Keys.v", "verifyEd25519", "negb (ed_verify C (p_key p) message (sig s))", "negb (ed_verify C (p_key p) (sig s) message)", "C20: the message is verified against the signature")
m("key-sig-short-accept", "Keys.v", "readSignatureData", "if (length data <? keyNumLength + 2)%nat then Panic", "if (length data <? keyNumLength + 2)%nat then Err EOF", "C15: short signature data panics (refuted expectation)")
m("key-sig-key-swap", "Keys.v", "signFinish", "writeDataFile signaturePath comment (sig_encode sg)", "writeDataFile messagePath comment (sig_encode sg)", "C19/C24: the signature is written to the signature path")
m("key-sign-no-wipe", "Keys.v", "Sign", "    defer (zero_buf i)\n      (pass <- buf_get i", "    defer (fun w => w)\n      (pass <- buf_get i", "C25: Sign wipes the passphrase")
m("key-sign-default-path", "Keys.v", "sigPathOf", "messagePath ++ str \".sig\"", "messagePath ++ str \".sign\"", "C24: default signature path")
m("key-verify-load-order", "Keys.v", "Verify", "  lift (pub_verify pub message sg).", "  match pub_verify pub message sg with Panic => panic | _ => ret tt end.", "C20: Verify reports an invalid signature")
m("key-gen-same-salt", "Keys.v", "GenerateKeypair", "  slt <- rand_read saltLength ;;\n  num <- rand_read keyNumLength ;;", "  slt <- rand_read saltLength ;;\n  let num := firstn 8 slt in", "C28: the key number is fresh randomness")
m("key-gen-digest-enc", "Keys.v", "GenerateKeypair", "  let digest := sha512 C edpriv in", "  let digest := sha512 C edpub in", "C26/C29: the checksum is that of the secret key")
m("key-gen-rounds-zero", "Keys.v", "GenerateKeypair", "[] => 0 | _ => rounds mod 4294967296 end", "[] => rounds mod 4294967296 | _ => rounds mod 4294967296 end", "C29: without a passphrase the key is not encrypted")
m("key-gen-pub-first", "Keys.v", "GenerateKey", "(keyPath ++ str \".pub\") (str \"untrusted comment: signify public key\") (pub_encode (snd pp))", "(keyPath ++ str \".pub\") (str \"untrusted comment: signify public key\") (priv_encode (fst pp))", "C29: the public key file does not hold the secret key")
m("key-tobox-noclamp", "Keys.v", "clamp", "(Z.land (b2z (nth 0 d x00)) 248)", "(Z.land (b2z (nth 0 d x00)) 255)", "the box key is clamped")
m("key-tobox-nocheck", "Keys.v", "priv_ToBox", "  match Check p with\n  | Ok _ => finish p w\n  | _ =>\n      match PassphrasePrompt", "  match negb (IsEncrypted p) with\n  | true => finish p w\n  | _ =>\n      match PassphrasePrompt", "Open: the checksum is tested before the key is used")
m("key-prompt-noconfirm", "Keys.v", "PassphrasePrompt", "       if bytes_eqb a b then ret i\n", "       if (length a =? length b)%nat then ret i\n", "C46: both entries must agree")
m("key-prompt-nowipe", "Keys.v", "PassphrasePrompt", "    defer (zero_buf j)\n", "    defer (zero_buf i)\n", "C46: the confirmation buffer is wiped")

# ---- sealing
m("seal-chunk-16384", "SealOpen.v", "chunkSize", "Definition chunkSize : Z := 16385.", "Definition chunkSize : Z := 16384.", "C31: pieces of 16385 bytes")
m("seal-nonce-fixed", "SealOpen.v", "seal_step", "          | (nonce, None) => inl (nonce, s)\n          end\n      end\n  end.\n\n(* number of chunks", "          | (_, None) => inl (nonce, s)\n          end\n      end\n  end.\n\n(* number of chunks", "C33/C30: every piece has its own nonce")
m("seal-nonce-low-first", "SealOpen.v", "incrementNonce", "  let '(r, o) := inc_rev (rev nonce) in\n  (rev r, ", "  let '(r, o) := inc_rev nonce in\n  (r, ", "C32: big-endian counter")
m("seal-nonce-stuck", "SealOpen.v", "inc_rev", "if negb (beqb b' x00) then (b' :: r, false)", "if negb (beqb b' xff) then (b' :: r, false)", "C32: carry")
m("seal-chunks-floor", "SealOpen.v", "chunksFor", "then chunks + 1 else chunks.", "then chunks else chunks.", "C30/C31: the last partial piece is sealed")
m("seal-chunks-extra", "SealOpen.v", "chunksFor", "then chunks + 1 else chunks.", "then chunks + 1 else chunks + 1.", "C30/C31: no extra piece at an exact multiple")
m("seal-header-noauth", "SealOpen.v", "sealHeader", "  h40 ++ auth_sum C h40 shared.", "  h40 ++ auth_sum C (be_encode 8 chunks) shared.", "C31: the authenticator covers count and key")
m("seal-empty-header", "SealOpen.v", "seal", "  if messageLen =? 0 then (Ok tt, s)\n  else match", "  if messageLen <? 0 then (Ok tt, s)\n  else match", "C36: sealing an empty message (refuted expectation)")
m("seal-own-key", "SealOpen.v", "seal", "box_precompute C edpub epriv", "box_precompute C (x25519_base C epriv) epriv", "C30: the shared key is with the recipient")
m("open-noauth", "SealOpen.v", "open_body", "        if negb (auth_Verify C (skipn 40 header) (firstn 40 header) shared)\n", "        if false && negb (auth_Verify C (skipn 40 header) (firstn 40 header) shared)\n", "C34: the header is authenticated")
m("open-short-header", "SealOpen.v", "open_body", "if negb (length header =? header_nat)%nat", "if (length header =? 0)%nat", "C57: short header")
m("open-skip-bad-chunk", "SealOpen.v", "open_step", "      | None => inr (Err (EChunk i), s)\n", "      | None => match incrementNonce nonce with (nonce, None) => inl (nonce, s) | (_, Some e) => inr (Err e, s) end\n", "C34: a piece that does not open is an error")
m("open-write-before-check", "SealOpen.v", "open_step", "      match box_open C chunk nonce shared with\n      | None => inr (Err (EChunk i), s)\n", "      match box_open C chunk nonce shared with\n      | None => let '(_, s) := w chunk s in inr (Err (EChunk i), s)\n", "C37/C38: only authenticated text is written")
m("open-nonce-fixed", "SealOpen.v", "open_step", "              | (nonce, None) => inl (nonce, s)\n              end\n          end", "              | (_, None) => inl (nonce, s)\n              end\n          end", "C30: pieces open with the counter as nonce")
m("open-chunk-index", "SealOpen.v", "open_step", "inr (Err (EChunk i), s)", "inr (Err (EChunk (i + 1)), s)", "C34/C35: index reported for the bad piece")
m("open-chunks-truncated", "SealOpen.v", "open_body", "be_decode (firstn 8 header)", "be_decode (firstn 4 (skipn 4 header))", "C34: the count has 64 bits")
m("open-create-first", "SealOpen.v", "Open", "  skipComment (file_fuel fd) (file_read fd) ;;;\n  create_file messagePath 438 ;;;", "  create_file messagePath 438 ;;;\n  skipComment (file_fuel fd) (file_read fd) ;;;", "the output is created only after the comment line was found")
m("seal-comment", "SealOpen.v", "Seal", "(str \"untrusted comment: psignify encrypted file\" ++ [x0a]) w with", "(str \"untrusted comment: psignify encrypted file\") w with", "C31: the comment is a line of its own")
m("seal-no-close", "SealOpen.v", "Seal", "        let '(_, es) := enc_close (file_write encryptedPath) es in\n", "", "C30/C31: the encoder is closed")
m("skip-comment-eof-ok", "SealOpen.v", "skip_loop", "          | Some e => (Some (Err e), s)\n          | None => if beqb c x0a", "          | Some EOF => (Some (Ok tt), s)\n          | Some e => (Some (Err e), s)\n          | None => if beqb c x0a", "C39: a file without a comment line is rejected")

# ---- command
m("flag-last-wins", "GoFlag.v", "setString", "  if bytes_eqb name (str \"c\") then Flags value m p s x n", "  if bytes_eqb name (str \"c\") then Flags (match c with [] => value | _ => c end) m p s x n", "C47: a repeated flag: the last one counts")
m("flag-eq-skip", "GoFlag.v", "split_eq", "if beqb c x3d then ([], Some r)", "if beqb c x3a then ([], Some r)", "C47: -f=value")
m("flag-dashdash", "GoFlag.v", "parseOne", "[] => Stop rest", "[] => parseFlag s r rest f", "C47: -- ends the flags")
m("flag-bool-yes", "GoFlag.v", "ParseBool", "str \"TRUE\"; str \"True\"]", "str \"TRUE\"; str \"True\"; str \"yes\"]", "C48: which boolean values are malformed")
m("flag-value-eats", "GoFlag.v", "parseFlag", "            | None => More (setBool name true f) rest\n", "            | None => More (setBool name true f) (tl rest)\n", "C47: boolean flags take no separate value")
m("cmd-priority", "Cmd.v", "dispatch", "  else if f_S f then\n    if isEmpty privKeyFile", "  else if f_S f && negb (f_V f) then\n    if isEmpty privKeyFile", "C47: -S goes before -V")
m("cmd-verify-exit0", "Cmd.v", "action", "  | (Err e, w) => (1, emit w (EvErr (onErr e)))", "  | (Err e, w) => (0, emit w (EvErr (onErr e)))", "C47: a failed action has exit status 1")
m("cmd-malformed-exit", "Cmd.v", "main", "      (0, emit w (EvOut (usageText arg0)))", "      (1, emit w (EvOut (usageText arg0)))", "C48: exit status 0 on malformed flags (refuted expectation)")
m("cmd-open-args", "Cmd.v", "dispatch", "action (Open C privKeyFile (f_c f) (f_m f))", "action (Open C privKeyFile (f_m f) (f_c f))", "C47: -D reads -c and writes -m")
m("cmd-default-pub", "Cmd.v", "dispatch", "                    then keyBase ++ str \".pub\" else f_p f in", "                    then keyBase else f_p f in", "C49: default names")
m("cmd-default-dir", "Cmd.v", "defaultKeyBase", "Join [home; str \".signify\"; name]", "Join [home; str \".psignify\"; name]", "C58: default directory")
m("cmd-generate-noask", "Cmd.v", "generateAction", "PassphrasePrompt true w with", "PassphrasePrompt false w with", "C47: -G asks twice")

# ---- package edwards25519: field
m("fe-mul-19-18", "Field.v", "FeMul", "let g7_19 := ((19 * g_7_)%i32)%i64 in", "let g7_19 := ((19 * g_6_)%i32)%i64 in", "C50: FeMul multiplies modulo p")
m("fe-mul-missing-2", "Field.v", "FeMul", "f7_2*g1 + f8*g0 + f9_2*g9_19)", "f7*g1 + f8*g0 + f9_2*g9_19)", "C50: the odd-odd products are doubled")
m("fe-square-38", "Field.v", "feSquare", "let f9_38 := (38 * f9)%i64 in", "let f9_38 := (19 * f9)%i64 in", "C50: FeSquare squares modulo p")
m("fe-combine-no-last-carry", "Field.v", "FeCombine", "  let h9 := (h9 - (c9 << 25))%i64 in\n  let c0 := ((h0 + (1 << 25)) >> 26)%i64 in\n  let h1 := (h1 + c0)%i64 in\n  let h0 := (h0 - (c0 << 26))%i64 in\n", "  let h9 := (h9 - (c9 << 25))%i64 in\n",
  "C50: limbs of the result stay within bounds")
m("fe-neg-limb", "Field.v", "FeNeg", "(0 - f_9_)%i32.", "(f_9_)%i32.", "C50: FeNeg negates")
m("fe-cmove-nomask", "Field.v", "FeCMove", "let b := i32 (- b) in", "let b := i32 b in", "C50/C66: the conditional move copies all bits")
m("fe-frombytes-mask", "Field.v", "FeFromBytes", "(((load3 src 29) && 8388607) << 2)%i64", "((load3 src 29) << 2)%i64", "C51: bit 255 is ignored")
m("fe-frombytes-shift", "Field.v", "FeFromBytes", "((load3 src 20) << 7)%i64", "((load3 src 20) << 6)%i64", "C51: FeFromBytes reads the little-endian value")
m("fe-tobytes-nocanon", "Field.v", "FeToBytes", "let h_0_ := (h_0_ + (19 * q))%i32 in\n", "", "C51: the encoding is the reduced value")
m("fe-tobytes-shift", "Field.v", "FeToBytes", "z2b ((h_6_ >> 23) || (h_7_ << 3))%i32", "z2b ((h_6_ >> 23) || (h_7_ << 2))%i32", "C51: FeToBytes writes the value")
m("fe-isnonzero-shift", "Field.v", "FeIsNonZero", "  let x := Z.lor x (Z.shiftr x 2) in\n", "", "C53/C62: FeIsNonZero sees every bit")
m("fe-isnegative-top", "Field.v", "FeIsNegative", "Z.land (byte_at s 0) 1, f'", "Z.land (byte_at s 31) 1, f'", "C62: the sign is the lowest bit of the reduced value")
m("fe-invert-steps", "Field.v", "FeInvert", "  let t3 := sqn 99 t3 in\n", "  let t3 := sqn 98 t3 in\n", "C52: FeInvert inverts")
m("fe-pow-steps", "Field.v", "fePow22523", "  let t0 := sqn 1 t0 in\n  FeMul t0 z.", "  let t0 := sqn 2 t0 in\n  FeMul t0 z.", "C53/C62: the square root exponent is (p-5)/8")
m("fe-d-limb", "Field.v", "fe_d", "(114729) (-8787816)", "(114729) (8787816)", "C53/C62: the constant of the curve equation")
m("fe-d2-limb", "Field.v", "fe_d2", "(29715968) (9444199)", "(29715968) (9444198)", "C61: the constant of the addition formula")
m("fe-load3-order", "Field.v", "load3", "(Z.shiftl (byte_at l (o + 1)) 8))\n        (Z.shiftl (byte_at l (o + 2)) 16)", "(Z.shiftl (byte_at l (o + 1)) 16))\n        (Z.shiftl (byte_at l (o + 2)) 8)", "C51: little-endian loads")
# ---- points
m("ge-decode-sign", "Group.v", "e_from_bytes", "if neg =? Z.shiftr (byte_at s 31) 7 then X else FeNeg X", "if neg =? Z.shiftr (byte_at s 31) 7 then FeNeg X else X", "C53/C62: the sign bit chooses the root")
m("ge-decode-no-check", "Group.v", "e_from_bytes", "    if fst (FeIsNonZero check) =? 1 then None\n    else\n", "", "C53/C62: strings that are no point are refused")
m("ge-decode-t", "Group.v", "e_from_bytes", "Some (EGE X Y Zc (FeMul X Y))", "Some (EGE X Y Zc (FeMul X X))", "C62: T is XY")
m("ge-tobytes-nosign", "Group.v", "xyz_to_bytes", "  flip_sign s neg.", "  s.", "C62: the sign is encoded")
m("ge-add-t2d", "Group.v", "geAdd", "  let rT := FeMul (c_T2d q) (eT p) in\n  let rX := FeMul (eZ p) (c_Z q) in\n  let t0 := FeAdd rX rX in\n  let rX := FeSub rZ rY in\n  let rY := FeAdd rZ rY in\n  let rZ := FeAdd t0 rT in", "  let rT := FeMul (c_T2d q) (eT p) in\n  let rX := FeMul (eZ p) (c_Z q) in\n  let t0 := FeAdd rX rX in\n  let rX := FeSub rZ rY in\n  let rY := FeAdd rZ rY in\n  let rZ := FeAdd rX rT in", "C61: geAdd adds")
m("ge-sub-swap", "Group.v", "geSub", "  let rZ := FeMul rX (c_yMinusX q) in\n  let rY := FeMul rY (c_yPlusX q) in", "  let rZ := FeMul rX (c_yPlusX q) in\n  let rY := FeMul rY (c_yMinusX q) in", "C61: geSub subtracts")
m("ge-mixedsub-signs", "Group.v", "geMixedSub", "  let rZ := FeSub t0 rT in\n  let rT := FeAdd t0 rT in\n  CGE rX rY rZ rT.\n\n(* the x-coordinate", "  let rZ := FeAdd t0 rT in\n  let rT := FeSub t0 rT in\n  CGE rX rY rZ rT.\n\n(* the x-coordinate", "C61: geMixedSub subtracts")
m("ge-double-square2", "Group.v", "p_double", "let rT := FeSquare2 (pZ p) in", "let rT := FeSquare (pZ p) in", "C61: Double doubles")
m("ge-toextended-t", "Group.v", "c_to_extended", "(FeMul (cZ p) (cT p)) (FeMul (cX p) (cY p)).", "(FeMul (cZ p) (cT p)) (FeMul (cX p) (cZ p)).", "C61: conversion to extended coordinates keeps T = XY/Z")
m("ge-montgomery-inverse", "Group.v", "montgomery_u", "let oneMinusY := FeSub FeOne Y in", "let oneMinusY := FeSub Y FeOne in", "C53/C54: u = (1+y)/(1-y)")
# ---- tables and scalar multiplication
m("tab-bi-limb", "Table.v", "bi", "28944400 (-1550024)", "28944400 1550024", "C66: bi holds the odd multiples of B", count=2)
m("sm-slide-limit", "ScalarMult.v", "slide_inner", "if i8 (at_ r i + s) <=? 15 then", "if i8 (at_ r i + s) <=? 16 then", "C63: digits are odd")
m("sm-slide-nocarry", "ScalarMult.v", "slide_inner", "            let r := slide_carry (n - (i + b)) (i + b) r in\n", "            let r := put r (i + b) 0 in\n", "C63: the digits represent the scalar")
m("sm-slide-window", "ScalarMult.v", "slide_step", "slide_inner 6 n i 1 r", "slide_inner 3 n i 1 r", "C63: a non-zero digit is followed by four zeros")
m("sm-odd-multiples", "ScalarMult.v", "odd_multiples", "(geAdd A2 c)", "(geSub A2 c)", "C65: the table of odd multiples")
m("sm-top-digit", "ScalarMult.v", "top_digit", "negb (at_ ra i' =? 0) || negb (at_ rb i' =? 0)", "negb (at_ ra i' =? 0) && negb (at_ rb i' =? 0)", "C65: the loop starts at the top digit of either scalar")
m("sm-add-b-neg", "ScalarMult.v", "add_b", "geMixedSub (c_to_extended t) (nth (Z.to_nat (Z.quot (i8 (- d)) 2)) bi pc_zero)", "geMixedAdd (c_to_extended t) (nth (Z.to_nat (Z.quot (i8 (- d)) 2)) bi pc_zero)", "C65: negative digits subtract")
m("sm-select-neg", "ScalarMult.v", "selectPoint", "PCGE (yMinusX t) (yPlusX t) (FeNeg (xy2d t))", "PCGE (yPlusX t) (yMinusX t) (FeNeg (xy2d t))", "C66: selectPoint of a negative digit is the negative point")
m("sm-equal-wrap", "ScalarMult.v", "equal", "let x := (x - 1) mod 4294967296 in", "let x := Z.max 0 (x - 1) in", "C66: equal returns 1 for equal bytes")
m("sm-recode-round", "ScalarMult.v", "recode", "Z.shiftr (i8 (x + 8)) 4", "Z.shiftr x 4", "C64: digits are between -8 and 8")
m("sm-base-doublings", "ScalarMult.v", "GeScalarMultBase", "  let s := c_to_projective (p_double s) in\n  let s := c_to_projective (p_double s) in\n", "  let s := c_to_projective (p_double s) in\n", "C64: four doublings between odd and even digits")
# ---- arithmetic modulo the order, Ed25519
m("sc-fold-coeff", "ScalarRed.v", "exec", "(x * 997805)", "(x * 997806)", "C67/C68: folding keeps the value modulo l")
m("sc-muladd-missing-fold", "ScalarRed.v", "muladd_ops", "(* 1375-1381 *) Fold 12;\n", "", "C68: the result is reduced")
m("sc-reduce-last-carry", "ScalarRed.v", "reduce_ops", "Floor 8; Floor 9; Floor 10; Floor 11;\n    (* 1699", "Floor 8; Floor 9; Floor 10;\n    (* 1699", "C67: the result is fully reduced")
m("sc-reduce-carry-order", "ScalarRed.v", "reduce_ops", "(* 1533-1566 *) Carry 6; Carry 8; Carry 10; Carry 12; Carry 14; Carry 16; Carry 7", "(* 1533-1566 *) Carry 7", "C67: no intermediate product overflows int64")
m("sc-product-c", "ScalarRed.v", "products", "(if (k <? 12)%nat then at_ c k else 0)", "(if (k <? 11)%nat then at_ c k else 0)", "C68: all of c is added")
m("sc-load-mask", "ScalarRed.v", "limbs12", "    ((load4 s 28) >> 7)%i64].\n(* the loads of ScReduce", "    (2097151 && ((load4 s 28) >> 7))%i64].\n(* the loads of ScReduce", "C68: all 256 bits of an operand count")
m("sc-store", "ScalarRed.v", "store_limbs", "z2b (((at_ s 8) >> 16) || ((at_ s 9) << 5))%i64", "z2b (((at_ s 8) >> 16) || ((at_ s 9) << 4))%i64", "C67/C68: the limbs are stored contiguously")
m("sc-minimal-equal", "ScalarRed.v", "sc_minimal", "else if (i =? 0)%nat then false", "else if (i =? 0)%nat then true", "C69: l itself is not minimal")
m("sc-minimal-le", "ScalarRed.v", "sc_minimal", "      else if v <? at_ order i then true\n", "      else if v <=? at_ order i then true\n", "C69: words are compared until they differ")
m("ed-verify-noneg", "EdLib.v", "lib_Verify", "EGE (FeNeg (eX A)) (eY A) (eZ A) (FeNeg (eT A))", "EGE (eX A) (eY A) (eZ A) (eT A)", "C70: R = sB - kA")
m("ed-verify-no-minimal", "EdLib.v", "lib_Verify", "if negb (ScMinimal s) then false", "if false then false", "C70: s must be below l")
m("ed-sign-nonce", "EdLib.v", "lib_Sign", "ScReduce (hash (skipn 32 digest1 ++ m))", "ScReduce (hash (firstn 32 digest1 ++ m))", "C70: the nonce comes from the second half of the expanded seed")
m("ed-sign-unreduced-order", "EdLib.v", "lib_Sign", "hash (encodedR ++ skipn 32 privateKey ++ m)", "hash (skipn 32 privateKey ++ encodedR ++ m)", "C70: k = H(R, A, M)")

# ---- further encoder use
m("b64-close-empty-silent", "B64Stream.v", "enc_close", "  else\n    let '((_, err), s) := wr [x0a] s in\n    (err, (e, s)).", "  else (None, (e, s)).", "C01/C60: Close ends with a newline even if nothing is pending")
# ---- primitives
m("prim-open-notag", "Salsa.v", "secretbox_open", "if bytes_eqb (firstn 16 box) (Poly1305 (firstn 32 stream) c)", "if bytes_eqb (firstn 8 box) (firstn 8 (Poly1305 (firstn 32 stream) c))", "C71: the whole tag is compared")
m("prim-open-stream", "Salsa.v", "secretbox_open", "then Some (xor_bytes c (skipn 32 stream)) else None.", "then Some (xor_bytes c stream) else None.", "C71: opening uses the same part of the stream as sealing")
m("prim-auth-length", "Sha512.v", "nacl_auth", "firstn 32 (HMAC512 key m)", "firstn 16 (HMAC512 key m)", "C71: authenticators have 32 bytes")
m("prim-sha-rotation", "Sha512.v", "Sigma0", "(rotr64 28 x)", "(rotr64 27 x)", "C71: the test data of the repository (examples)")
m("prim-poly-noclamp", "Salsa.v", "Poly1305", "let r := poly_clamp (le_val (firstn 16 key)) in", "let r := le_val (firstn 16 key) in", "C71: published vectors (examples)")
m("prim-shared-swap", "Salsa.v", "box_shared", "HSalsa20 (X25519 private public) (repeat x00 16)", "HSalsa20 (X25519 public private) (repeat x00 16)", "C71: both sides compute the same key")
m("ed-sign-derives-public", "EdLib.v", "lib_Sign", "hash (encodedR ++ skipn 32 privateKey ++ m)", "hash (encodedR ++ lib_Public hash (firstn 32 privateKey) ++ m)", "C76: the second half of the key enters the challenge (with the public key derived from the seed the attack is gone)")
# ---- command: answers and exit statuses
m("cmd-panic-exit", "Cmd.v", "action", "  | (Panic, w) => (2, w)\n  end.\n\nSection", "  | (Panic, w) => (1, w)\n  end.\n\nSection", "C72: a crash exits with 2")
m("cmd-verify-ok-text", "Cmd.v", "dispatch", "      (fun _ => f_m f ++ str \": invalid signature\" ++ [x0a])\n      (Some (f_m f ++ str \": OK\" ++ [x0a])) w", "      (fun _ => f_m f ++ str \": OK\" ++ [x0a])\n      (Some (f_m f ++ str \": OK\" ++ [x0a])) w", "C73: OK is printed for valid signatures only")
m("cmd-error-stdout", "Cmd.v", "action", "(1, emit w (EvErr (onErr e)))", "(1, emit w (EvOut (onErr e)))", "C73: failures are reported on standard error")
m("cmd-verify-sec", "Cmd.v", "dispatch", "action (Verify C pubKeyFile (f_m f) (f_x f))", "action (Verify C pubKeyFile (f_m f) [])", "C73/C79: -x is honoured by -V")
m("cmd-gen-keeps-pass", "Cmd.v", "generateAction", "(Ok pass, w) => gen pass w", "(Ok pass, w) => gen [] w", "C74/C49: the passphrase encrypts the key")
# ---- short files
m("key-sig-strict", "Keys.v", "readSignatureData", "if (length data <? keyNumLength + 2)%nat then Panic", "if negb (length data =? 74)%nat then Err EOF", "C75: short signatures are accepted (refuted expectation)")
m("key-priv-strict-len", "Keys.v", "readPrivateKeyData", "  rbind (buffer_read keyAlgoLength data) (fun '(a, buf) =>", "  if negb (length data =? 104)%nat then Err EOF else rbind (buffer_read keyAlgoLength data) (fun '(a, buf) =>", "C75: cut secret keys are accepted (refuted expectation)")
# ---- which files are written and when
m("seal-touches-message", "SealOpen.v", "Seal", "        let '(_, es) := enc_close (file_write encryptedPath) es in\n        (r, snd es)", "        let '(_, es) := enc_close (file_write encryptedPath) es in\n        (r, snd (create_file messagePath 438 (snd es)))", "C77: no file but the encrypted one is changed")
m("seal-appends", "SealOpen.v", "Seal", "  create_file encryptedPath 438 ;;;\n  (fun w =>", "  (fun w => match w_fs w encryptedPath with Some _ => (Ok tt, w) | None => create_file encryptedPath 438 w end) ;;;\n  (fun w =>", "C77/C79: an earlier encrypted file is truncated")
m("gen-pub-then-sec", "Keys.v", "GenerateKey",
  "  writeDataFile (keyPath ++ str \".sec\") (str \"untrusted comment: signify private key\") (priv_encode (fst pp)) ;;;\n  writeDataFile (keyPath ++ str \".pub\") (str \"untrusted comment: signify public key\") (pub_encode (snd pp)).",
  "  writeDataFile (keyPath ++ str \".pub\") (str \"untrusted comment: signify public key\") (pub_encode (snd pp)) ;;;\n  writeDataFile (keyPath ++ str \".sec\") (str \"untrusted comment: signify private key\") (priv_encode (fst pp)).",
  "C27/C75: the secret key is written first")
m("verify-trust-file", "Keys.v", "Verify", "  pub <- LoadPublicKey publicPath ;;\n  message <- ReadFile messagePath ;;", "  pub <- LoadPublicKey publicPath ;;\n  _ <- ReadFile (publicPath ++ str \".trusted\") ;;\n  message <- ReadFile messagePath ;;", "C79: Verify depends on the three files only")
m("sign-no-overwrite", "Keys.v", "signFinish", "  writeDataFile signaturePath comment (sig_encode sg).", "  (fun w => match w_fs w signaturePath with Some _ => (Err ENotExist, w) | None => writeDataFile signaturePath comment (sig_encode sg) w end).", "C79: whether the signature file exists has no influence")
# ---- readers
m("seal-eof-ok", "SealOpen.v", "seal_step", "  | (RRet _ (Some e), s) => inr (Err e, s)\n  | (RRet chunk None, s) =>\n      let out := box_seal", "  | (RRet _ (Some EOF), s) => inr (Ok tt, s)\n  | (RRet _ (Some e), s) => inr (Err e, s)\n  | (RRet chunk None, s) =>\n      let out := box_seal", "C80: seal reports a message that ends early")
m("open-eof-ok", "SealOpen.v", "open_step", "  | (RRet _ (Some e), s) => inr (Err e, s)\n  | (RRet chunk None, s) =>\n      match box_open", "  | (RRet _ (Some EOF), s) => inr (Ok tt, s)\n  | (RRet _ (Some e), s) => inr (Err e, s)\n  | (RRet chunk None, s) =>\n      match box_open", "C35/C80: a missing piece is an error")
m("seal-whole-buffer", "SealOpen.v", "seal_step", "let out := box_seal C chunk nonce shared in", "let out := box_seal C (fit chunk_nat chunk) nonce shared in", "C31/C80: only the bytes read are sealed, not the whole buffer")
# ---- routines on a memory (pointers that may be the same)
m("ptr-neg-clears-first", "Pointers.v", "FeNeg_at", "  fold_left (fun m i => store m h i (0 - limb i (m f))%i32) in_order m.", "  FeSub_at h h f (FeZero_at h m).", "C82: FeNeg(h, h) is allowed")
m("ptr-add-copies-first", "Pointers.v", "FeAdd_at", "  fold_left (fun m i => store m d i (limb i (m a) + limb i (m b))%i32) in_order m.", "  fold_left (fun m i => store m d i (limb i (m d) + limb i (m b))%i32) in_order (put m d (m a)).", "C82: FeAdd(d, a, d) is allowed")
m("ptr-mul-accumulates", "Pointers.v", "FeMul_at", "store_all h (FeMul (m f) (m g)) m.", "let m := store m h 0 0 in store_all h (FeMul (m f) (m g)) m.", "C82: FeMul reads its arguments before it writes")
m("ptr-invert-out-temp", "Pointers.v", "FeInvert_at", "(fr + 3, 0%nat) in\n  run [ Square t0 z;", "(fr + 3, 0%nat) in\n  let t1 := out in\n  run [ Square t0 z;", "C82: FeInvert(z, z) is allowed")
m("ptr-pow-out-temp", "Pointers.v", "fePow22523_at", "let t1 := (fr + 1, 0%nat) in let t2 := (fr + 2, 0%nat) in\n  run", "let t1 := (fr + 1, 0%nat) in let t2 := out in\n  run", "C82: fePow22523(x, x) is allowed")
m("ptr-double-t0", "Pointers.v", "p_double_at", "  let t0 := (fr, 0%nat) in\n  run [ Square (f0 r) (f0 p); Square (f2 r)", "  let t0 := f1 p in\n  run [ Square (f0 r) (f0 p); Square (f2 r)", "C82: Double leaves its argument alone")
m("ptr-geadd-t0-q", "Pointers.v", "geAdd_at", "  let t0 := f0 fr in\n  run [ Add (f0 r) (f1 p) (f0 p); Sub (f1 r) (f1 p) (f0 p); Mul (f2 r) (f0 r) (f0 q);\n        Mul (f1 r) (f1 r) (f1 q); Mul (f3 r) (f3 q) (f3 p); Mul (f0 r) (f2 p) (f2 q);", "  let t0 := f2 q in\n  run [ Add (f0 r) (f1 p) (f0 p); Sub (f1 r) (f1 p) (f0 p); Mul (f2 r) (f0 r) (f0 q);\n        Mul (f1 r) (f1 r) (f1 q); Mul (f3 r) (f3 q) (f3 p); Mul (f0 r) (f2 p) (f2 q);", "C82: geAdd leaves its arguments alone")
m("ptr-mixed-order", "Pointers.v", "geMixedSub_at", "Mul (f3 r) (f2 q) (f3 p); Add t0 (f2 p) (f2 p);\n        Sub (f0 r) (f2 r) (f1 r); Add (f1 r) (f2 r) (f1 r); Sub (f2 r)", "Mul (f3 r) (f2 q) (f3 p); Add t0 (f2 p) (f2 p);\n        Add (f1 r) (f2 r) (f1 r); Sub (f0 r) (f2 r) (f1 r); Sub (f2 r)", "C82: r.Y is used before it is overwritten")
m("ptr-tobytes-in-place", "Pointers.v", "xyz_to_bytes_at", "let x := f0 (fr + 1) in let y := f0 (fr + 2) in", "let x := f0 p in let y := f1 p in", "C82: encoding leaves the point alone")
m("ptr-decode-sqrt-vxx", "Pointers.v", "e_from_bytes_at", "Mul vxx vxx v; Sub check vxx u ] m in", "Mul vxx vxx v; Sub check vxx u; Sub vxx vxx u ] m in", "C82: the second test of the root uses vxx")
m("ptr-decode-global", "Pointers.v", "e_from_bytes_at", "Mul v u g_d; Sub u u Z'", "Mul g_d u g_d; Copy v g_d; Sub u u Z'", "C82: the package variables are constants")
m("ptr-select-minus", "Pointers.v", "selectPoint_at", "run [Copy (f0 minusT) (f1 t); Copy (f1 minusT) (f0 t); Neg", "run [Copy (f0 minusT) (f1 t); Copy (f1 minusT) (f0 minusT); Neg", "C82: selectPoint of a negative digit")
m("ptr-base-shared", "Pointers.v", "selectPoint_at", "let m := pc_zero_at t m in\n  let m := fold_left (fun m i => pc_cmove_at t (g_base pos i)", "let m := pc_zero_at t m in\n  let m := fold_left (fun m i => pc_cmove_at (g_base pos i) t", "C82: the table is not changed")
m("ptr-vartime-u-a2", "Pointers.v", "v_A2", "Definition v_A2 (fr : Z) : Z := fr + 2.", "Definition v_A2 (fr : Z) : Z := fr + 1.", "C82: the variables of GeDoubleScalarMultVartime are distinct")
m("ptr-vartime-r-a", "Pointers.v", "GeDoubleScalarMultVartime_at", "  let m := e_to_cached_at A (v_Ai fr 0) m in\n  let m := e_double_at (v_end fr) A (v_t fr) m in", "  let m := e_to_cached_at A (v_Ai fr 0) m in\n  let m := p_zero_at r m in\n  let m := e_double_at (v_end fr) A (v_t fr) m in", "C82: r is written after A has been read")
m("ptr-tobox-invert-x", "Pointers.v", "ToBox_at", "let m := FeInvert_at (fr + 3) oneMinusY oneMinusY m in", "let m := FeInvert_at (fr + 2) oneMinusY oneMinusY m in", "C82: the variables of ToBox are distinct")
# ---- OpenBSD's files
m("obsd-sign-comment", "Keys.v", "signFinish", "let comment := str \"untrusted comment: verify with \" ++ Base pubKeyPath in", "let comment := str \"verify with \" ++ Base pubKeyPath in", "C81: signify reads the signature")
m("obsd-sig-encode", "Keys.v", "sig_encode", "Definition sig_encode (s : Signature) : bytes := pkAlgo s ++ s_keyNum s ++ sig s.", "Definition sig_encode (s : Signature) : bytes := pkAlgo s ++ sig s ++ s_keyNum s.", "C14/C81: layout of signatures")
m("obsd-pub-encode", "Keys.v", "pub_encode", "p_keyAlgo p ++ p_keyNum p ++ p_key p.", "p_keyAlgo p ++ rev (p_keyNum p) ++ p_key p.", "C13/C81: layout of public keys")
m("obsd-xor-half", "Keys.v", "decrypt", "set_key p (xor_bytes (key p) xorkey)", "set_key p (xor_bytes (firstn 32 (key p)) xorkey ++ skipn 32 (key p))", "C16/C81: the whole key is encrypted")
m("obsd-sig-reads-tail", "Keys.v", "readSignatureData", "               (fit 64 (skipn 10 data))).", "               (fit 64 (skipn (length data - 64) data))).", "C75/C81: where the signature is found")
m("obsd-password-newline", "Keys.v", "decrypt", "match bcrypt_Key C password (salt p)", "match bcrypt_Key C (password ++ [x0a]) (salt p)", "C81: the passphrase is used as typed")

# ---- what is reported (C84), which texts are read (C83)
m("rep-verify-number-first", "Keys.v", "verifyEd25519",
  '''  else if negb (bytes_eqb (pkAlgo s) (str "Ed")) then Err (EMsg (str "signify: not an Ed25519 signature (" ++ pkAlgo s ++ str ")"))
  else if negb (bytes_eqb (p_keyNum p) (s_keyNum s)) then Err (EMsg (str "signify: key number mismatch"))
''', '''  else if negb (bytes_eqb (p_keyNum p) (s_keyNum s)) then Err (EMsg (str "signify: key number mismatch"))
  else if negb (bytes_eqb (pkAlgo s) (str "Ed")) then Err (EMsg (str "signify: not an Ed25519 signature (" ++ pkAlgo s ++ str ")"))
''', "C84: of a wrong algorithm and a wrong number the algorithm is reported")
m("rep-verify-sig-before-message", "Keys.v", "Verify",
  '''  message <- ReadFile messagePath ;;
  sg <- readSignaturePath signaturePath ;;
  lift''', '''  sg <- readSignaturePath signaturePath ;;
  message <- ReadFile messagePath ;;
  lift''', "C84: of a missing message and a bad signature file the former is reported")
m("rep-pub-length-expected", "Keys.v", "readPublicKeyData", "decimal (Z.of_nat (length data))", "decimal 42", "C84: the message quotes the length found")
m("rep-unknown-algo-quotes-sig", "Keys.v", "verifyEd25519", '''(str "signify: not an Ed25519 signature (" ++ pkAlgo s ++''', '''(str "signify: not an Ed25519 signature (" ++ p_keyAlgo p ++''', "C84: the message quotes the signature's algorithm")
m("rep-uint32-eof", "Keys.v", "read_uint32", "Err ErrUnexpectedEOF", "Err EOF", "C84: rounds cut short are an unexpected EOF")
m("rep-chunk-from-one", "SealOpen.v", "open_step", "inr (Err (EChunk i), s)", "inr (Err (EChunk (i + 1)), s)", "C84: chunks are counted from 0")
m("rep-header-size-quoted", "SealOpen.v", "open_body", "decimal (Z.of_nat (length header))", "decimal (Z.of_nat header_nat)", "C84: the message quotes the number of bytes read")
m("rep-open-key-last", "SealOpen.v", "Open", '''  priv <- LoadPrivateKey privatePath ;;
  fd <- open_read encryptedPath ;;
''', '''  fd <- open_read encryptedPath ;;
  priv <- LoadPrivateKey privatePath ;;
''', "C84: of a bad key file and a missing encrypted file the former is reported")
m("rep-seal-empty-checked-last", "SealOpen.v", "seal", "  if messageLen =? 0 then (Ok tt, s)\n  else match pub_ToBox pub with\n", "  match pub_ToBox pub with\n", "C84: the empty message is sealed with any key, without randomness")
m("rep-seal-key-last", "SealOpen.v", "Seal", '''  pub <- LoadPublicKey publicPath ;;
  fd <- open_read messagePath ;;
''', '''  fd <- open_read messagePath ;;
  pub <- LoadPublicKey publicPath ;;
''', "C84: of a bad key file and a missing message the former is reported")
m("rep-cmd-no-name", "Cmd.v", "dispatch", '''str "Signing " ++ f_m f ++ str " failed: "''', '''str "Signing failed: "''', "C84: psignify names the message that could not be signed")
m("txt-strict-bits", "GoBase64.v", "decodeQuantum", "                   Quantum r3 (quantum_out d 3)\n                     (match r3 with [] => None | _ => Some CorruptInput end)",
  "                   Quantum r3 (quantum_out d 3)\n                     (match r3 with [] => if Z.land (nth 2 d 0) 3 =? 0 then None else Some CorruptInput | _ => Some CorruptInput end)",
  "C83: left-over bits of the last digit are ignored")
m("txt-nl-between-pads", "GoBase64.v", "decodeQuantum", "                   match skip_nl r with\n", "                   match r with\n", "C83: line ends may stand between the two '='")
m("txt-one-comment", "DataFile.v", "scan_loop", "        then scan_loop rest line (comment ++ skipn (length commentPrefix) line)\n", "        then match rest with raw2 :: _ => (dropCR raw2, comment ++ skipn (length commentPrefix) line) | [] => (line, comment ++ skipn (length commentPrefix) line) end\n",
  "C83: any number of comment lines")
m("txt-line-limit", "DataFile.v", "maxLine", "Definition maxLine : Z := 65535.", "Definition maxLine : Z := 65536.", "C83: lines of more than 65535 bytes end the scan")
m("txt-final-line-needs-newline", "DataFile.v", "raw_lines", "match cur with [] => [] | _ => [rev cur] end", "[]", "C83: the last line need not end in a newline")
m("txt-sig-ten", "Keys.v", "readSignatureData", "(length data <? keyNumLength + 2)%nat", "(length data <=? keyNumLength + 2)%nat", "C83: a signature file with exactly ten bytes does not crash Verify")
m("prn-usage-stdout", "Cmd.v", "dispatch", "  else (1, emit w (EvErr (usageText arg0))).", "  else (1, emit w (EvOut (usageText arg0))).", "C85: without a mode the usage goes to standard error")
m("prn-malformed-stderr", "Cmd.v", "main", "      (0, emit w (EvOut (usageText arg0)))", "      (0, emit w (EvErr (usageText arg0)))", "C85: after a complaint the usage goes to standard output")
m("prn-seal-names-output", "Cmd.v", "dispatch", "(fun e => errText e ++ [x0a]) (Some (f_m f ++ str \": OK\" ++ [x0a])) w\n  else if f_D", "(fun e => errText e ++ [x0a]) (Some (f_c f ++ str \": OK\" ++ [x0a])) w\n  else if f_D", "C85: -E names the message")
m("prn-open-names-output", "Cmd.v", "dispatch", "(Some (f_c f ++ str \": OK\" ++ [x0a])) w\n  else (1", "(Some (f_m f ++ str \": OK\" ++ [x0a])) w\n  else (1", "C85: -D names the encrypted file")
m("prn-no-newline-after-answer", "Keys.v", "PassphrasePrompt", "  stdout [x0a] ;;;\n  if negb confirm then ret i\n", "  if negb confirm then ret i\n", "C85: the line is ended after the answer")
m("prn-prompt-stderr", "Keys.v", "PassphrasePrompt", "  stdout (str \"Password: \") ;;;", "  stderr (str \"Password: \") ;;;", "C85: the prompt goes to standard output")
m("prn-mismatch-text", "Keys.v", "PassphrasePrompt", "passphrases don't match", "passphrases do not match", "C85: the text of the message")
m("prn-help-complains", "GoFlag.v", "parseFlag", "|| bytes_eqb name (str \"h\") then Bad []", "then Bad []", "C85: -h is no error")
m("prn-chunk-text", "Cmd.v", "errText", "EChunk i => str \"signify/crypto: failed to decrypt chunk=\" ++ decimal i", "EChunk i => str \"signify/crypto: failed to decrypt chunk \" ++ decimal i", "C85: the text of the message about a chunk")
m("prn-gen-before-prompt", "Cmd.v", "generateAction", "  if isEmpty pubKeyFile\n  then (1, emit w", "  if isEmpty pubKeyFile && noPass\n  then (1, emit w", "C85: without a name no passphrase is asked for")
m("prn-open-asks-rounds", "Keys.v", "priv_ToBox", "  match Check p with\n  | Ok _ => finish p w\n", "  match (if IsEncrypted p then Check p else Ok tt) with\n  | Ok _ => finish p w\n", "C85: decrypting asks exactly if the checksum is wrong")
m("prn-default-rounds", "Keys.v", "defaultRounds", "Definition defaultRounds : Z := 42.", "Definition defaultRounds : Z := 4294967296.", "C85: key generation from the command line does not fail for the number of rounds")
m("prn-sign-missing-either", "Cmd.v", "dispatch", "if isEmpty privKeyFile || isEmpty (f_m f)", "if isEmpty privKeyFile && isEmpty (f_m f)", "C85: signing needs both names")
m("fmt-leading-zero", "GoFmt.v", "decimal", "str (DecimalString.NilZero.string_of_int (Z.to_int z))", "(if z <? 10 then str \"0\" else []) ++ str (DecimalString.NilZero.string_of_int (Z.to_int z))", "C84: numbers in decimal")
# ---- C88: calls to the operating system ----
m("os-seal-leaks-input", "Calls.v", "Seal_os", "  fd <- h_open messagePath ;;\n  hdefer (h_close fd)\n    (messageLen <- h_stat fd ;;", "  fd <- h_open messagePath ;;\n  hdefer (fun h => h)\n    (messageLen <- h_stat fd ;;", "C88: the message is closed")
m("os-seal-leaks-on-error", "Calls.v", "hdefer", "  let '(r, h) := m h in (r, cleanup h).", "  let '(r, h) := m h in (r, match r with Err _ => h | _ => cleanup h end).", "C88: descriptors are closed also after an error")
m("os-seal-close-before-rest", "Calls.v", "Seal_os", "           let '(_, es) := enc_close (h_write out) es in\n           (r, snd es)", "           let '(_, es) := enc_close (h_write out) (fst es, h_close out (snd es)) in\n           (r, snd es)", "C88: the output is not closed before the encoder has flushed")
m("os-seal-no-encoder-close", "Calls.v", "Seal_os", "           let '(_, es) := enc_close (h_write out) es in\n           (r, snd es)", "           (r, snd es)", "C88: the rest of the text is written")
m("os-seal-size-late", "Calls.v", "Seal_os", '''    (messageLen <- h_stat fd ;;
     out <- h_create (match encryptedPath with [] => messagePath ++ str ".enc" | _ => encryptedPath end) 438 ;;
''', '''    (out <- h_create (match encryptedPath with [] => messagePath ++ str ".enc" | _ => encryptedPath end) 438 ;;
     messageLen <- h_stat fd ;;
''', "C88: the size is taken before the output is created")
m("os-seal-header-error", "Calls.v", "Seal_os", "       | ((_, Some e), h) => (Err e, h)\n       | ((_, None), h) =>\n           let '(r, es) := seal", "       | ((_, _), h) =>\n           let '(r, es) := seal", "C88: a failing write of the comment ends Seal")
m("os-open-create-first", "Calls.v", "Open_os", "    (skipComment fuel (h_read fd) ;;;\n     out <- h_create messagePath 438 ;;", "    (out <- h_create messagePath 438 ;;\n     skipComment fuel (h_read fd) ;;;", "C88: the output is created after the first line was read")
m("os-open-leaks-output", "Calls.v", "Open_os", "     hdefer (h_close out)\n       (edpriv", "     hdefer (h_close fd)\n       (edpriv", "C88: each descriptor is closed once")
m("os-sign-rereads", "Calls.v", "Sign_os", "  message <- h_readfile messagePath ;;\n  writeDataFile_os", "  message <- h_readfile messagePath ;;\n  message <- h_readfile messagePath ;;\n  writeDataFile_os", "C88: the message is read once")
m("os-sign-message-first", "Calls.v", "Sign_os", "  priv <- LoadPrivateKey_os privatePath ;;\n  priv <- (if", "  priv <- LoadPrivateKey_os privatePath ;;\n  _ <- h_readfile messagePath ;;\n  priv <- (if", "C88: the calls of Sign and their order")
m("os-verify-second-signature", "Calls.v", "Verify_os", "  hlift (pub_verify C pub message sg).", "  match pub_verify C pub message sg with Ok _ => hret tt | _ => (sg <- readSignaturePath_os (messagePath ++ str \".sig\") ;; hlift (pub_verify C pub message sg))%os end.", "C88: Verify reads no other file")
m("os-generate-public-first", "Calls.v", "GenerateKey_os", '''  writeDataFile_os (keyPath ++ str ".sec") (str "untrusted comment: signify private key") (priv_encode (fst pp)) ;;;
  writeDataFile_os (keyPath ++ str ".pub") (str "untrusted comment: signify public key") (pub_encode (snd pp)).''', '''  writeDataFile_os (keyPath ++ str ".pub") (str "untrusted comment: signify public key") (pub_encode (snd pp)) ;;;
  writeDataFile_os (keyPath ++ str ".sec") (str "untrusted comment: signify private key") (priv_encode (fst pp)).''', "C88: the secret file is written first")
m("os-generate-ignores-write", "Calls.v", "writeDataFile_os", "h_writefile p (dataFileBytes comment data) 420.", "fun h => let '(_, h) := h_writefile p (dataFileBytes comment data) 420 h in (Ok tt, h).", "C88: a failing write is reported")
m("os-generate-reuses-random", "Calls.v", "GenerateKeypair_os", "  num <- h_rand keyNumLength ;;", "  let num := firstn 8 slt in", "C88: three random values are drawn")
m("os-prompt-twice", "Calls.v", "prompt_os", 'h_out (str "Password: ") ;;; b <- h_pass ;; h_out [x0a] ;;; hret b.', 'h_out (str "Password: ") ;;; b <- h_pass ;; h_out [x0a] ;;; b <- h_pass ;; hret b.', "C88: the passphrase is asked for once")
m("os-create-mode", "Calls.v", "Open_os", "     out <- h_create messagePath 438 ;;", "     out <- h_create messagePath 384 ;;", "C88: the mode of the output")
# ---- C91: psignify over an arbitrary operating system ----
m("cmdos-verify-ok-always", "CmdCalls.v", "dispatch_os", '''      (fun _ => f_m f ++ str ": invalid signature" ++ [x0a])
      (Some (f_m f ++ str ": OK" ++ [x0a])) h''', '''      (fun _ => f_m f ++ str ": invalid signature" ++ [x0a])
      (Some (f_m f ++ str ": OK" ++ [x0a])) (h ++ [SOut (f_m f ++ str ": OK" ++ [x0a])])''', "C91: OK is printed only on success")
m("cmdos-error-status", "CmdCalls.v", "action_os", "  | (Err e, h) => (1, onErr e, h)", "  | (Err e, h) => (0, onErr e, h)", "C91: the status of a failing operation is 1")
m("cmdos-error-silent", "CmdCalls.v", "action_os", "  | (Err e, h) => (1, onErr e, h)", "  | (Err e, h) => (1, [], h)", "C91: a failing operation is reported")
m("cmdos-confirm-ignored", "CmdCalls.v", "confirm_os", "if bytes_eqb a b then hret a else", "if bytes_eqb a a then hret a else", "C91: the passphrase is typed twice the same")
m("cmdos-confirm-once", "CmdCalls.v", "confirm_os", "b <- h_pass O ;; h_out [x0a] ;;;\n  if", "b <- hret a ;; h_out [x0a] ;;;\n  if", "C91: the passphrase is typed twice")
m("cmdos-nopass-inverted", "CmdCalls.v", "generateAction_os", "if noPass then gen [] h", "if negb noPass then gen [] h", "C91: -n means an empty passphrase")
m("cmdos-retry", "CmdCalls.v", "generateAction_os", "         | (Err e, h) => (1, errText e ++ [x0a], h)\n         | (Panic, h) => (2, [], h)\n         | (Ok pass, h) => gen pass h", "         | (Err e, h) => gen [] h\n         | (Panic, h) => (2, [], h)\n         | (Ok pass, h) => gen pass h", "C91: no key is made when the passphrase is not obtained")
m("cmdos-open-names-swapped", "CmdCalls.v", "dispatch_os", "(Open_os C O fuel privKeyFile (f_c f) (f_m f))", "(Open_os C O fuel privKeyFile (f_m f) (f_c f))", "C91: -D reads the encrypted file and writes the message")
m("cmdos-seal-private-default", "CmdCalls.v", "dispatch_os", "(Seal_os C O pubKeyFile (f_m f) (f_c f))", "(Seal_os C O privKeyFile (f_m f) (f_c f))", "C91: -E uses the public key")
m("cmdos-decrypt-reports-message", "CmdCalls.v", "dispatch_os", '(Some (f_c f ++ str ": OK" ++ [x0a])) h', '(Some (f_m f ++ str ": OK" ++ [x0a])) h', "C91: -D names the encrypted file")
m("cmdos-usage-status", "CmdCalls.v", "main_os", "Malformed msg => (0, msg, [SOut (usageText arg0)])", "Malformed msg => (2, msg, [SOut (usageText arg0)])", "C91: the status after a malformed command line")
m("cmdos-verify-before-sign", "CmdCalls.v", "dispatch_os", "  else if f_S f then\n", "  else if f_S f && negb (f_V f) then\n", "C91: -S comes before -V")
m("cmdos-panic-as-error", "CmdCalls.v", "action_os", "  | (Panic, h) => (2, [], h)\n  end.\n\n(* the -G", "  | (Panic, h) => (1, [], h)\n  end.\n\n(* the -G", "C91: a panic is status 2")
m("os-verify-prints", "Calls.v", "Verify_os", "  hlift (pub_verify C pub message sg).", "  h_out (messagePath ++ str \": OK\" ++ [x0a]) ;;; hlift (pub_verify C pub message sg).", "C88, C91: Verify prints nothing")
m("os-seal-prints", "Calls.v", "Seal_os", "  fd <- h_open messagePath ;;\n  hdefer (h_close fd)\n    (messageLen <- h_stat fd ;;", "  fd <- h_open messagePath ;;\n  h_out messagePath ;;;\n  hdefer (h_close fd)\n    (messageLen <- h_stat fd ;;", "C88: Seal prints nothing")
# ---- C90: calls of the field routines ----
m("steps-select-index", "Steps.v", "selectPoint_calls", "  flat_map (fun i => pc_cmove_calls t (g_base pos i) (equal bAbs (i32 (Z.of_nat i + 1)))) (seq 0 8) ++", "  (if bAbs =? 0 then [] else pc_cmove_calls t (g_base pos (Z.to_nat (bAbs - 1))) 1) ++", "C90: every entry of the table is read")
m("steps-select-early-exit", "Steps.v", "selectPoint_calls", "  flat_map (fun i => pc_cmove_calls t (g_base pos i) (equal bAbs (i32 (Z.of_nat i + 1)))) (seq 0 8) ++", "  flat_map (fun i => pc_cmove_calls t (g_base pos i) (equal bAbs (i32 (Z.of_nat i + 1)))) (seq 0 (Z.to_nat bAbs)) ++", "C90: the search does not stop at the entry")
m("steps-select-branch-neg", "Steps.v", "selectPoint_calls", "  pc_cmove_calls t minusT bNegative.", "  (if bNegative =? 0 then [] else pc_cmove_calls t minusT 1).", "C90: the sign is not a branch")
m("steps-base-skip-zero", "Steps.v", "base_step_calls", "  selectPoint_calls (fr + 3) t (i / 2) (at_ e i) ++ geMixedAdd_calls (fr + 3) r h t ++ c_to_extended_calls r h.", "  if at_ e i =? 0 then [] else selectPoint_calls (fr + 3) t (i / 2) (at_ e i) ++ geMixedAdd_calls (fr + 3) r h t ++ c_to_extended_calls r h.", "C90: zero digits are added too")
m("steps-vartime-zero-add", "Steps.v", "add_b_calls", "    geMixedSub_calls (v_end fr) (v_t fr) (v_u fr) (g_bi (Z.to_nat (Z.quot (i8 (- d)) 2)))\n  else [].", "    geMixedSub_calls (v_end fr) (v_t fr) (v_u fr) (g_bi (Z.to_nat (Z.quot (i8 (- d)) 2)))\n  else geMixedAdd_calls (v_end fr) (v_t fr) (v_u fr) (g_bi 0).", "C90: the calls are those of the routine")
# ---- C87, C89 ----
m("pass-salt-of-pass", "Calls.v", "GenerateKeypair_os", "  num <- h_rand keyNumLength ;;", "  num <- h_rand keyNumLength ;; let num := match passphrase with [] => num | x :: _ => x :: skipn 1 num end in", "C88: the key number comes from the random source")
m("pass-checksum-stored", "Keys.v", "GenerateKeypair", "slt (fit 8 digest) num kbytes in", "slt (fit 8 (sha512 C kbytes)) num kbytes in", "C89: the checksum is that of the key itself")
m("pass-number-of-pass", "Keys.v", "GenerateKeypair", "  num <- rand_read keyNumLength ;;\n", "  num <- rand_read keyNumLength ;;\n  let num := match passphrase with [] => num | x :: _ => x :: skipn 1 num end in\n", "C89: the public file does not depend on the passphrase")
m("pass-rounds-kept", "Keys.v", "GenerateKeypair", "  let kdfRounds := match passphrase with [] => 0 | _ => rounds mod 4294967296 end in", "  let kdfRounds := rounds mod 4294967296 in", "C89: without a passphrase the number of rounds is 0")
# ---- C93 ----
m("prompt-wipe-on-success", "Prompts.v", "Sign_by", "       | (Err e, _) => fail e\n       | (Panic, _) => panic\n       end)\n  else signFinish C privatePath", "       | (Err e, _) => fun w => (Err e, set_bufs w (set_nth i pass (w_bufs w ++ [pass])))\n       | (Panic, _) => panic\n       end)\n  else signFinish C privatePath", "C93: only the buffer handed out is changed, whatever is returned")
m("prompt-no-wipe", "Prompts.v", "Sign_by", "    defer (zero_buf i)\n", "    defer (fun w => w)\n", "C93: the buffer is overwritten")
m("prompt-wipe-first", "Prompts.v", "Sign_by", "(pass <- buf_get i ;;", "((fun w => (Ok tt, zero_buf i w)) ;;; pass <- buf_get i ;;", "C93: the passphrase answered is the one used")
m("prompt-confirms", "Prompts.v", "Sign_by", "    i <- prompt false ;;", "    i <- prompt true ;;", "C93: asked without confirmation")
m("prompt-always", "Prompts.v", "Sign_by", "  priv <- LoadPrivateKey privatePath ;;\n  if IsEncrypted priv then\n    i <- prompt false ;;", "  priv <- LoadPrivateKey privatePath ;;\n  i <- prompt false ;;\n  if IsEncrypted priv then", "C93: not asked for a key without passphrase")
m("prompt-before-key", "Prompts.v", "Sign_by", "  priv <- LoadPrivateKey privatePath ;;\n  if IsEncrypted priv then\n    i <- prompt false ;;", "  i <- prompt false ;;\n  priv <- LoadPrivateKey privatePath ;;\n  if IsEncrypted priv then", "C93: asked after the key file was read")
m("prompt-twice", "Prompts.v", "Sign_by", "    i <- prompt false ;;", "    i <- prompt false ;; i <- prompt false ;;", "C93: asked once")
m("prompt-tobox-wipes", "Prompts.v", "ToBox_by", "          | (Ok pass, w) =>\n", "          | (Ok pass, w0) => let w := zero_buf i w0 in\n", "C93: ToBox leaves the buffer")
m("prompt-tobox-copies", "Prompts.v", "ToBox_by", "              | (Err e, p) => ((Err e, p), w)", "              | (Err e, p') => ((Err e, p), w)", "C93: ToBox leaves the key in memory as with the terminal")
m("prompt-open-before-create", "Prompts.v", "Open_by", "  create_file messagePath 438 ;;;\n  open_file_by priv fd messagePath.", "  open_file_by priv fd messagePath ;;; create_file messagePath 438 ;;; ret tt.", "C93: same effects on files")
# ---- C92: the two models must not drift apart ----
m("drift-sign-order", "Keys.v", "Sign", "       | (Ok _, priv) => signFinish privatePath messagePath signaturePath priv", "       | (Ok _, priv) => ReadFile messagePath ;;; signFinish privatePath messagePath signaturePath priv", "C92: the calls of both models are the same")
m("drift-open-mode", "SealOpen.v", "Open", "  create_file messagePath 438 ;;;", "  create_file messagePath 384 ;;;", "C92: files are created alike")
m("drift-seal-size-last", "SealOpen.v", "Seal", "  messageLen <- file_size fd ;;\n", "  messageLen <- file_size fd ;; messageLen <- file_size fd ;;\n", "C92: the faults consumed are the same")
m("drift-prompt-text", "CmdCalls.v", "confirm_os", "Confirm password: ", "Confirm passphrase: ", "C92: both models print the same")
m("drift-world-close", "WorldOs.v", "act", "  | SOut b => (emit w (EvOut b), outs)", "  | SOut b => (w, outs)", "C92: printing is an effect")
m("drift-world-output", "WorldOs.v", "output", "nth_error outs (Nat.div2 fd)", "nth_error outs (Nat.div2 fd - 1)", "C92: a write goes to the file created")
# ---- C94 ----
m("io-read-no-close", "Ioutil.v", "ReadFile_low", "      (match d with Some d => d | None => Panic end, h_close L fd h)", "      (match d with Some d => d | None => Panic end, h)", "C94: a file read is closed")
m("io-read-first-piece", "Ioutil.v", "read_all", "      | None => read_all n fd (acc ++ b) h'", "      | None => (Some (Ok (acc ++ b)), h')", "C94: a file is read to its end")
m("io-read-drops-last", "Ioutil.v", "read_all", "      | Some EOF => (Some (Ok (acc ++ b)), h')", "      | Some EOF => (Some (Ok acc), h')", "C94: bytes that come with the end of the file count")
m("io-read-error-ignored", "Ioutil.v", "read_all", "      | Some e => (Some (Err e), h')", "      | Some e => (Some (Ok (acc ++ b)), h')", "C94: an error while reading is returned")
m("io-read-close-counts", "Ioutil.v", "ReadFile_low", "      (match d with Some d => d | None => Panic end, h_close L fd h)", "      (match o_close L h fd, d with Some e, _ => Err e | None, Some d => d | None, None => Panic end, h_close L fd h)", "C94: an error of closing a file read is ignored")
m("io-read-reversed", "Ioutil.v", "read_all", "read_all n fd (acc ++ b) h'", "read_all n fd (b ++ acc) h'", "C94: pieces in the order read")
m("io-write-close-ignored", "Ioutil.v", "WriteFile_low", "      (gone (match e with Some e => Some e | None => c end), h ++ [SClose fd c])", "      (gone e, h ++ [SClose fd c])", "C94: an error of closing a file written is returned")
m("io-write-short-ok", "Ioutil.v", "WriteFile_low", "if n <? Z.of_nat (length b) then Some (EMsg (str \"short write\")) else None", "None", "C94: a short write is an error")
m("io-write-no-close-on-error", "Ioutil.v", "WriteFile_low", "      (gone (match e with Some e => Some e | None => c end), h ++ [SClose fd c])", "      match e with Some e => (Err e, h) | None => (gone c, h ++ [SClose fd c]) end", "C94: a file is closed even if it cannot be written")
m("io-write-mode", "Ioutil.v", "WriteFile_low", "      let '(n, r) := o_write L h fd b in\n      let h := h ++ [SWrite fd b n r] in", "      let '(n, r) := o_write L h fd b in\n      let h := h ++ [SWrite fd b n r] in\n      let r := match r with Some EOF => None | r => r end in", "C94: every error of a write is returned")
m("term-sign-shows-pass", "Calls.v", "Sign_os", "| (Ok _, priv) => hret priv\n                | (Err e, _) => hlift (Err e)", "| (Ok _, priv) => hret priv\n                | (Err e, _) => hlift (Err (EMsg (str \"bad passphrase \" ++ pass)))", "C95: the passphrase appears in no message")
m("term-verify-shows-message", "Calls.v", "Verify_os", "  hlift (pub_verify C pub message sg).", "  hlift (match pub_verify C pub message sg with Err _ => Err (EMsg (str \"invalid signature for \" ++ message)) | r => r end).", "C95: the message appears in no error")
m("term-generate-weak", "Calls.v", "GenerateKey_os", "  pp <- GenerateKeypair_os passphrase opts ;;", "  hlift (match passphrase with [_] => Err (EMsg (str \"passphrase too short\")) | _ => Ok tt end) ;;; pp <- GenerateKeypair_os passphrase opts ;;", "C95: key generation finds nothing wrong by itself")
m("term-seal-empty", "Calls.v", "Seal_os", "    (messageLen <- h_stat fd ;;", "    (messageLen <- h_stat fd ;; hlift (if messageLen =? 0 then Err (EMsg (str \"empty message\")) else Ok tt) ;;;", "C95: the errors of Seal")
m("term-open-new-error", "Calls.v", "ToBox_os", "               | (Ok _, p) => hret p\n               | (Err e, _) => hlift (Err e)", "               | (Ok _, p) => hret p\n               | (Err e, _) => hlift (Err (EMsg (str \"wrong passphrase\")))", "C95: the errors of Open")
m("term-verify-prints-message", "Calls.v", "Verify_os", "  hlift (pub_verify C pub message sg).", "  hlift (pub_verify C pub message sg) ;;; h_out message.", "C95: no file is shown on standard output")
m("term-dispatch-shows-home", "CmdCalls.v", "dispatch_os", "  else (1, usageText arg0, h).", "  else (1, usageText arg0 ++ [x1b; x63], h).", "C95: only printable text on standard error")
m("hist-verify-marks", "Cmd.v", "dispatch", "    action (Verify C pubKeyFile (f_m f) (f_x f))", "    action (bind (create_file (f_m f ++ str \".ok\") 420) (fun _ => Verify C pubKeyFile (f_m f) (f_x f)))", "C96: verifying changes nothing")
m("hist-verify-marks-ok", "Cmd.v", "dispatch", "    action (Verify C pubKeyFile (f_m f) (f_x f))", "    action (bind (Verify C pubKeyFile (f_m f) (f_x f)) (fun _ => create_file (f_m f ++ str \".ok\") 420))", "C96: verifying changes nothing, also if it succeeds")
m("hist-generate-backs-up", "Cmd.v", "generateAction", "      action (GenerateKey C pubKeyFile pass None)", "      action (bind (create_file (pubKeyFile ++ str \".bak\") 420) (fun _ => GenerateKey C pubKeyFile pass None))", "C96: a run changes only the files it is named")
m("hist-open-drops-input", "Cmd.v", "dispatch", "    action (Open C privKeyFile (f_c f) (f_m f))", "    action (bind (Open C privKeyFile (f_c f) (f_m f)) (fun _ => create_file (f_c f) 438))", "C96: a sealed file is still there after -D")
m("hist-sign-default-name", "Cmd.v", "dispatch", "    else action (Sign C privKeyFile (f_m f) (f_x f))", "    else action (Sign C privKeyFile (f_m f) (if isEmpty (f_x f) then f_m f ++ str \".signature\" else f_x f))", "C96: the name of the signature")
m("hist-malformed-logs", "Cmd.v", "main", "      (0, emit w (EvOut (usageText arg0)))", "      (0, emit (snd (create_file (str \"psignify.log\") 420 w)) (EvOut (usageText arg0)))", "C96: a malformed command line changes nothing")
m("hist-generate-refuses", "Cmd.v", "generateAction", "      action (GenerateKey C pubKeyFile pass None)", "      action (bind (fun w => match w_fs w (pubKeyFile ++ str \".sec\") with Some _ => fail (EMsg (str \"exists\")) w | None => ret tt w end) (fun _ => GenerateKey C pubKeyFile pass None))", "C96, C49: -G overwrites an existing key pair")
m("hist-seal-default-key", "Cmd.v", "dispatch", "    action (Seal C pubKeyFile (f_m f) (f_c f))", "    action (Seal C (if isEmpty (f_p f) then privKeyFile else pubKeyFile) (f_m f) (f_c f))", "C47, C96: -E uses the public key")
m("quote-raw", "GoFlag.v", "Quote", "concat (map quoteByte s)", "s", "C85: a refused value is quoted")
m("quote-letter", "GoFlag.v", "quoteByte", "(str \"abfnrtv\" ++ [x22; x5c])", "(str \"abfrntv\" ++ [x22; x5c])", "C85: a newline is shown as \\n")
m("quote-hex-swapped", "GoFlag.v", "quoteByte", "hexDigit (b2z b / 16); hexDigit (b2z b mod 16)", "hexDigit (b2z b mod 16); hexDigit (b2z b / 16)", "C85: the digits of \\x in order")
m("quote-open", "GoFlag.v", "Quote", "concat (map quoteByte s) ++ [x22]", "concat (map quoteByte s)", "C85: the closing quotation mark")

# statements of edwards25519
m("code-mul-19", "CodeListing.v", "FeMul_code", "CSet \"g_19\" 3 (EBin W32 OMul (ELit 19) (EElem \"g\" (ELit 3)));", "CSet \"g_19\" 3 (EBin W32 OMul (ELit 18) (EElem \"g\" (ELit 3)));", "C97: FeMul multiplies")
m("code-mul-early-store", "CodeListing.v", "FeMul_code", "    CSet \"g\" 0 (EElem \"g\" (ELit 0));", "    CPut \"h\" (ELit 0) (EVar \"f\" 0); CSet \"g\" 0 (EElem \"g\" (ELit 0));", "C97: FeMul(h, f, h) reads g before it writes h")
m("code-add-index", "CodeListing.v", "FeAdd_code", "CPut \"dst\" (ELit 4) (EBin W32 OAdd (EElem \"a\" (ELit 4)) (EElem \"b\" (ELit 4)));", "CPut \"dst\" (ELit 4) (EBin W32 OAdd (EElem \"a\" (ELit 4)) (EElem \"b\" (ELit 5)));", "C97: FeAdd adds limb by limb")
m("code-cmove-branch", "CodeListing.v", "FeCMove_code", "    CPut \"f\" (ELit 0) (EBin W32 OXor (EElem \"f\" (ELit 0)) (EBin W32 OAnd (EVar \"b\" 0) (EBin W32 OXor (EElem \"f\" (ELit 0)) (EElem \"g\" (ELit 0)))));", "    CIf (EVar \"b\" 0) (CPut \"f\" (ELit 0) (EElem \"g\" (ELit 0))) CSkip;", "C97: FeCMove does not branch on its bit")
m("code-equal-branch", "CodeListing.v", "equal_code", "    CSet \"x\" 0 (EBin U32 OSub (EVar \"x\" 0) (ELit 1));", "    CIf (EVar \"x\" 0) (CSet \"x\" 0 (ELit 0)) (CSet \"x\" 0 (ELit 4294967295));", "C97: equal does not branch")
m("code-equal-shift", "CodeListing.v", "equal_code", "(EBin U32 OShr (EVar \"x\" 0) (ELit 31))", "(EBin U32 OShr (EVar \"x\" 0) (ELit 30))", "C97: equal answers 0 or 1")
m("code-negative-mask", "CodeListing.v", "negative_code", "(EBin W32 OAnd (EBin W32 OShr (EVar \"b\" 0) (ELit 31)) (ELit 1))", "(EBin W32 OShr (EVar \"b\" 0) (ELit 31))", "C97: negative answers 0 or 1")
m("code-recode-round", "CodeListing.v", "recode_code", "(EElem \"e\" (EVar \"i\" 0)) (ELit 8)) (ELit 4)", "(EElem \"e\" (EVar \"i\" 0)) (ELit 15)) (ELit 4)", "C97: digits lie between -8 and 8")
m("code-recode-last", "CodeListing.v", "recode_code", "    CPut \"e\" (ELit 63) (EBin W8 OAdd (EElem \"e\" (ELit 63)) (EVar \"carry\" 0))].", "    CSkip].", "C97: the last carry goes into the last digit")
m("code-recode-skip-zero", "CodeListing.v", "recode_code", "    CSet \"carry\" 0 (ELit 0);", "    CSet \"carry\" 0 (ELit 0); CIf (EElem \"a\" (ELit 0)) (CSet \"carry\" 0 (ELit 0)) CSkip;", "C97: the recoding does not branch on the scalar")
m("code-tobytes-q", "CodeListing.v", "FeToBytes_code", "    CPut \"h\" (ELit 0) (EBin W32 OAdd (EElem \"h\" (ELit 0)) (EBin W32 OMul (ELit 19) (EVar \"q\" 0)));", "    CSkip;", "C97: FeToBytes subtracts the modulus")
m("code-reduce-store", "CodeListing.v", "ScReduce_code", "CPut \"out\" (ELit 4) (EConv U8 (EBin W64 OShr (EVar \"s\" 1) (ELit 11)));", "CPut \"out\" (ELit 4) (EConv U8 (EBin W64 OShr (EVar \"s\" 1) (ELit 10)));", "C97: ScReduce packs its limbs")
m("code-reduce-load", "CodeListing.v", "ScReduce_code", "CSet \"s\" 3 (EBin W64 OAnd (ELit 2097151) (EBin W64 OShr (load4_of \"s\" 7 8 9 10) (ELit 7)));", "CSet \"s\" 3 (EBin W64 OAnd (ELit 2097151) (EBin W64 OShr (load3_of \"s\" 7 8 9) (ELit 7)));", "C97: ScReduce reads all bits")
m("code-minimal-equal", "CodeCalls.v", "minimal_code", "match i with O => CSet \"result\" 0 (ELit 0) |", "match i with O => CSet \"result\" 0 (ELit 1) |", "C97: the group order itself is not minimal")
m("code-minimal-swapped", "CodeCalls.v", "minimal_code", "(CIf (EBin U64 OLess (EElem \"order\" (ELit (Z.of_nat i))) (EVar \"v\" 0)) (CSet \"result\" 0 (ELit 0))", "(CIf (EBin U64 OLess (EElem \"order\" (ELit (Z.of_nat i))) (EVar \"v\" 0)) (CSet \"result\" 0 (ELit 1))", "C97: larger numbers are not minimal")
m("whole-select-seven", "CodeWhole.v", "select_prog", "(result s)))) (seq 0 8))", "(result s)))) (seq 0 7))", "C98: the table has eight entries")
m("whole-select-index", "CodeWhole.v", "select_prog", "(each (fun i => calling equal_code [(\"b\", vars s \"bAbs\" 0%nat); (\"c\", i32 (Z.of_nat i + 1))] [] (fun s =>\n                   perform_all (pc_cmove_calls t (g_base pos i) (result s)))) (seq 0 8))", "(if vars s \"bAbs\" 0%nat =? 0 then perform_all [] else perform_all (pc_cmove_calls t (g_base pos (Z.to_nat (vars s \"bAbs\" 0%nat - 1))) 1))", "C98: the table is not indexed by a digit")
m("whole-select-sign", "CodeWhole.v", "select_prog", "(perform_all (pc_cmove_calls t minusT (vars s \"bNegative\" 0%nat)))", "(if vars s \"bNegative\" 0%nat =? 0 then perform_all [] else perform_all (pc_cmove_calls t minusT 1))", "C98: the sign of a digit is not branched on")
m("whole-select-copy", "CodeWhole.v", "select_prog", "[Copy (f0 minusT) (f1 t); Copy (f1 minusT) (f0 t); Neg (f2 minusT) (f2 t)]", "[Copy (f0 minusT) (f0 t); Copy (f1 minusT) (f1 t); Neg (f2 minusT) (f2 t)]", "C98: the negative of a table entry")
m("whole-step-position", "CodeWhole.v", "step_prog", "(select_prog (fr + 3) t (i / 2)", "(select_prog (fr + 3) t i", "C98: one table row for two digits")
m("whole-step-skip-zero", "CodeWhole.v", "step_prog", "    after (select_prog (fr + 3) t (i / 2) (vars s \"b\" 0%nat))\n          (perform_all (geMixedAdd_calls (fr + 3) r h t ++ c_to_extended_calls r h))).", "    if vars s \"b\" 0%nat =? 0 then perform_all [] else after (select_prog (fr + 3) t (i / 2) (vars s \"b\" 0%nat))\n          (perform_all (geMixedAdd_calls (fr + 3) r h t ++ c_to_extended_calls r h))).", "C98: zero digits cost as much as others")
m("whole-base-doublings", "CodeWhole.v", "base_prog", "                        p_double_calls fr' s r ++ c_to_projective_calls r s ++\n                        p_double_calls fr' s r ++ c_to_projective_calls r s ++\n", "                        p_double_calls fr' s r ++ c_to_projective_calls r s ++\n", "C98: sixteen times the odd digits")
m("whole-encode-sign", "CodeWhole.v", "encode_prog", "(EBin U8 OShl (EVar \"b\" 0) (ELit 7))", "(EBin U8 OShl (EVar \"b\" 0) (ELit 6))", "C98: the sign is the top bit")
m("whole-encode-sign-y", "CodeWhole.v", "encode_prog", "(calling FeIsNegative_code [] [(\"s\", tmp); (\"h\", x)]", "(calling FeIsNegative_code [] [(\"s\", tmp); (\"h\", y)]", "C98: the sign of x")
m("whole-encode-shared", "CodeWhole.v", "encode_prog", "(calling FeIsNegative_code [] [(\"s\", tmp); (\"h\", x)]", "(calling FeIsNegative_code [] [(\"s\", out); (\"h\", x)]", "C98: FeIsNegative has an array of its own")
m("whole-encode-branch", "CodeWhole.v", "encode_prog", "           calling (CPut \"s\" (ELit 31)", "           if result s =? 0 then perform_all [] else calling (CPut \"s\" (ELit 31)", "C98: the sign of a point is not branched on")
m("whole-decode-sign", "CodeWhole.v", "decode_prog", "Z.shiftr (cells q s 31) 7 then cells q", "Z.shiftr (cells q s 31) 6 then cells q", "C98: the sign bit of a key")
m("whole-decode-root", "CodeWhole.v", "decode_prog", "perform_all [Mul X X g_SqrtM1] (cells q)", "perform_all [Mul X X g_d] (cells q)", "C98: the other square root")
m("whole-decode-accepts", "CodeWhole.v", "decode_prog", "    if result q =? 1 then (false, cells q)\n", "    if result q =? 2 then (false, cells q)\n", "C98: keys that are no points are refused")
m("whole-box-inverse", "CodeWhole.v", "box_prog", "let m := fst (perform_all (invert_calls (fr + 3) oneMinusY oneMinusY) m) in", "let m := fst (perform_all (invert_calls (fr + 3) oneMinusY x) m) in", "C98: divided by 1 - y")
m("whole-box-order", "CodeWhole.v", "box_prog", "Sub oneMinusY oneMinusY (f1 A);", "Sub oneMinusY (f1 A) oneMinusY;", "C98: 1 - y and not y - 1")
m("whole-box-keeps", "CodeWhole.v", "box_prog", "    (true, cells (called FeToBytes_code [] [(\"s\", edpub); (\"h\", x)] m))", "    (true, cells (called FeToBytes_code [] [(\"s\", tmpX); (\"h\", x)] m))", "C98: the result replaces the key")
# ---- slide and the double multiplication in memory (C99) ----
m("double-bits-address", "CodeDouble.v", "bits_prog", "(peek a (i / 8) m) (Z.of_nat (i mod 8))", "(peek a (i / 8) m) (Z.of_nat (7 - i mod 8))", "C99: the order of the bits in a byte")
m("double-bits-from-result", "CodeDouble.v", "bits_prog", "Z.land 1 (Z.shiftr (peek a (i / 8) m)", "Z.land 1 (Z.shiftr (peek r (i / 8) m)", "C99: the bits come from the scalar")
m("double-carry-stops", "CodeDouble.v", "carry_prog", "carry_prog fuel (k + 1) r (poke r k 0 m)", "poke r k 0 m", "C99: the carry goes on")
m("double-carry-one", "CodeDouble.v", "carry_prog", "then poke r k 1 m else", "then m else", "C99: the carry arrives")
m("double-inner-wide", "CodeDouble.v", "inner_prog", "if i8 (peek r i m + s) <=? 15 then", "if i8 (peek r i m + s) <=? 31 then", "C99: digits up to 15")
m("double-inner-low", "CodeDouble.v", "inner_prog", "else if -15 <=? i8 (peek r i m - s) then", "else if -31 <=? i8 (peek r i m - s) then", "C99: digits from -15")
m("double-inner-clears", "CodeDouble.v", "inner_prog", "inner_prog fuel i (b + 1) r (poke r (i + b) 0 m)", "inner_prog fuel i (b + 1) r m", "C99: a digit that has been added is cleared")
m("double-inner-carry-from", "CodeDouble.v", "inner_prog", "(carry_prog (256 - (i + b)) (i + b) r m)", "(carry_prog (256 - (i + b + 1)) (i + b + 1) r m)", "C99: the carry begins at the digit that was taken")
m("double-top-and", "CodeDouble.v", "top_prog", "negb (peek ra i' m =? 0) || negb (peek rb i' m =? 0)", "negb (peek ra i' m =? 0) && negb (peek rb i' m =? 0)", "C99: the first digit of either scalar")
m("double-body-digit", "CodeDouble.v", "body_with", "fst (perform_all (fb (peek rb i m)) m)", "fst (perform_all (fb (peek ra i m)) m)", "C99: the base point is multiplied by b")
m("double-table-missing", "CodeDouble.v", "table_calls", "flat_map (odd_calls fr) (seq 0 7)", "flat_map (odd_calls fr) (seq 0 6)", "C99: eight odd multiples")
m("double-same-scalar", "CodeDouble.v", "double_prog", "let m := slide_prog rb b m in", "let m := slide_prog rb a m in", "C99: the digits of b")
m("double-not-reset", "CodeDouble.v", "table_calls", "flat_map (odd_calls fr) (seq 0 7) ++ p_zero_calls r.", "flat_map (odd_calls fr) (seq 0 7).", "C99: the sum begins with zero")
m("double-outer-skips", "CodeDouble.v", "slide_prog", "inner_prog 6 i 1 r m) (seq 0 256)", "inner_prog 6 i 1 r m) (seq 0 200)", "C99: digits are gathered along the whole array")
