# Formal model of kisom/psignify in Rocq (Coq 8.16.1)

## 1. Overview

Everything is in `rocq/theories` (logical name `Verif`). Model files contain only
definitions; proofs are in separate files; `Props*.v` contain only the property
theorems, each closed by `exact`, with `Print Assumptions` below it and a concrete
`Example` beside it.

| layer | files | models |
|---|---|---|
| bytes, results, the world | `Bytes.v`, `Go.v` | Go values, error returns, panics, file system with faults, terminal, random source, passphrase buffers, log of effects |
| Go integers | `MachInt.v` | int32/int64/uint8 with wrap-around |
| Go standard library | `GoFmt.v` (`%d`), `GoBase64.v`, `DataFile.v` (scanner part), `GoPath.v`, `GoFlag.v` | `encoding/base64`, `bufio.Scanner`, `filepath`, `flag` |
| package `base64` | `B64Stream.v` | `base64/coding.go` |
| package `signify` | `DataFile.v`, `Keys.v` | `signify/common.go`, `key.go`, `signature.go` |
| package `edwards25519` | `Field.v`, `Group.v`, `Table.v`, `ScalarMult.v`, `ScalarRed.v`, `Pointers.v`, `Steps.v`, `Code.v`, `CodeListing.v`, `CodeCalls.v`, `CodeWhole.v`, `CodeDouble.v` | `signify/internal/edwards25519/edwards25519.go`, `const.go` |
| package `crypto` | `SealOpen.v` | `crypto/crypto.go` |
| prompts | `Prompts.v` | `Sign`, `ToBox` and `Open` with the function in `PassphrasePrompt` as a parameter |
| system calls | `Calls.v`, `CmdCalls.v`, `WorldOs.v`, `Ioutil.v` | `Sign`, `Verify`, `GenerateKey`, `Seal`, `Open` and `main` once more, over an arbitrary operating system; the world of `Go.v` as one of those; `ioutil.ReadFile` and `ioutil.WriteFile` as the calls they make |
| command | `Cmd.v` | `cmd/psignify/main.go` |
| external cryptography | `Crypto.v`, `EdLib.v` | a record of functions, and laws used as premises; Ed25519 composed from the package's routines |
| the primitives | `Sha512`, `Salsa`, `Bcrypt`, `CryptoTables`, `RealCrypto` | SHA-512, HMAC, (H/X)Salsa20, Poly1305, secretbox, Blowfish, bcrypt_pbkdf as executable definitions; an instance of the record |
| independent specification | `SpecB64`, `SpecFmt`, `SpecField`, `SpecCurve`, `SpecX25519`, `SpecGroup`, `SpecScalar`, `SpecEd25519`, `SpecSeal`, `SpecCrash`, `SpecTorn`, `SpecLeak`, `SpecConc`, `SpecMem`, `SpecOpenBSD`, `SpecInterop`, `SpecPointers`, `SpecFlag`, `SpecCmd`, `SpecText`, `SpecTextCmd`, `SpecReport`, `SpecDecimal`, `SpecPrint`, `SpecHolders`, `SpecCalls`, `SpecPass`, `SpecSteps`, `SpecCmdCalls`, `SpecWorldOs`, `SpecPrompt`, `SpecIoutil`, `SpecTerminal`, `SpecHistory`, `SpecCode`, `SpecWhole` | RFC 4648, file formats, the field, the curve, RFC 7748/8032, point representations, scalars, Ed25519 signatures, sealed files, crash states, command line grammar |
| proofs | `*Facts.v`, `EncReuse`, `NumTheory`, `OrderPrime`, `PrimeField`, `FieldAlg`, `EdCert`, `EdGroup`, `ZMul`, `TableCert`, `Ladder`, `Decode`, `PointBytes`, `BoxKeys`, `ScalarKeys`, `RoundTrip`, `Torn`, `SealCrash`, `ConcGen`, `ConcCalls`, `Footprint`, `FootCalls`, `SealMem`, `Interop`, `PointerGroup`, `PointerMult`, `PointerTop`, `TextKeys`, `ReportOpen`, `ReportSeal`, `DecimalText`, `SealChain`, `CallSeal`, `CallKeys`, `CallOpen`, `CmdCallEnds`, `WorldMain` | |
| concrete runs | `ToyCrypto`, `SignWitness`, `SealWitness`, `TornWitness`, `LeakWitness`, `SealCrashWitness`, `ConcWitness`, `FootWitness`, `MemWitness`, `InteropWitness`, `PointerWitness`, `TextExample`, `ReportExample`, `PrintExample`, `CallExample`, `Vectors`, `VectorFacts` | witnesses for the examples and the refutations |

A Go function `f(args) (T, error)` is modelled by a total function returning
`Ok v`, `Err e` or `Panic`; functions with side effects are state transformers
`world -> res A * world`. Slices are lists of bytes; arrays are lists with the
length kept by an explicit well-formedness predicate that is proved of every
value the API can return. Mutation through a pointer returns the new value;
`Pointers.v` models the edwards25519 routines a second time on a memory in which pointers may
coincide, and C82 proves that both versions agree.

Generated files: `Field.v` (by `tools/gen_field.py`, which transcribes the limb
formulas), `EdCert.v` (by `tools/gen_edcert.py`, polynomial certificates; they are
checked by `ring` in Coq, so the generator is not trusted), `Table.v` and `TableCert.v`
(by `tools/gen_table.py`: the tables of `const.go`, and affine coordinates that are only
data for a checker proved sound in `TableFacts.v`), `ScalarRed.v` (by `tools/gen_scalar.py`,
which transcribes the straight-line code of `ScMulAdd` and `ScReduce` statement by statement),
`CodeListing.v` (by `tools/gen_code.py`: the leaf routines as programs of the language of `Code.v`,
read from the source independently of the other two), `CryptoTables.v` (by `tools/gen_crypto.py`: the constants of SHA-512 and Blowfish, computed from
primes and pi), `Vectors.v` (by `tools/gen_vectors.py`: test data of the repository, published
vectors, and addition chains that are only data for a checker proved sound in `VectorFacts.v`).
`properties.jsonl`, `MANIFEST.json` and the table of section 5 are written by
`tools/gen_properties.py` and `tools/gen_manifest.py`.

## 2. What is modelled, and the simplifications

* **Bytes and memory.** Aliasing is modelled only where the code relies on it: the
  decrypted key overwrites the key in memory (C20), passphrase buffers are handles
  into the world so that wiping is observable (C28), field routines that modify
  their argument return it. Garbage collection, copies the runtime may make, and
  timing are not modelled, except for the order of calls in the scalar multiplications
  (`Steps.v`, C90) and the operations, branches and addresses inside the routines they
  call (`Code.v`, C97, C98).
* **Files.** A path is a canonical name; no links, directories or permission checks. Creating truncates; a write appends at the handle's end.
  `f_mode` is the mode requested (umask not applied). Two handles on one file see
  each other's effects (needed for C42).
* **Several processes.** A run of the model is one process. For C78, `SpecConc.v` turns the
  logs of several runs into sequences of opens and writes (each process at its own offset, a
  write call atomic, holes zero) and interleaves them arbitrarily; what the runs read is the
  state at their start. For C88, `Calls.v` has the operations over an operating system that may
  answer anything, so files may change during the run; there closing a file is a call.
* **OpenBSD's signify.** `SpecOpenBSD.v` describes another program (C81). It was written from
  knowledge of that program's C source, which is not in the repository, and is trusted only for
  the meaning of C81.
* **Faults.** Every system call consumes an entry of an arbitrary fault schedule: it
  may fail, a write may fail after any number of bytes, a read may be short.
  `ioutil.ReadFile` has one fault point (C94 takes it apart). A crash may happen after any prefix of the
  log of effects (`SpecCrash.v`); in-kernel reordering is not modelled.
* **Terminal and random source.** Arbitrary lists of results; the random source
  delivers an arbitrary byte string and fails when it is used up.
* **Errors** of the program itself carry their full text, quoted lengths, algorithms and counts
  included. A base64 error carries its offset, the error of a missing file its path (Linux's text).
  Other failing system calls, the terminal and the random source give names without text (a
  printed one reads as a fixed phrase in `errText`).
* **Integers.** `int` is 64 bits. Field arithmetic, round numbers and the chunk
  counter are modelled with wrap-around; lengths are unbounded naturals.
* **flag.** The six parsing rules of `flag.FlagSet.parseOne` for the flags psignify
  defines. The usage and the complaints have their full text, except that `%q`
  leaves the byte 127 and the bytes from 128 on as they are.
* **Primitives.** The theorems hold for every record of library functions satisfying the
  laws of section 3. `RealCrypto.v` defines the record with the primitives the libraries
  implement and proves every law of it, so C71 has no premise about a library. These
  definitions follow the published specifications (the libraries' sources are not in the
  repository). Checked in Coq: SHA-512, Blowfish, X25519, HSalsa20 and secretbox vectors, and
  the repository's own test data (C71). bcrypt_pbkdf was compared only outside the build:
  `tools/gen_crypto.py check` decrypts `signify/testdata/test.sec` with a Python rendering,
  and one round of the Coq definition, evaluated once, agrees with it.
* **Scalar multiplication.** `slide` is modelled on its array of int8 with explicit
  wrap-around; loops with an index have the number of remaining iterations as a
  structural argument. These routines are not reachable from psignify but are part of
  the package.
* **Arithmetic modulo the group order.** `ScMulAdd` and `ScReduce` are lists of
  instructions (carry, floor carry, fold) on int64 limbs with wrap-around.
* **Ed25519.** The library `golang.org/x/crypto/ed25519` is not in the repository.
  `EdLib.v` composes the package's routines as that library does, so that C70 shows the
  routines suffice for RFC 8032; the link to the library psignify calls remains a premise.
* **Not modelled:** log formatting. The tests (`*_test.go`) are not modelled as code; what they
  assert is proved for all inputs (C71, C80, C86).

## 3. Trusted base

* The Coq 8.16.1 kernel including its VM (`vm_compute`); `coqchk` re-checks all
  modules without the VM.
* Axioms: none of our own. `Print Assumptions` below every property theorem lists
  either nothing or `functional_extensionality_dep` of the standard library (used to
  compare file systems, which are functions from paths). `coqchk` additionally lists
  the seven constants of the sealed module `Coq.ssr.ssrunder` (`Under_rel` ...): they
  belong to the standard library's ssreflect support, are loaded with it, and no
  theorem depends on them.
* The reading of the Go sources, function by function, as the definitions in the
  model files (each cites file and lines).
* The models of the standard library (`encoding/base64`, `bufio.Scanner`,
  `path/filepath`, `flag`, `os`, `ioutil`).
* Laws of external libraries, which appear as explicit premises of the theorems that
  use them. All but `not_mistaken` are proved for the primitives of `RealCrypto.v` (C71), so
  what is trusted is that the libraries compute those functions:
  * `LengthLaws` - output lengths of SHA-512, Ed25519, X25519, box, auth, bcrypt_pbkdf;
  * `EdCorrect` - a signature made with a key verifies with its public key (C24); *proved*
    from `conforms_ed25519` and `conforms_signatures` for `C24_sign_then_verify_rfc`;
  * `conforms_signatures` - the library signs as RFC 8032 and verifies by the equation of
    `SpecEd25519.v` (`C24_..._rfc`, `C25_accepts_rfc`); satisfied by `EdLib.v`;
  * `BoxCorrect`, `BoxTidy` - secretbox opening inverts sealing, and only sealings open
    (the cipher and tag are deterministic, so this is functional, not a hardness
    assumption) (C31, C34-C39);
  * `DHCorrect`, `ToBoxAgree` - used by `C31_round_trip` only; both are *proved* from
    the next item for `C31_round_trip_rfc`;
  * `conforms_ed25519`, `conforms_x25519` - the libraries' public key derivation and
    X25519 are those of RFC 8032 and RFC 7748 as written in `SpecX25519.v`;
  * `not_mistaken` - the 64-bit checksum of an encrypted key does not match the
    plaintext's checksum by coincidence (C31; the code tests the checksum to
    decide whether a key is already decrypted).
  No hardness assumption (unforgeability, secrecy) is used or proved.

## 4. Remarks found while proving

* Documented limb bounds are exceeded inside the package: `geAdd` followed by
  `ToExtended` multiplies limbs above 1.1 * 2^26, and `FromBytes`' final test encodes
  limbs above 1.1 * 2^25. The field theorems are therefore proved for 1.65 * 2^26.
* Verification as the library does it has no cofactor and reduces the hash modulo the
  order of B. For public keys with a component of small order this differs from the
  equation with the unreduced hash, so `Ed25519_accepts` states the reduced one.
* Refuted expectations are theorems named `..._refuted` with a witness: short
  signature payloads panic (C15); a failed decryption corrupts the key in memory (C20);
  Sign does not check an unencrypted key's checksum (C23); passphrases are left in
  memory by ToBox and GenerateKey (C28); a newline in the key name breaks the signature
  file (C29); an empty message cannot be opened after sealing (C32); Seal can report
  success after short reads or failed writes (C40, C41); a passphrase that a program keeps
  and returns from its own PassphrasePrompt is wiped by the first signature (C93); malformed flags exit with
  status 0 (C48); key files cut short by a crash are accepted and sign (C75),
  and one such signature beside a proper one of the same message gives the key away (C76); Seal
  loses an earlier encrypted file when it is interrupted (C77); key generations and sealings at
  the same time spoil each other's output (C78); a secret key file can send an escape sequence
  to the terminal (C95); a decryption that fails may empty the very key it was given (C96); the branches of `ScMinimal` show something of its scalar (C97); and others (see the table).

## 5. Properties

<!-- properties -->
| property | status | proof file(s) | modelled / how proved |
|---|---|---|---|
| C01 Encoder output is RFC 4648 base64 wrapped at 72 columns, whatever the Write segmentation | proved | PropsB64.v | Encoder as a state machine over any io.Writer; every honest, never failing writer and every segmentation. Proof: the list of write calls is computed by a pure function (enc_plan), related to the wrapped RFC 4648 text by induction. |
| C02 Encoder lines never exceed 72 characters | proved | PropsB64.v | Consequence of C01's description of the output, for every segmentation. |
| C03 Encoder then Decoder is the identity for buffer sizes that are multiples of 3 | proved | PropsB64.v | Encoder output fed to the decoder over any sequence of buffer sizes that are multiples of 3. |
| C04 Decoder.Read never panics when the buffer length is a multiple of 3 (and can panic otherwise) | proved | PropsB64.v | Decoder over any script of reader results. Proved for buffer lengths that are multiples of 3; the unconditional claim is refuted for every other length. |
| C05 Encoder.Write's returned count | proved | PropsB64.v | The count Write returns is characterised; the io.Writer count contract is refuted with a witness. |
| C06 Decoder.Read never reports io.EOF | proved | PropsB64.v | All reader scripts. |
| C07 A failing underlying writer is reported and leaves a prefix | proved | PropsB64.v | Any honest writer; the failing writer of the second and third theorem fails by an arbitrary schedule. |
| C08 Decoding inverts encoding, and decoding never invents data | proved | PropsB64.v | Go's encoding/base64 model against an independent bit-group specification of RFC 4648; canonical-form claim refuted. |
| C09 Data files round-trip | proved | PropsData.v | All comments without newline and all payloads that keep the line under the scanner limit. |
| C10 Only the first non-comment line of a data file matters | proved | PropsData.v | All files; bufio.Scanner modelled with its 64 KiB token limit. |
| C11 Reading any data file is total | proved | PropsData.v | All byte strings as file contents. |
| C12 Private key layout and round-trip | proved | PropsKeys.v | All well-formed private keys. |
| C13 Which private key payloads are accepted | proved | PropsKeys.v | All byte strings; the expectation that only 104-byte payloads are accepted is refuted. |
| C14 Public key layout, strictness and round-trip | proved | PropsKeys.v | All byte strings. |
| C15 Signature layout and round-trip; short signature payloads panic | proved | PropsKeys.v | All byte strings; short payloads panic (refuted robustness claim with a witness file). |
| C16 Check accepts exactly keys whose checksum is the SHA-512 prefix | proved | PropsKeys.v | Any hash function in place of SHA-512. |
| C17 GenerateKeypair produces a consistent pair | proved | PropsKeys.v | Any Crypto record; LengthLaws as a premise where lengths matter. |
| C18 Decrypting a generated key with its passphrase recovers it | proved | PropsKeys.v | Any Crypto record obeying LengthLaws; any later world. |
| C19 A passphrase-protected key is never stored in the clear with zero rounds | proved | PropsKeys.v | Any passphrase and options, including negative and huge round numbers (explicit 32-bit truncation). |
| C20 Wrong passphrases are rejected, but a failed attempt corrupts the in-memory key | proved | PropsKeys.v | Both outcomes of decrypt characterised exactly; the claim that a failed attempt leaves the key intact is refuted. |
| C21 Private ToBox yields a clamped scalar determined by the seed | proved | PropsKeys.v | Any Crypto record obeying LengthLaws; clamping specified by bit conditions. |
| C22 Private ToBox and checksums | proved | PropsKeys.v | Cases by encryption and checksum; 'a bad checksum is rejected' refuted. |
| C23 Sign refuses keys whose checksum does not match | proved | PropsSign.v | Premise about the checksum made explicit; 'unencrypted keys are checked' refuted. |
| C24 Sign then Verify succeeds for generated keys | proved | PropsEd.v, PropsSign.v | Premises LengthLaws and EdCorrect (signatures by the library verify); C24_sign_then_verify_rfc replaces EdCorrect by conformance to RFC 8032, from which it is proved. |
| C25 Verify succeeds exactly when it should | proved | PropsEd.v, PropsSign.v | Exact condition for acceptance, and for a panic. |
| C26 Verify changes nothing | proved | PropsSign.v | Every world, every fault schedule. |
| C27 Sign only writes the signature file | proved | PropsSign.v | Every world, every fault schedule; success described by the file format. |
| C28 Sign wipes the passphrase | proved | PropsSign.v | Passphrase buffers are part of the world; Sign wipes, ToBox and GenerateKey do not (refuted). |
| C29 A signature file written by Sign can be read back | proved | PropsSign.v | Premise: the key's base name contains no newline; without it refuted. |
| C30 Nonce increment is +1 on a 192-bit big-endian counter | proved | PropsSeal.v | All 24-byte nonces. |
| C31 Seal then Open returns the message | proved | PropsBox.v, PropsSeal.v | C31_round_trip assumes ToBoxAgree and DHCorrect of the libraries; C31_round_trip_rfc (PropsBox.v) discharges both from 'the libraries implement RFC 8032 public keys and RFC 7748', using C54. |
| C32 Sealing an empty message | proved | PropsSeal.v | An empty message can be sealed but not opened. |
| C33 Format and size of a sealed file | proved | PropsSeal.v | Size and layout computed independently in SpecSeal.v. |
| C34 Open only accepts authentic sealings | proved | PropsSeal.v | Soundness and completeness against authentic_header/authentic of SpecSeal.v. |
| C35 Truncation is detected | proved | PropsSeal.v | Every truncation point of the encrypted text. |
| C36 Data after the last chunk is ignored | proved | PropsSeal.v | Any suffix; 'every modification is detected' refuted. |
| C37 Open terminates for every header | proved | PropsSeal.v | The number of effects is bounded by the header's chunk count and the file length; fuel-free by construction. |
| C38 A failed Open leaves a prefix of authenticated plaintext | proved | PropsSeal.v | Every crash point, every fault schedule. |
| C39 Open truncates its output before authenticating | proved | PropsSeal.v | Cases before and after the output is created; 'output untouched on failure' refuted. |
| C40 Short reads while sealing | proved | PropsSeal.v | Short reads are allowed by the fault schedule; 'nil means complete' refuted. |
| C41 Write failures while sealing | proved | PropsSeal.v | Any write fault; 'nil means complete' refuted. |
| C42 Sealing or opening in place destroys the data | proved | PropsSeal.v | Same path for input and output. |
| C43 GenerateKey writes exactly a matching pair of files | proved | PropsSign.v | Every world and fault schedule. |
| C44 Crash points of GenerateKey | proved | PropsSign.v | Every crash point; two durability expectations refuted. |
| C45 Secret key files are created world-readable and overwrite silently | proved | PropsSign.v | Mode as requested in the call; umask not modelled. |
| C46 Passphrase confirmation | proved | PropsSign.v | Every terminal behaviour. |
| C47 Command dispatch | proved | PropsCmd.v | Every command line: it is first proved that each argument list has the grammar of SpecFlag.v. |
| C48 Malformed flags exit with status 0 | proved | PropsCmd.v | Every malformed command line. |
| C49 Default key names | proved | PropsCmd.v | Every option set and working directory name. |
| C50 Field arithmetic is correct and never overflows | proved | PropsField.v | Go int32/int64 arithmetic with explicit wrap-around; limbs within the documented bounds and beyond (1.65 * 2^26), every intermediate proved in range. |
| C51 Field encoding is canonical | proved | PropsField.v | All 32-byte strings, all limbs within 1.65 * 2^26. |
| C52 Field inversion | proved | PropsField.v | Fermat in Z/p with p = 2^255-19 proved prime by a Pocklington chain inside Coq. |
| C53 Public ToBox is the Edwards to Montgomery map | proved | PropsField.v | FromBytes and ToBox against the curve equation; division by zero convention stated. |
| C54 Box keys derived from the two halves agree | proved | PropsBox.v | Group law of the curve and the RFC 7748 ladder proved from scratch (certificates checked by ring); libraries assumed to implement RFC 8032 key derivation and X25519. |
| C55 Low-order public keys are accepted for sealing | proved | PropsField.v | Every key with y=1; the rejection claim is refuted. |
| C56 The decoder depends on how the underlying reader delivers its bytes | proved | PropsB64.v | Refuted expectation, with witnesses. |
| C57 Which error a bad header gives | proved | PropsSeal.v | Every encrypted file without I/O faults. |
| C58 Where the default keys are | proved | PropsCmd.v | Every absolute home directory. |
| C59 An encoder can be used again after Close | proved | PropsB64.v | Any honest, never failing writer; every two sessions. 'Close starts a fresh line count' refuted. |
| C60 A refused newline switches line breaking off | proved | PropsB64.v | Refuted expectation, for every 54-byte first write and every later write. |
| C61 The point formulas compute the group law | proved | PropsGroup.v | Coordinates specified in SpecGroup.v (values and limb bounds); proof by tracking bounds and values through each routine and the completeness of the affine law. |
| C62 Point encoding | proved | PropsGroup.v | Against point_bytes of SpecX25519.v. Canonicity claim refuted with two witnesses. |
| C63 Signed sliding-window digits | proved | PropsScalar.v | Array loops of slide reduced to a closed form of one round on suffixes of the bit list; value and carry loss by induction. int8 wrap-around explicit. |
| C64 Fixed-base scalar multiplication | proved | PropsScalar.v | Against zmul (integer multiples by the affine group law). Uses the tables (C66), the point formulas (C61) and the signed base-16 recoding. Necessity of the precondition shown with a witness. |
| C65 Double scalar multiplication | proved | PropsScalar.v | For all points on the curve; result also given for arbitrary scalars in terms of the recoded digits. Doc comment refuted using the order of B. |
| C66 Precomputed tables and the order of the base point | proved | PropsScalar.v | const.go transcribed by tools/gen_table.py; every entry checked in Coq by arithmetic modulo 2^255-19 on affine coordinates, order by an addition chain of the table's points, primality by Pocklington certificates. |
| C67 Reduction modulo the group order | proved | PropsRed.v | tools/gen_scalar.py transcribes each statement; an interval interpreter proved sound and run in Coq shows that no 64-bit operation overflows and that the last carry makes the result canonical. Value by congruence modulo l of every fold. |
| C68 Multiply-add modulo the group order | proved | PropsRed.v | As C67, with the 23 product limbs. |
| C69 The test for minimal scalars | proved | PropsRed.v | Four 64-bit words compared from the top, as in the code. |
| C70 The routines of the package give Ed25519 | proved | PropsEd.v | The composition (EdLib.v) models golang.org/x/crypto/ed25519, whose source is not in the repository. Specification in SpecEd25519.v. C24 and C25 are restated with RFC 8032 signatures as C24_sign_then_verify_rfc and C25_accepts_rfc. |
| C71 The API is correct with the primitives the libraries implement | proved | PropsReal.v | The primitives are executable Coq definitions following the published specifications; SHA-512, Blowfish, X25519, HSalsa20, secretbox and Ed25519 are checked on published vectors and the repository's test files. not_mistaken is the only condition left, and holds trivially without a passphrase. |
| C72 Crash freedom and exit statuses | proved | PropsMain.v | Terminal inputs that are themselves a panic of the terminal library are excluded. The crash is the one of C15. |
| C73 The answer of psignify -V | proved | PropsMain.v | accepted and too_short (SpecCmd.v) are stated on the contents of the files. |
| C74 Whole sessions on the command line | proved | PropsMain.v | The three commands run one after the other in the same world, which may hold any other files. The condition on the checksum (not_mistaken) is needed only with a passphrase. |
| C75 Files cut short | proved | PropsLeak.v, PropsTorn.v | Every cut position is covered (groups_left, SpecTorn.v). Crash states as in C27; the refutations are concrete runs, one of them with signatures depending on the secret key. |
| C76 A key file cut short gives the key away | proved | PropsLeak.v | With the primitives of C71, so no premise about a library; that the two challenges differ is a hypothesis on public data (proved for the test key). A consequence of readPrivateKeyData filling missing bytes with zeros and of Sign not checking an unencrypted key's checksum (C23). |
| C77 A crash of Seal | proved | PropsSealCrash.v | Crash states as in C27: some of the run's writes have happened and of one in progress any first part. C77_opened_real has the primitives of C71 in place of the libraries; the coincidence is truncated_box (as in C35). |
| C78 Several runs at the same time | proved | PropsConc.v | SpecConc.v: opening for writing empties the file, each process writes at its own offset, a write call is atomic, the bytes of a hole are zero. Every call is computed from the files as they were at the start, so the theorems are about calls none of which reads a file another one writes. |
| C79 What a call depends on | proved | PropsFoot.v | inputs and outputs (FootCalls.v, ConcCalls.v) list the files of each call, command_reads those of a command line. C79_any_order compares in_turn, the calls run one after the other each with its own terminal, random source and faults, with every interleaving in the sense of C78. |
| C80 Sealing and opening over any reader | proved | PropsMem.v | seal and open_body of SealOpen.v at an arbitrary reader state beside a bytes.Buffer (mem_seal, mem_open in SealMem.v); delivered (SpecMem.v) lists what successive reads return. mem_read is bytes.Buffer.Read, pipe_read a reader that returns what has arrived. box.GenerateKey's 32 random bytes are the argument epriv. C80_round_trip is TestSealUnseal for all inputs, C80_round_trip_real the same with the primitives of C71. |
| C81 Exchange with OpenBSD's signify | proved | PropsInterop.v | SpecOpenBSD.v is a specification of OpenBSD's signify written from memory of its C source (parseb64file, readb64file, writeb64file, kdf, generate, sign, verify, b64_pton, crypto_sign_ed25519_open); nothing in the repository confirms it. key_files and signed (SpecInterop.v) cover both programs on either side. C81_exchange takes the primitives as premises, C81_exchange_real uses RFC 8032 on OpenBSD's side; C81_instance is with the primitives of C71. |
| C82 Results written over arguments | proved | PropsPointers.v | Pointers.v repeats the routines as sequences of reads and writes of a memory (limb by limb for FeAdd, FeSub, FeNeg, FeCMove and the end of FeCombine); Field.v, Group.v and ScalarMult.v are the functional versions that C50-C65 are about. Variables of a call are fresh numbers; pointers of different types never coincide (r <> p), those of one type may. The arrays of digits and the byte arrays are values. |
| C83 Which texts are read as what | proved | PropsText.v | SpecText.v speaks of characters, bits and lines only; C08-C11, C14-C16 and C21-C25 are about the same functions in terms of RFC 4648's encoder and of the parsers. Which error or panic the decoder gives for a text that is none, depends on the buffer (C83_decoder leaves the two open). The bound 65534 in C83_crlf_data keeps every line within the scanner's buffer; DataFile.v models the scanner with its growing buffer. |
| C84 What goes wrong and what is reported | proved | PropsReport.v | The outcomes (verify_outcome, sign_outcome, seal_outcome, open_outcome in SpecReport.v) are inductive relations over file contents, with texts told apart as in SpecText.v; the theorems are equivalences, so each case of the relation both happens and is the only one. The offsets of base64 errors (C87) and the paths of missing files are exact. Failing system calls, errors of the terminal and of the random source are names without text; error_text is the text of the others. What an EOF stands for in Open is the end of a file without newline. C84_decimal says what the numbers in the texts look like, without the model's conversion. |
| C85 Everything psignify prints | proved | PropsPrint.v | session (SpecPrint.v) gives, mode by mode, the transcript and status in terms of the outcomes of C84; C85_status adds that no other status satisfies it. Failing system calls and errors of the terminal and the random source have no text in the model: their line is only said to be one line at its place. The quoting of %q is exact for characters below 127 (127 differs between Go versions, the rest depends on UTF-8). Standard output is assumed to accept what is written. |
| C86 What the repository's tests check, for all inputs: boxes between holders of generated keys, and the encoder read back without Close | proved | PropsHolders.v | box_to and box_from (SpecHolders.v) are box.Seal and box.Open as precomputation followed by secretbox, as in nacl/box. As in C31, not_mistaken excludes that the checksum of an encrypted key matches by coincidence; without a passphrase it holds trivially. TestSealUnseal is C80_round_trip_real, TestLoadKey, TestReadSignature and the files of testdata are C71, TestSign is C71_sign_then_verify. C86_own_keys_refuted uses a random source that delivers the same bytes twice. |
| C87 Where a text goes wrong, and what the message says | proved | PropsFault.v | faulty_at and misread (SpecText.v) speak of positions of characters only. GoBase64.v models decodeQuantum's offset si - j, with its quirk for an incomplete group containing line breaks (C87_text_instance, last case: byte 1). C87_message restates the texts of the errors as errText prints them; where they appear in a transcript is C84 and C85. |
| C88 Whatever the operating system answers | proved | PropsCalls.v | Calls.v repeats the operations over a record of answers (os), each a function of the whole history of calls; SpecCalls.v has what a history must look like (in_use, touches, noticed, answered, sealed_calls, boxed_texts). file_rules is os.File: a read into a non-empty buffer delivers something or an error, sizes are int64; rand_rules: crypto/rand delivers what was asked for. ReadFile and WriteFile count as one call each. Open_os stops looking after fuel reads per loop, with the result Panic, since an operating system could deliver line breaks for ever. C88_open needs BoxTidy (a box of the secretbox is 16 bytes longer than its contents), which C71 proves of the primitives. |
| C89 What the passphrase changes, and what it leaves visible | proved | PropsPass.v | SpecPass.v; file_holds is the reading of SpecText.v (C83). In C89_opening, not_mistaken as in C31. In C89_shown the bytes 72..103 of the payload are the second half of the stored key and the bytes 10..41 of the public payload the public key, so everybody who can read both files can test a guess of the passphrase. |
| C90 What the order of calls shows of a scalar | proved | PropsSteps.v | Steps.v lists the calls of the field routines (kind and pointers); C90_runs ties the lists to the memory model of C82. What happens inside the routines is the matter of C97. |
| C91 psignify, whatever the operating system answers | proved | PropsCmdCalls.v | CmdCalls.v repeats main over the operating systems of Calls.v; standard error is written at most once, just before the exit, and stands apart from the calls. run_of (SpecCmdCalls.v) has a case for each mode; the calls of the operations are described in the words of C88 (signs, verifying, generates, seals, opens). Standard output is assumed to accept what is written, as in C85. The user database is a parameter (the answer of user.Current). |
| C92 The two accounts of the operations agree | proved | PropsWorld.v | WorldOs.v makes the world of Go.v an operating system of Calls.v: input number k has descriptor 2k, output number k descriptor 2k+1, and closing never fails. The primitives of the world panic on a descriptor that is not open and when the terminal does; such answers have no counterpart among those of an operating system, so plain_world excludes a panicking terminal. A file of 2^63 bytes or more is excluded for Seal, whose size would not be an int64. Passphrase buffers, which the worlds record and operating systems do not see, are left out of the comparison. |
| C93 A program's own PassphrasePrompt | proved | PropsPrompt.v | Prompts.v repeats Sign, ToBox and Open with the function as a parameter; a buffer is a handle, so that a function may hand out one it keeps. gives (SpecPrompt.v) says what the function answers while the buffers are those of the start of the call; a function that also changes files is covered only by C93_once, C93_unasked and C93_wiped. |
| C94 Whole files, call by call | proved | PropsIoutil.v | Ioutil.v has ReadFile and WriteFile of Go 1.12 over the low-level calls of an os (open, stat, read, write, close); over makes an operating system of Calls.v out of one in which these are the only calls on files, so that the models of Calls.v and CmdCalls.v run on it unchanged. How much bytes.Buffer asks for with each read is left open (room). files_end says that reading comes to an end within fuel reads; without it only the statements on descriptors are made. serves describes files with a content that may change between two calls; C94_steady asks that it does not. |
| C95 What psignify finds wrong, and what of the files reaches the terminal | proved | PropsTerminal.v | Over the operating systems of Calls.v. Errors without a text in SpecReport.v are printed as "error" by the model (Cmd.v); nothing is claimed about their real texts but what tame_errors asks of those that have one. |
| C96 Histories of any length: what lasts | proved | PropsHistory.v | Runs follow one another; runs at the same time are the matter of C78. Other programs change files only between runs. The signing and sealing runs in question are undisturbed, the others may meet any faults. |
| C97 Statement by statement: what the leaf routines compute and show | proved | PropsCode.v | CodeListing.v is generated from the text of the Go routines (tools/gen_code.py), so it does not go through the functional models of Field.v and ScalarRed.v that it is compared with. FeToBytes, FeIsNegative and FeIsNonZero are given a result apart from their argument, the recoding loop digits apart from the scalar (local arrays in the source). Names of pointers are the source's, save where one routine is put into another (dst of FeFromBytes and f of FeIsNegative and FeIsNonZero are h). What a compiler makes of the statements and how long an instruction takes are outside. |
| C98 From the statements of the text to points of the curve | proved | PropsWhole.v | CodeWhole.v puts the routines of CodeListing.v together as GeScalarMultBase, ToBytes, FromBytes and ToBox do; the digits of the scalar are read from memory. Local arrays (e, s, tmpX) have places apart from the points; tmp2 of FromBytes, written and never read, is left out. What FromBytes and ToBox show is not kept, since the key is public and FromBytes does branch on it. The two halves of the run of C98_public are also stated alone. |
| C99 Two scalars and a point in memory | proved | PropsDouble.v | CodeDouble.v has slide and GeDoubleScalarMultVartime over the memory of C97 and C98; loop bounds are fuel, as in ScalarMult.v. What the run shows is not kept: the routine is for public scalars, and C90 proves that its calls do reveal the digits. Nothing in psignify calls it; verification in Go's ed25519 does the same. |
<!-- end properties -->

No property is inexpressible in the model. Timing (except C90, C97 and C98), side channels and memory
residue outside the modelled passphrase buffers are outside its scope.

## 6. Testing the theorems

`tools/mutate.py` copies the development, applies one edit of `tools/mutations.py` (a
realistic bug in a model definition), rebuilds and records the lemmas and the property
theorems that no longer hold in `seeded/LOG.jsonl`.
