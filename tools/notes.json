{
 "C01": "Encoder as a state machine over any io.Writer; every honest, never failing writer and every segmentation. Proof: the list of write calls is computed by a pure function (enc_plan), related to the wrapped RFC 4648 text by induction.",
 "C02": "Consequence of C01's description of the output, for every segmentation.",
 "C03": "Encoder output fed to the decoder over any sequence of buffer sizes that are multiples of 3.",
 "C04": "Decoder over any script of reader results. Proved for buffer lengths that are multiples of 3; the unconditional claim is refuted for every other length.",
 "C05": "The count Write returns is characterised; the io.Writer count contract is refuted with a witness.",
 "C06": "All reader scripts.",
 "C07": "Any honest writer; the failing writer of the second and third theorem fails by an arbitrary schedule.",
 "C08": "Go's encoding/base64 model against an independent bit-group specification of RFC 4648; canonical-form claim refuted.",
 "C09": "All comments without newline and all payloads that keep the line under the scanner limit.",
 "C10": "All files; bufio.Scanner modelled with its 64 KiB token limit.",
 "C11": "All byte strings as file contents.",
 "C12": "All well-formed private keys.",
 "C13": "All byte strings; the expectation that only 104-byte payloads are accepted is refuted.",
 "C14": "All byte strings.",
 "C15": "All byte strings; short payloads panic (refuted robustness claim with a witness file).",
 "C16": "Any hash function in place of SHA-512.",
 "C17": "Any Crypto record; LengthLaws as a premise where lengths matter.",
 "C18": "Any Crypto record obeying LengthLaws; any later world.",
 "C19": "Any passphrase and options, including negative and huge round numbers (explicit 32-bit truncation).",
 "C20": "Both outcomes of decrypt characterised exactly; the claim that a failed attempt leaves the key intact is refuted.",
 "C21": "Any Crypto record obeying LengthLaws; clamping specified by bit conditions.",
 "C22": "Cases by encryption and checksum; 'a bad checksum is rejected' refuted.",
 "C23": "Premise about the checksum made explicit; 'unencrypted keys are checked' refuted.",
 "C24": "Premises LengthLaws and EdCorrect (signatures by the library verify); C24_sign_then_verify_rfc replaces EdCorrect by conformance to RFC 8032, from which it is proved.",
 "C25": "Exact condition for acceptance, and for a panic.",
 "C26": "Every world, every fault schedule.",
 "C27": "Every world, every fault schedule; success described by the file format.",
 "C28": "Passphrase buffers are part of the world; Sign wipes, ToBox and GenerateKey do not (refuted).",
 "C29": "Premise: the key's base name contains no newline; without it refuted.",
 "C30": "All 24-byte nonces.",
 "C31": "C31_round_trip assumes ToBoxAgree and DHCorrect of the libraries; C31_round_trip_rfc (PropsBox.v) discharges both from 'the libraries implement RFC 8032 public keys and RFC 7748', using C54.",
 "C32": "An empty message can be sealed but not opened.",
 "C33": "Size and layout computed independently in SpecSeal.v.",
 "C34": "Soundness and completeness against authentic_header/authentic of SpecSeal.v.",
 "C35": "Every truncation point of the encrypted text.",
 "C36": "Any suffix; 'every modification is detected' refuted.",
 "C37": "The number of effects is bounded by the header's chunk count and the file length; fuel-free by construction.",
 "C38": "Every crash point, every fault schedule.",
 "C39": "Cases before and after the output is created; 'output untouched on failure' refuted.",
 "C40": "Short reads are allowed by the fault schedule; 'nil means complete' refuted.",
 "C41": "Any write fault; 'nil means complete' refuted.",
 "C42": "Same path for input and output.",
 "C43": "Every world and fault schedule.",
 "C44": "Every crash point; two durability expectations refuted.",
 "C45": "Mode as requested in the call; umask not modelled.",
 "C46": "Every terminal behaviour.",
 "C47": "Every command line: it is first proved that each argument list has the grammar of SpecFlag.v.",
 "C48": "Every malformed command line.",
 "C49": "Every option set and working directory name.",
 "C50": "Go int32/int64 arithmetic with explicit wrap-around; limbs within the documented bounds and beyond (1.65 * 2^26), every intermediate proved in range.",
 "C51": "All 32-byte strings, all limbs within 1.65 * 2^26.",
 "C52": "Fermat in Z/p with p = 2^255-19 proved prime by a Pocklington chain inside Coq.",
 "C53": "FromBytes and ToBox against the curve equation; division by zero convention stated.",
 "C54": "Group law of the curve and the RFC 7748 ladder proved from scratch (certificates checked by ring); libraries assumed to implement RFC 8032 key derivation and X25519.",
 "C55": "Every key with y=1; the rejection claim is refuted.",
 "C56": "Refuted expectation, with witnesses.",
 "C57": "Every encrypted file without I/O faults.",
 "C58": "Every absolute home directory.",
 "C59": "Any honest, never failing writer; every two sessions. 'Close starts a fresh line count' refuted.",
 "C60": "Refuted expectation, for every 54-byte first write and every later write.",
 "C61": "Coordinates specified in SpecGroup.v (values and limb bounds); proof by tracking bounds and values through each routine and the completeness of the affine law.",
 "C62": "Against point_bytes of SpecX25519.v. Canonicity claim refuted with two witnesses.",
 "C63": "Array loops of slide reduced to a closed form of one round on suffixes of the bit list; value and carry loss by induction. int8 wrap-around explicit.",
 "C64": "Against zmul (integer multiples by the affine group law). Uses the tables (C66), the point formulas (C61) and the signed base-16 recoding. Necessity of the precondition shown with a witness.",
 "C65": "For all points on the curve; result also given for arbitrary scalars in terms of the recoded digits. Doc comment refuted using the order of B.",
 "C66": "const.go transcribed by tools/gen_table.py; every entry checked in Coq by arithmetic modulo 2^255-19 on affine coordinates, order by an addition chain of the table's points, primality by Pocklington certificates.",
 "C67": "tools/gen_scalar.py transcribes each statement; an interval interpreter proved sound and run in Coq shows that no 64-bit operation overflows and that the last carry makes the result canonical. Value by congruence modulo l of every fold.",
 "C68": "As C67, with the 23 product limbs.",
 "C69": "Four 64-bit words compared from the top, as in the code.",
 "C70": "The composition (EdLib.v) models golang.org/x/crypto/ed25519, whose source is not in the repository. Specification in SpecEd25519.v. C24 and C25 are restated with RFC 8032 signatures as C24_sign_then_verify_rfc and C25_accepts_rfc.",
 "C71": "The primitives are executable Coq definitions following the published specifications; SHA-512, Blowfish, X25519, HSalsa20, secretbox and Ed25519 are checked on published vectors and the repository's test files. not_mistaken is the only condition left, and holds trivially without a passphrase.",
 "C72": "Terminal inputs that are themselves a panic of the terminal library are excluded. The crash is the one of C15.",
 "C73": "accepted and too_short (SpecCmd.v) are stated on the contents of the files.",
 "C74": "The three commands run one after the other in the same world, which may hold any other files. The condition on the checksum (not_mistaken) is needed only with a passphrase.",
 "C75": "Every cut position is covered (groups_left, SpecTorn.v). Crash states as in C27; the refutations are concrete runs, one of them with signatures depending on the secret key.",
 "C76": "With the primitives of C71, so no premise about a library; that the two challenges differ is a hypothesis on public data (proved for the test key). A consequence of readPrivateKeyData filling missing bytes with zeros and of Sign not checking an unencrypted key's checksum (C23).",
 "C77": "Crash states as in C27: some of the run's writes have happened and of one in progress any first part. C77_opened_real has the primitives of C71 in place of the libraries; the coincidence is truncated_box (as in C35).",
 "C78": "SpecConc.v: opening for writing empties the file, each process writes at its own offset, a write call is atomic, the bytes of a hole are zero. Every call is computed from the files as they were at the start, so the theorems are about calls none of which reads a file another one writes.",
 "C79": "inputs and outputs (FootCalls.v, ConcCalls.v) list the files of each call, command_reads those of a command line. C79_any_order compares in_turn, the calls run one after the other each with its own terminal, random source and faults, with every interleaving in the sense of C78.",
 "C80": "seal and open_body of SealOpen.v at an arbitrary reader state beside a bytes.Buffer (mem_seal, mem_open in SealMem.v); delivered (SpecMem.v) lists what successive reads return. mem_read is bytes.Buffer.Read, pipe_read a reader that returns what has arrived. box.GenerateKey's 32 random bytes are the argument epriv. C80_round_trip is TestSealUnseal for all inputs, C80_round_trip_real the same with the primitives of C71.",
 "C81": "SpecOpenBSD.v is a specification of OpenBSD's signify written from memory of its C source (parseb64file, readb64file, writeb64file, kdf, generate, sign, verify, b64_pton, crypto_sign_ed25519_open); nothing in the repository confirms it. key_files and signed (SpecInterop.v) cover both programs on either side. C81_exchange takes the primitives as premises, C81_exchange_real uses RFC 8032 on OpenBSD's side; C81_instance is with the primitives of C71.",
 "C82": "Pointers.v repeats the routines as sequences of reads and writes of a memory (limb by limb for FeAdd, FeSub, FeNeg, FeCMove and the end of FeCombine); Field.v, Group.v and ScalarMult.v are the functional versions that C50-C65 are about. Variables of a call are fresh numbers; pointers of different types never coincide (r <> p), those of one type may. The arrays of digits and the byte arrays are values.",
 "C83": "SpecText.v speaks of characters, bits and lines only; C08-C11, C14-C16 and C21-C25 are about the same functions in terms of RFC 4648's encoder and of the parsers. Which error or panic the decoder gives for a text that is none, depends on the buffer (C83_decoder leaves the two open). The bound 65534 in C83_crlf_data keeps every line within the scanner's buffer; DataFile.v models the scanner with its growing buffer.",
 "C84": "The outcomes (verify_outcome, sign_outcome, seal_outcome, open_outcome in SpecReport.v) are inductive relations over file contents, with texts told apart as in SpecText.v; the theorems are equivalences, so each case of the relation both happens and is the only one. The offsets of base64 errors (C87) and the paths of missing files are exact. Failing system calls, errors of the terminal and of the random source are names without text; error_text is the text of the others. What an EOF stands for in Open is the end of a file without newline. C84_decimal says what the numbers in the texts look like, without the model's conversion.",
 "C85": "session (SpecPrint.v) gives, mode by mode, the transcript and status in terms of the outcomes of C84; C85_status adds that no other status satisfies it. Failing system calls and errors of the terminal and the random source have no text in the model: their line is only said to be one line at its place. The quoting of %q is exact for characters below 127 (127 differs between Go versions, the rest depends on UTF-8). Standard output is assumed to accept what is written.",
 "C86": "box_to and box_from (SpecHolders.v) are box.Seal and box.Open as precomputation followed by secretbox, as in nacl/box. As in C31, not_mistaken excludes that the checksum of an encrypted key matches by coincidence; without a passphrase it holds trivially. TestSealUnseal is C80_round_trip_real, TestLoadKey, TestReadSignature and the files of testdata are C71, TestSign is C71_sign_then_verify. C86_own_keys_refuted uses a random source that delivers the same bytes twice.",
 "C87": "faulty_at and misread (SpecText.v) speak of positions of characters only. GoBase64.v models decodeQuantum's offset si - j, with its quirk for an incomplete group containing line breaks (C87_text_instance, last case: byte 1). C87_message restates the texts of the errors as errText prints them; where they appear in a transcript is C84 and C85.",
 "C88": "Calls.v repeats the operations over a record of answers (os), each a function of the whole history of calls; SpecCalls.v has what a history must look like (in_use, touches, noticed, answered, sealed_calls, boxed_texts). file_rules is os.File: a read into a non-empty buffer delivers something or an error, sizes are int64; rand_rules: crypto/rand delivers what was asked for. ReadFile and WriteFile count as one call each. Open_os stops looking after fuel reads per loop, with the result Panic, since an operating system could deliver line breaks for ever. C88_open needs BoxTidy (a box of the secretbox is 16 bytes longer than its contents), which C71 proves of the primitives.",
 "C89": "SpecPass.v; file_holds is the reading of SpecText.v (C83). In C89_opening, not_mistaken as in C31. In C89_shown the bytes 72..103 of the payload are the second half of the stored key and the bytes 10..41 of the public payload the public key, so everybody who can read both files can test a guess of the passphrase.",
 "C90": "Steps.v lists the calls of the field routines (kind and pointers); C90_runs ties the lists to the memory model of C82. What happens inside the routines is the matter of C97.",
 "C91": "CmdCalls.v repeats main over the operating systems of Calls.v; standard error is written at most once, just before the exit, and stands apart from the calls. run_of (SpecCmdCalls.v) has a case for each mode; the calls of the operations are described in the words of C88 (signs, verifying, generates, seals, opens). Standard output is assumed to accept what is written, as in C85. The user database is a parameter (the answer of user.Current).",
 "C92": "WorldOs.v makes the world of Go.v an operating system of Calls.v: input number k has descriptor 2k, output number k descriptor 2k+1, and closing never fails. The primitives of the world panic on a descriptor that is not open and when the terminal does; such answers have no counterpart among those of an operating system, so plain_world excludes a panicking terminal. A file of 2^63 bytes or more is excluded for Seal, whose size would not be an int64. Passphrase buffers, which the worlds record and operating systems do not see, are left out of the comparison.",
 "C93": "Prompts.v repeats Sign, ToBox and Open with the function as a parameter; a buffer is a handle, so that a function may hand out one it keeps. gives (SpecPrompt.v) says what the function answers while the buffers are those of the start of the call; a function that also changes files is covered only by C93_once, C93_unasked and C93_wiped.",
 "C94": "Ioutil.v has ReadFile and WriteFile of Go 1.12 over the low-level calls of an os (open, stat, read, write, close); over makes an operating system of Calls.v out of one in which these are the only calls on files, so that the models of Calls.v and CmdCalls.v run on it unchanged. How much bytes.Buffer asks for with each read is left open (room). files_end says that reading comes to an end within fuel reads; without it only the statements on descriptors are made. serves describes files with a content that may change between two calls; C94_steady asks that it does not.",
 "C95": "Over the operating systems of Calls.v. Errors without a text in SpecReport.v are printed as \"error\" by the model (Cmd.v); nothing is claimed about their real texts but what tame_errors asks of those that have one.",
 "C96": "Runs follow one another; runs at the same time are the matter of C78. Other programs change files only between runs. The signing and sealing runs in question are undisturbed, the others may meet any faults.",
 "C97": "CodeListing.v is generated from the text of the Go routines (tools/gen_code.py), so it does not go through the functional models of Field.v and ScalarRed.v that it is compared with. FeToBytes, FeIsNegative and FeIsNonZero are given a result apart from their argument, the recoding loop digits apart from the scalar (local arrays in the source). Names of pointers are the source's, save where one routine is put into another (dst of FeFromBytes and f of FeIsNegative and FeIsNonZero are h). What a compiler makes of the statements and how long an instruction takes are outside.",
 "C98": "CodeWhole.v puts the routines of CodeListing.v together as GeScalarMultBase, ToBytes, FromBytes and ToBox do; the digits of the scalar are read from memory. Local arrays (e, s, tmpX) have places apart from the points; tmp2 of FromBytes, written and never read, is left out. What FromBytes and ToBox show is not kept, since the key is public and FromBytes does branch on it. The two halves of the run of C98_public are also stated alone.",
 "C99": "CodeDouble.v has slide and GeDoubleScalarMultVartime over the memory of C97 and C98; loop bounds are fuel, as in ScalarMult.v. What the run shows is not kept: the routine is for public scalars, and C90 proves that its calls do reveal the digits. Nothing in psignify calls it; verification in Go's ed25519 does the same."
}