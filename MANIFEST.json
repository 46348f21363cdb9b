{
 "claims": [
  {
   "property": "C01",
   "status": "proved",
   "theorems": [
    "C01_encoder_output",
    "C01_encoder_output_nil"
   ],
   "note": "Encoder as a state machine over any io.Writer; every honest, never failing writer and every segmentation. Proof: the list of write calls is computed by a pure function (enc_plan), related to the wrapped RFC 4648 text by induction."
  },
  {
   "property": "C02",
   "status": "proved",
   "theorems": [
    "C02_encoder_lines"
   ],
   "note": "Consequence of C01's description of the output, for every segmentation."
  },
  {
   "property": "C03",
   "status": "proved",
   "theorems": [
    "C03_encode_decode"
   ],
   "note": "Encoder output fed to the decoder over any sequence of buffer sizes that are multiples of 3."
  },
  {
   "property": "C04",
   "status": "proved",
   "theorems": [
    "C04_decoder_no_panic",
    "C04_other_sizes_refuted"
   ],
   "note": "Decoder over any script of reader results. Proved for buffer lengths that are multiples of 3; the unconditional claim is refuted for every other length."
  },
  {
   "property": "C05",
   "status": "proved",
   "theorems": [
    "C05_write_count",
    "C05_write_contract_refuted"
   ],
   "note": "The count Write returns is characterised; the io.Writer count contract is refuted with a witness."
  },
  {
   "property": "C06",
   "status": "proved",
   "theorems": [
    "C06_no_eof",
    "C06_at_eof"
   ],
   "note": "All reader scripts."
  },
  {
   "property": "C07",
   "status": "proved",
   "theorems": [
    "C07_failure_prefix",
    "C07_error_returned",
    "C07_nil_means_no_failure"
   ],
   "note": "Any honest writer; the failing writer of the second and third theorem fails by an arbitrary schedule."
  },
  {
   "property": "C08",
   "status": "proved",
   "theorems": [
    "C08_encode_rfc4648",
    "C08_decode_encode",
    "C08_encode_injective",
    "C08_newlines_ignored",
    "C08_decoded_length",
    "C08_canonical_refuted"
   ],
   "note": "Go's encoding/base64 model against an independent bit-group specification of RFC 4648; canonical-form claim refuted."
  },
  {
   "property": "C09",
   "status": "proved",
   "theorems": [
    "C09_round_trip"
   ],
   "note": "All comments without newline and all payloads that keep the line under the scanner limit."
  },
  {
   "property": "C10",
   "status": "proved",
   "theorems": [
    "C10_payload_line",
    "C10_only_comments"
   ],
   "note": "All files; bufio.Scanner modelled with its 64 KiB token limit."
  },
  {
   "property": "C11",
   "status": "proved",
   "theorems": [
    "C11_total",
    "C11_long_line"
   ],
   "note": "All byte strings as file contents."
  },
  {
   "property": "C12",
   "status": "proved",
   "theorems": [
    "C12_layout",
    "C12_round_trip",
    "C12_injective"
   ],
   "note": "All well-formed private keys."
  },
  {
   "property": "C13",
   "status": "proved",
   "theorems": [
    "C13_accepted",
    "C13_contents",
    "C13_no_panic",
    "C13_only_104_refuted"
   ],
   "note": "All byte strings; the expectation that only 104-byte payloads are accepted is refuted."
  },
  {
   "property": "C14",
   "status": "proved",
   "theorems": [
    "C14_accepted",
    "C14_contents",
    "C14_layout",
    "C14_round_trip",
    "C14_no_panic"
   ],
   "note": "All byte strings."
  },
  {
   "property": "C15",
   "status": "proved",
   "theorems": [
    "C15_round_trip",
    "C15_layout",
    "C15_panics",
    "C15_contents",
    "C15_file_never_crashes_refuted"
   ],
   "note": "All byte strings; short payloads panic (refuted robustness claim with a witness file)."
  },
  {
   "property": "C16",
   "status": "proved",
   "theorems": [
    "C16_check"
   ],
   "note": "Any hash function in place of SHA-512."
  },
  {
   "property": "C17",
   "status": "proved",
   "theorems": [
    "C17_pair",
    "C17_succeeds",
    "C17_effects"
   ],
   "note": "Any Crypto record; LengthLaws as a premise where lengths matter."
  },
  {
   "property": "C18",
   "status": "proved",
   "theorems": [
    "C18_decrypt"
   ],
   "note": "Any Crypto record obeying LengthLaws; any later world."
  },
  {
   "property": "C19",
   "status": "proved",
   "theorems": [
    "C19_rounds"
   ],
   "note": "Any passphrase and options, including negative and huge round numbers (explicit 32-bit truncation)."
  },
  {
   "property": "C20",
   "status": "proved",
   "theorems": [
    "C20_accepts",
    "C20_key_left",
    "C20_early_failure",
    "C20_twice",
    "C20_after_failure",
    "C20_no_panic",
    "C20_failure_is_harmless_refuted"
   ],
   "note": "Both outcomes of decrypt characterised exactly; the claim that a failed attempt leaves the key intact is refuted."
  },
  {
   "property": "C21",
   "status": "proved",
   "theorems": [
    "C21_clamped",
    "C21_determined"
   ],
   "note": "Any Crypto record obeying LengthLaws; clamping specified by bit conditions."
  },
  {
   "property": "C22",
   "status": "proved",
   "theorems": [
    "C22_encrypted",
    "C22_valid_no_prompt",
    "C22_bad_checksum_used",
    "C22_bad_checksum_rejected_refuted"
   ],
   "note": "Cases by encryption and checksum; 'a bad checksum is rejected' refuted."
  },
  {
   "property": "C23",
   "status": "proved",
   "theorems": [
    "C23_checked",
    "C23_unencrypted_checked_refuted"
   ],
   "note": "Premise about the checksum made explicit; 'unencrypted keys are checked' refuted."
  },
  {
   "property": "C24",
   "status": "proved",
   "theorems": [
    "C24_sign_then_verify_rfc",
    "C24_sign_then_verify"
   ],
   "note": "Premises LengthLaws and EdCorrect (signatures by the library verify); C24_sign_then_verify_rfc replaces EdCorrect by conformance to RFC 8032, from which it is proved."
  },
  {
   "property": "C25",
   "status": "proved",
   "theorems": [
    "C25_accepts_rfc",
    "C25_accepts",
    "C25_panics"
   ],
   "note": "Exact condition for acceptance, and for a panic."
  },
  {
   "property": "C26",
   "status": "proved",
   "theorems": [
    "C26_verify_reads_only"
   ],
   "note": "Every world, every fault schedule."
  },
  {
   "property": "C27",
   "status": "proved",
   "theorems": [
    "C27_other_files",
    "C27_untouched",
    "C27_success",
    "C27_name",
    "C27_default_path"
   ],
   "note": "Every world, every fault schedule; success described by the file format."
  },
  {
   "property": "C28",
   "status": "proved",
   "theorems": [
    "C28_sign_wipes",
    "C28_tobox_wipes_refuted",
    "C28_generate_wipes_refuted"
   ],
   "note": "Passphrase buffers are part of the world; Sign wipes, ToBox and GenerateKey do not (refuted)."
  },
  {
   "property": "C29",
   "status": "proved",
   "theorems": [
    "C29_reads_back",
    "C29_newline_refuted"
   ],
   "note": "Premise: the key's base name contains no newline; without it refuted."
  },
  {
   "property": "C30",
   "status": "proved",
   "theorems": [
    "C30_increment",
    "C30_distinct"
   ],
   "note": "All 24-byte nonces."
  },
  {
   "property": "C31",
   "status": "proved",
   "theorems": [
    "C31_round_trip_rfc",
    "C31_round_trip",
    "C31_opened_later"
   ],
   "note": "C31_round_trip assumes ToBoxAgree and DHCorrect of the libraries; C31_round_trip_rfc (PropsBox.v) discharges both from 'the libraries implement RFC 8032 public keys and RFC 7748', using C54."
  },
  {
   "property": "C32",
   "status": "proved",
   "theorems": [
    "C32_seal_empty",
    "C32_open_fails",
    "C32_open_error"
   ],
   "note": "An empty message can be sealed but not opened."
  },
  {
   "property": "C33",
   "status": "proved",
   "theorems": [
    "C33_format"
   ],
   "note": "Size and layout computed independently in SpecSeal.v."
  },
  {
   "property": "C34",
   "status": "proved",
   "theorems": [
    "C34_sound",
    "C34_complete"
   ],
   "note": "Soundness and completeness against authentic_header/authentic of SpecSeal.v."
  },
  {
   "property": "C35",
   "status": "proved",
   "theorems": [
    "C35_truncated",
    "C35_boundary"
   ],
   "note": "Every truncation point of the encrypted text."
  },
  {
   "property": "C36",
   "status": "proved",
   "theorems": [
    "C36_suffix",
    "C36_modification_detected_refuted"
   ],
   "note": "Any suffix; 'every modification is detected' refuted."
  },
  {
   "property": "C37",
   "status": "proved",
   "theorems": [
    "C37_bounded"
   ],
   "note": "The number of effects is bounded by the header's chunk count and the file length; fuel-free by construction."
  },
  {
   "property": "C38",
   "status": "proved",
   "theorems": [
    "C38_crash",
    "C38_prefix"
   ],
   "note": "Every crash point, every fault schedule."
  },
  {
   "property": "C39",
   "status": "proved",
   "theorems": [
    "C39_early",
    "C39_empties",
    "C39_untouched_refuted"
   ],
   "note": "Cases before and after the output is created; 'output untouched on failure' refuted."
  },
  {
   "property": "C40",
   "status": "proved",
   "theorems": [
    "C40_filled",
    "C40_nil_is_complete_refuted"
   ],
   "note": "Short reads are allowed by the fault schedule; 'nil means complete' refuted."
  },
  {
   "property": "C41",
   "status": "proved",
   "theorems": [
    "C41_written",
    "C41_nil_is_complete_refuted"
   ],
   "note": "Any write fault; 'nil means complete' refuted."
  },
  {
   "property": "C42",
   "status": "proved",
   "theorems": [
    "C42_open_in_place",
    "C42_seal_in_place"
   ],
   "note": "Same path for input and output."
  },
  {
   "property": "C43",
   "status": "proved",
   "theorems": [
    "C43_success",
    "C43_other_files",
    "C43_failed_generation",
    "C43_runs"
   ],
   "note": "Every world and fault schedule."
  },
  {
   "property": "C44",
   "status": "proved",
   "theorems": [
    "C44_crash",
    "C44_pair_stays_matched_refuted",
    "C44_secret_survives_refuted"
   ],
   "note": "Every crash point; two durability expectations refuted."
  },
  {
   "property": "C45",
   "status": "proved",
   "theorems": [
    "C45_mode"
   ],
   "note": "Mode as requested in the call; umask not modelled."
  },
  {
   "property": "C46",
   "status": "proved",
   "theorems": [
    "C46_confirmed",
    "C46_matches",
    "C46_single",
    "C46_errors"
   ],
   "note": "Every terminal behaviour."
  },
  {
   "property": "C47",
   "status": "proved",
   "theorems": [
    "C47_every_command_line",
    "C47_generate",
    "C47_generate_n",
    "C47_generate_unnamed",
    "C47_sign",
    "C47_verify",
    "C47_seal",
    "C47_open",
    "C47_none"
   ],
   "note": "Every command line: it is first proved that each argument list has the grammar of SpecFlag.v."
  },
  {
   "property": "C48",
   "status": "proved",
   "theorems": [
    "C48_malformed",
    "C48_zero_means_verified_refuted"
   ],
   "note": "Every malformed command line."
  },
  {
   "property": "C49",
   "status": "proved",
   "theorems": [
    "C49_generate_default",
    "C49_not_found"
   ],
   "note": "Every option set and working directory name."
  },
  {
   "property": "C50",
   "status": "proved",
   "theorems": [
    "C50_add",
    "C50_sub",
    "C50_neg",
    "C50_mul",
    "C50_square",
    "C50_square2"
   ],
   "note": "Go int32/int64 arithmetic with explicit wrap-around; limbs within the documented bounds and beyond (1.65 * 2^26), every intermediate proved in range."
  },
  {
   "property": "C51",
   "status": "proved",
   "theorems": [
    "C51_load",
    "C51_store",
    "C51_store_load",
    "C51_tests"
   ],
   "note": "All 32-byte strings, all limbs within 1.65 * 2^26."
  },
  {
   "property": "C52",
   "status": "proved",
   "theorems": [
    "C52_invert",
    "C52_pow22523"
   ],
   "note": "Fermat in Z/p with p = 2^255-19 proved prime by a Pocklington chain inside Coq."
  },
  {
   "property": "C53",
   "status": "proved",
   "theorems": [
    "C53_to_box",
    "C53_division",
    "C53_sign_bit",
    "C53_sign_bit_bytes",
    "C53_from_bytes"
   ],
   "note": "FromBytes and ToBox against the curve equation; division by zero convention stated."
  },
  {
   "property": "C54",
   "status": "proved",
   "theorems": [
    "C54_group_law",
    "C54_ladder",
    "C54_box_keys_agree",
    "C54_shared_key"
   ],
   "note": "Group law of the curve and the RFC 7748 ladder proved from scratch (certificates checked by ring); libraries assumed to implement RFC 8032 key derivation and X25519."
  },
  {
   "property": "C55",
   "status": "proved",
   "theorems": [
    "C55_zero_key",
    "C55_rejected_refuted"
   ],
   "note": "Every key with y=1; the rejection claim is refuted."
  },
  {
   "property": "C56",
   "status": "proved",
   "theorems": [
    "C56_reader_behaviour_refuted"
   ],
   "note": "Refuted expectation, with witnesses."
  },
  {
   "property": "C57",
   "status": "proved",
   "theorems": [
    "C57_header_errors"
   ],
   "note": "Every encrypted file without I/O faults."
  },
  {
   "property": "C58",
   "status": "proved",
   "theorems": [
    "C58_default_base"
   ],
   "note": "Every absolute home directory."
  },
  {
   "property": "C59",
   "status": "proved",
   "theorems": [
    "C59_second_session",
    "C59_fresh_line_refuted"
   ],
   "note": "Any honest, never failing writer; every two sessions. 'Close starts a fresh line count' refuted."
  },
  {
   "property": "C60",
   "status": "proved",
   "theorems": [
    "C60_no_more_breaks_refuted"
   ],
   "note": "Refuted expectation, for every 54-byte first write and every later write."
  },
  {
   "property": "C61",
   "status": "proved",
   "theorems": [
    "C61_add",
    "C61_sub",
    "C61_mixed_add",
    "C61_mixed_sub",
    "C61_double",
    "C61_conversions",
    "C61_zero"
   ],
   "note": "Coordinates specified in SpecGroup.v (values and limb bounds); proof by tracking bounds and values through each routine and the completeness of the affine law."
  },
  {
   "property": "C62",
   "status": "proved",
   "theorems": [
    "C62_encode",
    "C62_decode_encode",
    "C62_encode_decode",
    "C62_canonical_refuted"
   ],
   "note": "Against point_bytes of SpecX25519.v. Canonicity claim refuted with two witnesses."
  },
  {
   "property": "C63",
   "status": "proved",
   "theorems": [
    "C63_digits",
    "C63_value",
    "C63_any_value_refuted"
   ],
   "note": "Array loops of slide reduced to a closed form of one round on suffixes of the bit list; value and carry loss by induction. int8 wrap-around explicit."
  },
  {
   "property": "C64",
   "status": "proved",
   "theorems": [
    "C64_mult",
    "C64_public_key",
    "C64_any_scalar_refuted"
   ],
   "note": "Against zmul (integer multiples by the affine group law). Uses the tables (C66), the point formulas (C61) and the signed base-16 recoding. Necessity of the precondition shown with a witness."
  },
  {
   "property": "C65",
   "status": "proved",
   "theorems": [
    "C65_mult",
    "C65_any_scalar",
    "C65_doc_refuted"
   ],
   "note": "For all points on the curve; result also given for arbitrary scalars in terms of the recoded digits. Doc comment refuted using the order of B."
  },
  {
   "property": "C66",
   "status": "proved",
   "theorems": [
    "C66_base_table",
    "C66_odd_table",
    "C66_select",
    "C66_order"
   ],
   "note": "const.go transcribed by tools/gen_table.py; every entry checked in Coq by arithmetic modulo 2^255-19 on affine coordinates, order by an addition chain of the table's points, primality by Pocklington certificates."
  },
  {
   "property": "C67",
   "status": "proved",
   "theorems": [
    "C67_reduce"
   ],
   "note": "tools/gen_scalar.py transcribes each statement; an interval interpreter proved sound and run in Coq shows that no 64-bit operation overflows and that the last carry makes the result canonical. Value by congruence modulo l of every fold."
  },
  {
   "property": "C68",
   "status": "proved",
   "theorems": [
    "C68_muladd"
   ],
   "note": "As C67, with the 23 product limbs."
  },
  {
   "property": "C69",
   "status": "proved",
   "theorems": [
    "C69_minimal"
   ],
   "note": "Four 64-bit words compared from the top, as in the code."
  },
  {
   "property": "C70",
   "status": "proved",
   "theorems": [
    "C70_sign",
    "C70_verify",
    "C70_complete",
    "C70_strict"
   ],
   "note": "The composition (EdLib.v) models golang.org/x/crypto/ed25519, whose source is not in the repository. Specification in SpecEd25519.v. C24 and C25 are restated with RFC 8032 signatures as C24_sign_then_verify_rfc and C25_accepts_rfc."
  },
  {
   "property": "C71",
   "status": "proved",
   "theorems": [
    "C71_laws",
    "C71_sign_then_verify",
    "C71_seal_then_open",
    "C71_verify"
   ],
   "note": "The primitives are executable Coq definitions following the published specifications; SHA-512, Blowfish, X25519, HSalsa20, secretbox and Ed25519 are checked on published vectors and the repository's test files. not_mistaken is the only condition left, and holds trivially without a passphrase."
  },
  {
   "property": "C72",
   "status": "proved",
   "theorems": [
    "C72_status",
    "C72_sign",
    "C72_seal",
    "C72_open"
   ],
   "note": "Terminal inputs that are themselves a panic of the terminal library are excluded. The crash is the one of C15."
  },
  {
   "property": "C73",
   "status": "proved",
   "theorems": [
    "C73_answer"
   ],
   "note": "accepted and too_short (SpecCmd.v) are stated on the contents of the files."
  },
  {
   "property": "C74",
   "status": "proved",
   "theorems": [
    "C74_sign",
    "C74_seal",
    "C74_sign_real",
    "C74_seal_real"
   ],
   "note": "The three commands run one after the other in the same world, which may hold any other files. The condition on the checksum (not_mistaken) is needed only with a passphrase."
  },
  {
   "property": "C75",
   "status": "proved",
   "theorems": [
    "C75_cut_signature",
    "C75_secret",
    "C75_public",
    "C75_signature",
    "C75_crash_secret",
    "C75_crash_public",
    "C75_crash_sign",
    "C75_crash_signature",
    "C75_torn_rejected_refuted",
    "C75_crash_signs_refuted",
    "C75_torn_signs_refuted",
    "C75_crash_verify_refuted"
   ],
   "note": "Every cut position is covered (groups_left, SpecTorn.v). Crash states as in C27; the refutations are concrete runs, one of them with signatures depending on the secret key."
  },
  {
   "property": "C76",
   "status": "proved",
   "theorems": [
    "C76_forgery",
    "C76_worthless",
    "C76_recovered",
    "C76_forged",
    "C76_sign_with"
   ],
   "note": "With the primitives of C71, so no premise about a library; that the two challenges differ is a hypothesis on public data (proved for the test key). A consequence of readPrivateKeyData filling missing bytes with zeros and of Sign not checking an unencrypted key's checksum (C23)."
  },
  {
   "property": "C77",
   "status": "proved",
   "theorems": [
    "C77_crash",
    "C77_opened",
    "C77_opened_real",
    "C77_old_or_new_refuted"
   ],
   "note": "Crash states as in C27: some of the run's writes have happened and of one in progress any first part. C77_opened_real has the primitives of C71 in place of the libraries; the coincidence is truncated_box (as in C35)."
  },
  {
   "property": "C78",
   "status": "proved",
   "theorems": [
    "C78_alone",
    "C78_disjoint",
    "C78_generate",
    "C78_generate_mixed",
    "C78_matching_pair_refuted",
    "C78_one_of_two_sealings_refuted"
   ],
   "note": "SpecConc.v: opening for writing empties the file, each process writes at its own offset, a write call is atomic, the bytes of a hole are zero. Every call is computed from the files as they were at the start, so the theorems are about calls none of which reads a file another one writes."
  },
  {
   "property": "C79",
   "status": "proved",
   "theorems": [
    "C79_call",
    "C79_command",
    "C79_any_order",
    "C79_dependent_refuted"
   ],
   "note": "inputs and outputs (FootCalls.v, ConcCalls.v) list the files of each call, command_reads those of a command line. C79_any_order compares in_turn, the calls run one after the other each with its own terminal, random source and faults, with every interleaving in the sense of C78."
  },
  {
   "property": "C80",
   "status": "proved",
   "theorems": [
    "C80_seal",
    "C80_open",
    "C80_round_trip",
    "C80_round_trip_real",
    "C80_short_reads_refuted",
    "C80_any_delivery_refuted",
    "C80_empty_refuted"
   ],
   "note": "seal and open_body of SealOpen.v at an arbitrary reader state beside a bytes.Buffer (mem_seal, mem_open in SealMem.v); delivered (SpecMem.v) lists what successive reads return. mem_read is bytes.Buffer.Read, pipe_read a reader that returns what has arrived. box.GenerateKey's 32 random bytes are the argument epriv. C80_round_trip is TestSealUnseal for all inputs, C80_round_trip_real the same with the primitives of C71."
  },
  {
   "property": "C81",
   "status": "proved",
   "theorems": [
    "C81_reads",
    "C81_unlocks",
    "C81_usable",
    "C81_exchange",
    "C81_exchange_real",
    "C81_verify_agrees",
    "C81_extra_signatures",
    "C81_only_there_refuted",
    "C81_only_here_refuted"
   ],
   "note": "SpecOpenBSD.v is a specification of OpenBSD's signify written from memory of its C source (parseb64file, readb64file, writeb64file, kdf, generate, sign, verify, b64_pton, crypto_sign_ed25519_open); nothing in the repository confirms it. key_files and signed (SpecInterop.v) cover both programs on either side. C81_exchange takes the primitives as premises, C81_exchange_real uses RFC 8032 on OpenBSD's side; C81_instance is with the primitives of C71."
  },
  {
   "property": "C82",
   "status": "proved",
   "theorems": [
    "C82_any_pointers",
    "C82_invert",
    "C82_formulas",
    "C82_encode",
    "C82_decode",
    "C82_rejected_refuted",
    "C82_to_box",
    "C82_base_mult",
    "C82_double_mult"
   ],
   "note": "Pointers.v repeats the routines as sequences of reads and writes of a memory (limb by limb for FeAdd, FeSub, FeNeg, FeCMove and the end of FeCombine); Field.v, Group.v and ScalarMult.v are the functional versions that C50-C65 are about. Variables of a call are fresh numbers; pointers of different types never coincide (r <> p), those of one type may. The arrays of digits and the byte arrays are values."
  },
  {
   "property": "C83",
   "status": "proved",
   "theorems": [
    "C83_text",
    "C83_not_text",
    "C83_data_file",
    "C83_not_data_file",
    "C83_public",
    "C83_signature",
    "C83_private",
    "C83_verify",
    "C83_answer",
    "C83_answer_real",
    "C83_decoder",
    "C83_crlf_data",
    "C83_crlf_sealed"
   ],
   "note": "SpecText.v speaks of characters, bits and lines only; C08-C11, C14-C16 and C21-C25 are about the same functions in terms of RFC 4648's encoder and of the parsers. Which error or panic the decoder gives for a text that is none, depends on the buffer (C83_decoder leaves the two open). The bound 65534 in C83_crlf_data keeps every line within the scanner's buffer; DataFile.v models the scanner with its growing buffer."
  },
  {
   "property": "C84",
   "status": "proved",
   "theorems": [
    "C84_verify",
    "C84_verify_real",
    "C84_never",
    "C84_sign",
    "C84_seal",
    "C84_open",
    "C84_command",
    "C84_decimal"
   ],
   "note": "The outcomes (verify_outcome, sign_outcome, seal_outcome, open_outcome in SpecReport.v) are inductive relations over file contents, with texts told apart as in SpecText.v; the theorems are equivalences, so each case of the relation both happens and is the only one. The offsets of base64 errors (C87) and the paths of missing files are exact. Failing system calls, errors of the terminal and of the random source are names without text; error_text is the text of the others. What an EOF stands for in Open is the end of a file without newline. C84_decimal says what the numbers in the texts look like, without the model's conversion."
  },
  {
   "property": "C85",
   "status": "proved",
   "theorems": [
    "C85_transcript",
    "C85_status",
    "C85_complaint",
    "C85_operations",
    "C85_generate"
   ],
   "note": "session (SpecPrint.v) gives, mode by mode, the transcript and status in terms of the outcomes of C84; C85_status adds that no other status satisfies it. Failing system calls and errors of the terminal and the random source have no text in the model: their line is only said to be one line at its place. The quoting of %q is exact for characters below 127 (127 differs between Go versions, the rest depends on UTF-8). Standard output is assumed to accept what is written."
  },
  {
   "property": "C86",
   "status": "proved",
   "theorems": [
    "C86_one_holder",
    "C86_two_holders",
    "C86_own_keys_refuted",
    "C86_unclosed",
    "C86_unclosed_same"
   ],
   "note": "box_to and box_from (SpecHolders.v) are box.Seal and box.Open as precomputation followed by secretbox, as in nacl/box. As in C31, not_mistaken excludes that the checksum of an encrypted key matches by coincidence; without a passphrase it holds trivially. TestSealUnseal is C80_round_trip_real, TestLoadKey, TestReadSignature and the files of testdata are C71, TestSign is C71_sign_then_verify. C86_own_keys_refuted uses a random source that delivers the same bytes twice."
  },
  {
   "property": "C87",
   "status": "proved",
   "theorems": [
    "C87_text",
    "C87_either",
    "C87_one",
    "C87_before",
    "C87_file",
    "C87_file_either",
    "C87_message"
   ],
   "note": "faulty_at and misread (SpecText.v) speak of positions of characters only. GoBase64.v models decodeQuantum's offset si - j, with its quirk for an incomplete group containing line breaks (C87_text_instance, last case: byte 1). C87_message restates the texts of the errors as errText prints them; where they appear in a transcript is C84 and C85."
  },
  {
   "property": "C88",
   "status": "proved",
   "theorems": [
    "C88_verify",
    "C88_verify_calls",
    "C88_sign",
    "C88_sign_calls",
    "C88_generate",
    "C88_generate_calls",
    "C88_seal",
    "C88_seal_calls",
    "C88_seal_dropped_refuted",
    "C88_open",
    "C88_open_calls"
   ],
   "note": "Calls.v repeats the operations over a record of answers (os), each a function of the whole history of calls; SpecCalls.v has what a history must look like (in_use, touches, noticed, answered, sealed_calls, boxed_texts). file_rules is os.File: a read into a non-empty buffer delivers something or an error, sizes are int64; rand_rules: crypto/rand delivers what was asked for. ReadFile and WriteFile count as one call each. Open_os stops looking after fuel reads per loop, with the result Panic, since an operating system could deliver line breaks for ever. C88_open needs BoxTidy (a box of the secretbox is 16 bytes longer than its contents), which C71 proves of the primitives."
  },
  {
   "property": "C89",
   "status": "proved",
   "theorems": [
    "C89_public",
    "C89_secret",
    "C89_shown",
    "C89_signature",
    "C89_opening"
   ],
   "note": "SpecPass.v; file_holds is the reading of SpecText.v (C83). In C89_opening, not_mistaken as in C31. In C89_shown the bytes 72..103 of the payload are the second half of the stored key and the bytes 10..41 of the public payload the public key, so everybody who can read both files can test a guess of the passphrase."
  },
  {
   "property": "C90",
   "status": "proved",
   "theorems": [
    "C90_runs",
    "C90_base",
    "C90_table",
    "C90_vartime",
    "C90_vartime_constant_refuted"
   ],
   "note": "Steps.v lists the calls of the field routines (kind and pointers); C90_runs ties the lists to the memory model of C82. What happens inside the routines is the matter of C97."
  },
  {
   "property": "C91",
   "status": "proved",
   "theorems": [
    "C91_session",
    "C91_verified",
    "C91_ok",
    "C91_complaint"
   ],
   "note": "CmdCalls.v repeats main over the operating systems of Calls.v; standard error is written at most once, just before the exit, and stands apart from the calls. run_of (SpecCmdCalls.v) has a case for each mode; the calls of the operations are described in the words of C88 (signs, verifying, generates, seals, opens). Standard output is assumed to accept what is written, as in C85. The user database is a parameter (the answer of user.Current)."
  },
  {
   "property": "C92",
   "status": "proved",
   "theorems": [
    "C92_rules",
    "C92_verify",
    "C92_sign",
    "C92_generate",
    "C92_seal",
    "C92_open",
    "C92_command",
    "C92_session"
   ],
   "note": "WorldOs.v makes the world of Go.v an operating system of Calls.v: input number k has descriptor 2k, output number k descriptor 2k+1, and closing never fails. The primitives of the world panic on a descriptor that is not open and when the terminal does; such answers have no counterpart among those of an operating system, so plain_world excludes a panicking terminal. A file of 2^63 bytes or more is excluded for Seal, whose size would not be an int64. Passphrase buffers, which the worlds record and operating systems do not see, are left out of the comparison."
  },
  {
   "property": "C93",
   "status": "proved",
   "theorems": [
    "C93_standard",
    "C93_sign",
    "C93_tobox",
    "C93_open",
    "C93_once",
    "C93_unasked",
    "C93_wiped",
    "C93_kept_refuted",
    "C93_open_again"
   ],
   "note": "Prompts.v repeats Sign, ToBox and Open with the function as a parameter; a buffer is a handle, so that a function may hand out one it keeps. gives (SpecPrompt.v) says what the function answers while the buffers are those of the start of the call; a function that also changes files is covered only by C93_once, C93_unasked and C93_wiped."
  },
  {
   "property": "C94",
   "status": "proved",
   "theorems": [
    "C94_read",
    "C94_write",
    "C94_session",
    "C94_verified",
    "C94_signed",
    "C94_content",
    "C94_steady",
    "C94_mixed_refuted"
   ],
   "note": "Ioutil.v has ReadFile and WriteFile of Go 1.12 over the low-level calls of an os (open, stat, read, write, close); over makes an operating system of Calls.v out of one in which these are the only calls on files, so that the models of Calls.v and CmdCalls.v run on it unchanged. How much bytes.Buffer asks for with each read is left open (room). files_end says that reading comes to an end within fuel reads; without it only the statements on descriptors are made. serves describes files with a content that may change between two calls; C94_steady asks that it does not."
  },
  {
   "property": "C95",
   "status": "proved",
   "theorems": [
    "C95_verify",
    "C95_sign",
    "C95_generate",
    "C95_seal",
    "C95_open",
    "C95_stdout",
    "C95_stderr",
    "C95_escape_refuted"
   ],
   "note": "Over the operating systems of Calls.v. Errors without a text in SpecReport.v are printed as \"error\" by the model (Cmd.v); nothing is claimed about their real texts but what tame_errors asks of those that have one."
  },
  {
   "property": "C96",
   "status": "proved",
   "theorems": [
    "C96_spared",
    "C96_kept",
    "C96_verifies",
    "C96_verdict",
    "C96_signature",
    "C96_secret",
    "C96_signature_real",
    "C96_secret_real",
    "C96_key_refuted"
   ],
   "note": "Runs follow one another; runs at the same time are the matter of C78. Other programs change files only between runs. The signing and sealing runs in question are undisturbed, the others may meet any faults."
  },
  {
   "property": "C97",
   "status": "proved",
   "theorems": [
    "C97_calls",
    "C97_field",
    "C97_scalar",
    "C97_base",
    "C97_base_result",
    "C97_to_bytes",
    "C97_from_bytes",
    "C97_is_negative",
    "C97_is_nonzero",
    "C97_equal",
    "C97_magnitude",
    "C97_digits",
    "C97_muladd",
    "C97_reduce",
    "C97_minimal",
    "C97_minimal_refuted"
   ],
   "note": "CodeListing.v is generated from the text of the Go routines (tools/gen_code.py), so it does not go through the functional models of Field.v and ScalarRed.v that it is compared with. FeToBytes, FeIsNegative and FeIsNonZero are given a result apart from their argument, the recoding loop digits apart from the scalar (local arrays in the source). Names of pointers are the source's, save where one routine is put into another (dst of FeFromBytes and f of FeIsNegative and FeIsNonZero are h). What a compiler makes of the statements and how long an instruction takes are outside."
  },
  {
   "property": "C98",
   "status": "proved",
   "theorems": [
    "C98_public",
    "C98_public_silent",
    "C98_base",
    "C98_base_silent",
    "C98_encode",
    "C98_encode_silent",
    "C98_decode",
    "C98_box",
    "C98_box_outcome",
    "C98_muladd",
    "C98_reduce",
    "C98_minimal"
   ],
   "note": "CodeWhole.v puts the routines of CodeListing.v together as GeScalarMultBase, ToBytes, FromBytes and ToBox do; the digits of the scalar are read from memory. Local arrays (e, s, tmpX) have places apart from the points; tmp2 of FromBytes, written and never read, is left out. What FromBytes and ToBox show is not kept, since the key is public and FromBytes does branch on it. The two halves of the run of C98_public are also stated alone."
  },
  {
   "property": "C99",
   "status": "proved",
   "theorems": [
    "C99_slide",
    "C99_double",
    "C99_combine"
   ],
   "note": "CodeDouble.v has slide and GeDoubleScalarMultVartime over the memory of C97 and C98; loop bounds are fuel, as in ScalarMult.v. What the run shows is not kept: the routine is for public scalars, and C90 proves that its calls do reveal the digits. Nothing in psignify calls it; verification in Go's ed25519 does the same."
  }
 ]
}