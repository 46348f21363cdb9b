#!/usr/bin/env python3
"""Writes /verif/properties.jsonl from the table below."""
import json
P=[]
def p(title, statement, quantifier, why, anchors):
    P.append(dict(id="C%02d"%(len(P)+1), title=title, statement=statement, quantifier=quantifier, why_tests_cant=why, anchors=anchors))

# ---- package base64
p("Encoder output is RFC 4648 base64 wrapped at 72 columns, whatever the Write segmentation",
  "For any sequence of Write calls followed by one Close on a fresh Encoder over a writer that does not fail, the underlying writer has received exactly this: cut the concatenation of all written bytes into 54-byte blocks and a last block of 0..53 bytes; for each block in order its standard padded RFC 4648 base64 text (72 characters for a full block) and a newline. (So an input whose length is a multiple of 54 ends with an empty line.)",
  "every byte string, every way to cut it into Write calls (including empty ones)",
  "segmentations and lengths are unbounded; the encoder carries 0..2 bytes and a column count between calls",
  ["base64/coding.go: NewEncoder, Encoder.Write, Encoder.Close"])
p("Encoder lines never exceed 72 characters",
  "In the bytes delivered after any sequence of Writes and a Close, every line (maximal newline-free run) has at most 72 characters, every line that is followed by another non-empty line has exactly 72, and deleting the newlines gives the standard base64 text of the input.",
  "every byte string and segmentation", "column count is cross-call state; boundary at 54 input bytes",
  ["base64/coding.go: Encoder.Write, Encoder.Close, decodedSize, encodedSize"])
p("Encoder then Decoder is the identity for buffer sizes that are multiples of 3",
  "Whatever an Encoder wrote (any segmentation, then Close), a Decoder over it returns, for any sequence of Read calls whose buffer lengths are positive multiples of 3, first full reads and then the remainder, whose concatenation is exactly the original bytes as long as the buffers are big enough in total.",
  "every byte string, every write segmentation, every sequence of read sizes that are multiples of 3",
  "product of unbounded data, write cuts and read cuts", ["base64/coding.go: Encoder, Decoder.Read"])
p("Decoder.Read never panics when the buffer length is a multiple of 3 (and can panic otherwise)",
  "For every underlying reader behaviour, Decoder.Read with a buffer whose length is a multiple of 3 returns normally. For other lengths there are valid encoded streams on which it panics with an index out of range (refutes the unconditional claim).",
  "every reader behaviour (data, errors, EOF, zero-byte reads), every buffer length", "arbitrary malformed input and reader schedules",
  ["base64/coding.go: Decoder.Read", "encoding/base64 Encoding.Decode"])
p("Encoder.Write's returned count",
  "Over a non-failing writer Encoder.Write returns a nil error and the count 3*floor((k+len(p))/3), where k (0..2) bytes were pending before the call; hence it satisfies the io.Writer contract n == len(p) iff the pending count is unchanged, and there are calls that return n < len(p) with a nil error, and calls that return n > len(p) (the io.Writer contract is refuted).",
  "every history of Write calls and every p", "depends on the residue of the whole history",
  ["base64/coding.go: Encoder.Write"])
p("Decoder.Read never reports io.EOF",
  "Over a reader that is at end of file Decoder.Read returns (0, nil), for every buffer length, however often it is called; over any reader whose only error is io.EOF it never returns io.EOF. So the end of the stream is visible only as a short read (the io.Reader contract that EOF is eventually reported is refuted).",
  "every reader whose only error is EOF, every buffer length, every number of calls", "a liveness statement over unbounded repetition",
  ["base64/coding.go: Decoder.Read"])
p("A failing underlying writer is reported and leaves a prefix",
  "If some underlying write fails, the Write or Close call that issued it returns exactly that error, and (as long as the caller stops at the first error) the bytes the underlying writer accepted are a prefix of the correct encoding of the data; nil results mean that no underlying write failed.",
  "every data, segmentation, and every position of the first failing write", "quantifies over every failure point",
  ["base64/coding.go: Encoder.Write, Encoder.Close"])
p("Decoding inverts encoding, and decoding never invents data",
  "Standard base64 decoding of the encoding of x gives x for all x; encoding is injective; decoding ignores CR and LF anywhere; on success the number of decoded bytes is determined by the number of non-newline characters. Decoding is not strict: there are distinct newline-free texts that decode to the same bytes (canonical-form claim refuted).",
  "every byte string", "unbounded strings", ["encoding/base64 as used by signify/common.go: readDataFileBytes, writeDataFile and base64/coding.go"])

# ---- signify/common.go
p("Data files round-trip",
  "For every comment that starts with the untrusted-comment prefix, contains no newline and is at most 65535 bytes, and every payload of at most 49149 bytes, reading back the bytes written for (comment, payload) gives exactly the payload.",
  "every comment and payload within the scanner's line limit", "unbounded strings with a 64 KiB boundary",
  ["signify/common.go: writeDataFile, dataFile.Encode, readDataFileBytes"])
p("Only the first non-comment line of a data file matters",
  "Parsing skips any number of leading lines starting with the untrusted-comment prefix and takes the payload from the first other line; the contents of the comments and every byte after that line have no influence on the payload. A file consisting only of comment lines is rejected.",
  "every file content (any number of comment lines, any trailing bytes) within the line limit", "unbounded files",
  ["signify/common.go: readDataFileBytes"])
p("Reading any data file is total",
  "Parsing any byte string as a data file returns a payload or an error and never panics; a file whose first line exceeds the scanner limit parses as an empty payload without error (so an over-long line is not reported as such).",
  "every byte string", "arbitrary input", ["signify/common.go: readDataFileBytes"])

# ---- keys
p("Private key layout and round-trip",
  "Encoding a private key gives 104 bytes: key algorithm (2), KDF algorithm (2), big-endian 32-bit rounds (4), salt (16), checksum (8), key number (8), key (64); parsing these bytes gives back the same key; encoding is injective.",
  "every private key value", "2^832 keys", ["signify/key.go: Private.encode, readPrivateKeyData"])
p("Which private key payloads are accepted",
  "Parsing a private key payload succeeds exactly when it has at least 41 bytes (all header fields plus one key byte); missing key bytes are read as zero and bytes beyond 104 are ignored; it never panics. So 'only 104-byte payloads are accepted' is false.",
  "every byte string", "all lengths and contents", ["signify/key.go: readPrivateKeyData, readPrivateKeyFile, LoadPrivateKey"])
p("Public key layout, strictness and round-trip",
  "Parsing a public key payload succeeds exactly for 42-byte payloads, and encoding the result gives back the payload; conversely parsing an encoded public key gives the same key. It never panics.",
  "every byte string and every public key", "all lengths and contents", ["signify/key.go: readPublicKeyData, Public.encode"])
p("Signature layout and round-trip; short signature payloads panic",
  "Parsing an encoded signature (74 bytes) gives the same signature. Parsing any payload panics exactly when it has fewer than 10 bytes; otherwise it succeeds, padding a short signature with zero bytes and ignoring bytes beyond 74. So 'a malformed signature file never crashes the verifier' is false.",
  "every byte string", "all lengths and contents", ["signify/signature.go: Signature.encode, readSignatureData"])
p("Check accepts exactly keys whose checksum is the SHA-512 prefix",
  "Check returns nil iff the stored checksum equals the first 8 bytes of SHA-512 of the 64 key bytes.",
  "every private key", "all keys", ["signify/key.go: Private.Check"])
p("GenerateKeypair produces a consistent pair",
  "If GenerateKeypair succeeds then the private and public keys carry the same algorithm 'Ed' and the same key number, the public key is the Ed25519 public key of the seed drawn from the random source, the checksum is that of the plaintext 64-byte key, and the stored key bytes are the plaintext key if the passphrase is empty and the plaintext key XOR the KDF stream otherwise. It fails exactly if fewer than 56 random bytes are available or a nonempty passphrase is combined with a round count that is 0 mod 2^32.",
  "every passphrase, option value and random stream", "unbounded inputs and random draws", ["signify/key.go: GenerateKeypair"])
p("Decrypting a generated key with its passphrase recovers it",
  "For every passphrase and options with which GenerateKeypair succeeds, decrypting with the same passphrase succeeds (and needs no passphrase when it was empty), yields exactly the Ed25519 private key generated, and Check then succeeds.",
  "every passphrase, rounds and random stream", "unbounded inputs", ["signify/key.go: GenerateKeypair, Private.decrypt, Private.Check"])
p("A passphrase-protected key is never stored in the clear with zero rounds",
  "If GenerateKeypair succeeds with a nonempty passphrase, the stored round count is between 1 and 2^32-1 and equals the requested rounds modulo 2^32 (default 42), and the key is reported as encrypted; with an empty passphrase the round count is 0 and the key is reported as not encrypted. (A request of 2^32+r rounds silently gives r rounds.)",
  "every passphrase and every requested round count", "integer truncation for arbitrary ints", ["signify/key.go: GenerateKeypair, IsEncrypted, GenerateOptions"])
p("Wrong passphrases are rejected, but a failed attempt corrupts the in-memory key",
  "decrypt of an encrypted key succeeds iff the algorithm is 'BK', the KDF accepts the passphrase and the checksum matches after the XOR; when it fails with a checksum error the key bytes have nevertheless been XORed in place, so that a later attempt with the right passphrase on the same value fails unless the streams cancel (the claim 'a failed attempt leaves the key unchanged' is refuted). Two attempts with the same passphrase restore the bytes.",
  "every key and every history of attempts", "histories of attempts", ["signify/key.go: Private.decrypt, Private.ToBox"])
p("Private ToBox yields a clamped scalar determined by the seed",
  "When Private.ToBox succeeds the result is 32 bytes with the low three bits of the first byte clear, bit 254 set and bit 255 clear, and depends only on the first 32 bytes of the decrypted key (the SHA-512 prefix of the seed, clamped as in X25519/Ed25519).",
  "every private key and passphrase", "all keys", ["signify/key.go: Private.ToBox"])
p("Private ToBox and checksums",
  "If Private.ToBox succeeds on an encrypted key then the checksum of the key it leaves in memory is valid; if the checksum is valid on entry no passphrase is asked for and the key is unchanged. For an unencrypted key whose checksum is wrong, ToBox asks for a passphrase, ignores it and succeeds (refutes 'ToBox never uses a key with a bad checksum').",
  "every private key, prompt behaviour", "all keys and prompt results", ["signify/key.go: Private.ToBox, Private.decrypt"])
p("Sign refuses keys whose checksum does not match",
  "Sign never writes a signature made with an encrypted key whose decrypted bytes fail the checksum. For unencrypted keys the checksum is not looked at: there is a key file with a wrong checksum with which Sign succeeds (refuted part).",
  "every key file, message and passphrase", "all files", ["signify/key.go: Sign, Private.decrypt"])

# ---- sign / verify
p("Sign then Verify succeeds for generated keys",
  "After GenerateKey(k, pass, opts) succeeds, Sign(k.sec, m, s) with the same passphrase (prompted for iff it is nonempty) succeeds and Verify(k.pub, m, s) then returns nil, for every message, provided the key's base name has no newline and at most 65000 bytes, and the paths are distinct.",
  "every key path, passphrase, rounds, message content, random stream and signature path", "composition of all stages over unbounded data", ["signify/key.go: GenerateKey, Sign, Verify"])
p("Verify succeeds exactly when it should",
  "Verify returns nil iff the three files are readable, the public key file parses, the signature file parses, both algorithms are 'Ed', the key numbers agree and Ed25519 verification of the message under that key accepts the signature bytes. In every other case it returns an error or panics (only for signature payloads shorter than 10 bytes).",
  "every file system state", "all file contents", ["signify/key.go: Verify, Public.verify, Public.verifyEd25519", "signify/signature.go"])
p("Verify changes nothing",
  "Verify never modifies any file, never prompts and never consumes randomness, whether it succeeds, fails or panics.",
  "every file system state and fault schedule", "all states and faults", ["signify/key.go: Verify"])
p("Sign only writes the signature file",
  "Sign changes no file other than the signature path (by default the message path plus '.sig'); if it fails before the final write (missing key, wrong passphrase, unreadable message) no file is changed at all; on success the signature file is the comment naming the public key's base name followed by the encoded signature.",
  "every file system state, arguments, prompt result and fault schedule", "all states and failure points", ["signify/key.go: Sign", "signify/common.go: writeDataFile"])
p("Sign wipes the passphrase",
  "When Sign returns, by whatever path, every passphrase buffer obtained from the prompt during the call holds only zero bytes. (ToBox, and key generation in the command, do not wipe: refuted there.)",
  "every execution path and fault schedule", "all exit paths", ["signify/key.go: Sign, ToBox", "signify/common.go: zero", "cmd/psignify/main.go: main"])
p("A signature file written by Sign can be read back",
  "If the base name of the private key path contains no newline and has at most 65000 bytes, the file Sign writes parses back to exactly the signature produced. If it contains a newline the claim is false: a key path exists for which the written signature file does not parse to that signature.",
  "every path, key and message", "all strings", ["signify/key.go: Sign", "signify/common.go"])

# ---- crypto
p("Nonce increment is +1 on a 192-bit big-endian counter",
  "incrementNonce adds one to the 24-byte big-endian counter and reports an error exactly when the counter wraps from 2^192-1 to 0; therefore all chunks of one message use pairwise distinct nonces.",
  "all 2^192 nonces, all chunk indices", "huge domain", ["crypto/crypto.go: incrementNonce, seal, open"])
p("Seal then Open returns the message",
  "For every non-empty message file and every key pair made by GenerateKey, Seal followed by Open on the produced file (with the right passphrase) succeeds and the output file equals the message, byte for byte.",
  "every message length and content, key pair, passphrase and ephemeral key", "chunk boundaries at multiples of 16385 for unbounded messages; composition of base64, chunking and box", ["crypto/crypto.go: Seal, seal, Open, open", "base64/coding.go"])
p("Sealing an empty message",
  "Seal of an empty message returns nil and writes only the comment line and a newline, and Open of that file always fails with a short-header error: the round trip is refuted for the empty message.",
  "every key pair", "all keys", ["crypto/crypto.go: seal, open"])
p("Format and size of a sealed file",
  "On success, the sealed file for a non-empty message of L bytes is the comment line, then base64 (72-column) of: an 8-byte big-endian chunk count ceil(L/16385), the ephemeral public key, the 32-byte authenticator of those 40 bytes, then the chunks in order, each sealed with its index as nonce; its decoded size is 72 + L + 16*ceil(L/16385).",
  "every message", "all lengths", ["crypto/crypto.go: seal"])
p("Open only accepts authentic sealings",
  "If Open returns nil then the decoded stream starts with a header whose authenticator verifies under the shared key and continues with chunks which are exactly the sealings, under consecutive nonces from 0 and that key, of pieces whose concatenation is the output, their number being the authenticated chunk count: no chunk can be dropped, duplicated, reordered or altered.",
  "every input file and private key", "arbitrary adversarial files", ["crypto/crypto.go: open"])
p("Truncation is detected",
  "If a sealed file is cut anywhere inside its encoded body so that at least one base64 character is missing, Open does not return nil, unless the cut-off last chunk, a proper prefix of a box, is itself a valid box under the same key and nonce (a forgery). In particular a cut inside the header or at a chunk boundary is always detected.",
  "every message and every cut position", "all cut points", ["crypto/crypto.go: open", "base64/coding.go: Decoder.Read"])
p("Data after the last chunk is ignored",
  "Appending anything after a complete sealed body whose last chunk is full does not change Open's result (refutes 'every modification of a sealed file is detected').",
  "every message whose length is a multiple of the chunk size, every suffix", "all suffixes", ["crypto/crypto.go: open"])
p("Open terminates for every header",
  "Whatever chunk count the header claims (up to 2^64-1), Open returns, and writes to its output at most 1 + n/22 times for an encrypted file of n bytes.",
  "every input file", "adversarial counts", ["crypto/crypto.go: open"])
p("A failed Open leaves a prefix of authenticated plaintext",
  "At every moment, and after any failure or crash, no file but the output has changed, and the output file is as before, or empty, or holds a prefix of the concatenated plaintexts of authenticated consecutive chunks from the first on, behind an authenticated header and not more than its chunk count; for an authentic file this is a prefix of the message.",
  "every input file, failure and crash point", "all failure points", ["crypto/crypto.go: Open, open"])
p("Open truncates its output before authenticating",
  "Open creates/truncates the output file before it has checked the passphrase or authenticated anything: there is a run in which Open fails and the previous contents of the output file are lost (refutes 'a failed Open leaves the destination untouched'). If it fails earlier (bad key file, missing or comment-less input) nothing is changed.",
  "every state", "all failure points", ["crypto/crypto.go: Open"])
p("Short reads while sealing",
  "If no read comes up short and Seal returns nil, all of the message is sealed, in pieces of 16385 bytes; with a read that returns fewer bytes than asked for and available (allowed by io.Reader), Seal returns nil although the tail of the message is missing, and Open accepts the result (refutes 'nil means everything was sealed').",
  "every read schedule", "schedules of short reads", ["crypto/crypto.go: seal"])
p("Write failures while sealing",
  "If Seal returns nil then the encrypted file is the comment line and the encoding of the sealed body except for at most its last 5 characters, and no other file has changed; a failure of the very last writes (final partial group and newline, issued by the deferred Close) is not reported and can make the file unreadable (refutes 'nil means the file is complete').",
  "every write-failure position", "all failure points", ["crypto/crypto.go: Seal", "base64/coding.go: Close"])
p("Sealing or opening in place destroys the data",
  "Open with output path equal to input path never returns nil and leaves either everything unchanged or the file empty. If Seal onto the message file itself returns nil, then there is a different message of the same length for which, everything else being equal, Seal would have had exactly the same effects: the message cannot be recovered.",
  "every file", "all contents", ["crypto/crypto.go: Seal, Open"])

# ---- GenerateKey
p("GenerateKey writes exactly a matching pair of files",
  "On success exactly k.sec and k.pub change; loading them gives the generated pair. On failure of key generation nothing is changed.",
  "every path, passphrase, options and file system", "all states", ["signify/key.go: GenerateKey, LoadPrivateKey, LoadPublicKey"])
p("Crash points of GenerateKey",
  "If the machine stops at any point during GenerateKey, then k.pub differs from its old content only if k.sec already holds the complete new secret key file; every intermediate content of the two files is a prefix of the new content. There is a crash point after which an existing pair has been replaced by a mismatched one, and one after which neither the old nor the new secret key exists (atomic replacement refuted).",
  "every crash point, every old content", "all crash points", ["signify/key.go: GenerateKey", "signify/common.go: writeDataFile"])
p("Secret key files are created world-readable and overwrite silently",
  "GenerateKey creates k.sec with permission bits 0644 (so the group and others read bits are requested) and succeeds even if k.sec exists, replacing it.",
  "every path and state", "all states", ["signify/common.go: writeDataFile"])

# ---- prompt
p("Passphrase confirmation",
  "The prompt with confirmation returns a passphrase only if it was entered twice identically; without confirmation it returns the single entry; any terminal error is passed on; the confirmation buffer is wiped.",
  "every pair of entries", "all strings", ["signify/key.go: PassphrasePrompt"])

# ---- command
p("Command dispatch",
  "With well-formed flags exactly one action is run, chosen with priority G, S, V, E, D; with no action flag the command exits 1; the exit status is 0 iff the chosen action succeeded.",
  "every argument list", "all argument lists", ["cmd/psignify/main.go: main"])
p("Malformed flags exit with status 0",
  "Whenever the argument list has a malformed flag (unknown, missing value, bad boolean) before the first non-flag argument, the command performs no action and exits with status 0, even with -V: 'exit status 0 of -V means the signature was verified' is refuted.",
  "every argument list", "all argument lists", ["cmd/psignify/main.go: init, main"])
p("Default key names",
  "Without -p and -s, signing uses <base>.sec and verification <base>.pub, but generation writes <base>.pub.sec and <base>.pub.pub: after -G with defaults, -S with defaults does not find the generated key (refutes 'defaults are consistent').",
  "every home directory and user", "all names", ["cmd/psignify/main.go: main, defaultKeyBase"])

# ---- edwards25519
p("Field arithmetic is correct and never overflows",
  "For all inputs within the documented bounds, addition, subtraction, negation, multiplication, squaring and doubled squaring compute the corresponding operation modulo 2^255-19, their outputs are within the documented bounds, and no 32- or 64-bit intermediate wraps around.",
  "all limb vectors within bounds", "about 2^255 inputs; carries that random tests practically never hit", ["signify/internal/edwards25519/edwards25519.go: FeAdd, FeSub, FeNeg, FeMul, FeSquare, FeSquare2, FeCombine"])
p("Field encoding is canonical",
  "Loading 32 bytes gives the little-endian number modulo 2^255 (the top bit is ignored); storing gives the unique representative below 2^255-19; hence store after load is reduction, and equality and sign tests are exact.",
  "all 2^256 byte strings, all bounded limb vectors", "boundary values around p", ["signify/internal/edwards25519/edwards25519.go: FeFromBytes, FeToBytes, FeIsNegative, FeIsNonZero"])
p("Field inversion",
  "FeInvert computes z^(p-2), i.e. the inverse of every non-zero element and 0 for 0.",
  "all field elements", "2^255 elements", ["signify/internal/edwards25519/edwards25519.go: FeInvert, fePow22523"])
p("Public ToBox is the Edwards to Montgomery map",
  "When Public.ToBox succeeds, its result is the canonical little-endian encoding of (1+y)/(1-y) modulo 2^255-19 (0 if y=1), where y is the key's low 255 bits; it fails exactly if y is not the y-coordinate of a curve point; the sign bit of the key has no influence.",
  "all public keys", "2^256 keys", ["signify/key.go: Public.ToBox", "signify/internal/edwards25519/edwards25519.go: ExtendedGroupElement.FromBytes"])
p("Box keys derived from the two halves agree",
  "For every key pair, the box public key derived from the public key is the X25519 public key of the box private key derived from the private key.",
  "all seeds", "2^256 seeds; needs the group law", ["signify/key.go: Private.ToBox, Public.ToBox"])
p("Low-order public keys are accepted for sealing",
  "Public.ToBox returns the all-zero box key without an error for a public key with y=1 (the neutral element): 'ToBox rejects keys of small order' is refuted.",
  "all", "a corner of 2^256 keys", ["signify/key.go: Public.ToBox"])
p("The decoder depends on how the underlying reader delivers its bytes",
  "Refuted expectation: a Decoder's result depends only on the bytes its reader delivers. If the reader returns the last byte together with io.EOF (allowed by io.Reader) that byte is lost, and after a (0, nil) read (also allowed) the previous character is decoded twice.",
  "readers allowed by the io.Reader contract", "ordinary readers never show these behaviours", ["base64/coding.go: Decoder.Read"])
p("Which error a bad header gives",
  "With a readable key that unlocks and an encrypted file that has a first line, and no I/O faults: if the first 96 non-newline characters after that line are not valid base64 Open returns the base64 error; if they decode to fewer than 72 bytes (for example because the file is too short) the short-header error; if they decode to 72 bytes whose authenticator does not match the header-authentication error.",
  "every encrypted file, key and passphrase", "classification over all malformed files", ["crypto/crypto.go: Open, open"])
p("Where the default keys are",
  "If the home directory is an absolute path made of ordinary names and the user name is an ordinary name, the default key base is <home>/.signify/<user>.",
  "every home directory and user name", "all names", ["cmd/psignify/main.go: defaultKeyBase"])
p("An encoder can be used again after Close",
  "After a successful session (writes, then Close) on a writer that never fails, a second session on the same encoder succeeds too. Its output without newlines is the base64 of the second data; with no data it is a single newline. If the first data was no multiple of 3 bytes the second output is exactly that of a fresh encoder; otherwise the line count goes on, so that the output is that of one encoder given both data, apart from the newline Close inserted. 'Close starts a fresh line count' is refuted.",
  "every two lists of writes, every honest writer", "all segmentations; the counter only shows with data of particular lengths", ["base64/coding.go: Encoder.Write, Encoder.Close"])
p("A refused newline switches line breaking off",
  "Refuted expectation: after a failed write the encoder goes on producing lines of 72 characters. When the newline after the first 54 bytes is refused, Write reports 51 bytes and the error; every later successful write then produces base64 without any newline, whatever its length.",
  "every 54-byte first write, every error, every later data", "needs a fault at one particular call", ["base64/coding.go: Encoder.Write"])
p("The point formulas compute the group law",
  "For all points of the curve, in whatever (extended, projective, cached, precomputed, completed) coordinates they are given within the documented limb bounds, geAdd, geSub, geMixedAdd, geMixedSub and both Double compute the sum, difference and double of the curve's group law, with no exceptional case, and the conversions between coordinates keep the point; all results are again within bounds.",
  "all points and all their representations", "2^255 points with many representations each", ["signify/internal/edwards25519/edwards25519.go: geAdd, geSub, geMixedAdd, geMixedSub, Double, ToCached, ToExtended, ToProjective, Zero"])
p("Point encoding",
  "ToBytes gives the RFC 8032 encoding of the point in every representation. FromBytes of this encoding gives the point back. Encoding a decoded string gives the string again exactly if its y is below p and the sign bit is not set for x=0; 'only canonical strings are accepted' is refuted.",
  "all points, all 32-byte strings", "2^256 strings", ["signify/internal/edwards25519/edwards25519.go: ToBytes, FromBytes"])

p("Signed sliding-window digits",
  "slide writes 256 digits, each 0 or odd between -15 and 15, every non-zero digit followed by at least four zeros. Their binary positional value is the scalar modulo 2^256, and is the scalar itself if that is at most 2^255. 'The digits always represent the scalar' is refuted: for 2^256-1 the last carry is lost and they represent -1.",
  "all 2^256 scalars", "2^256 scalars; the lost carry needs a long run of ones at the top", ["signify/internal/edwards25519/edwards25519.go: slide"])
p("Fixed-base scalar multiplication",
  "For every 32-byte scalar a whose last byte is at most 127, GeScalarMultBase returns a representation of a times the base point B; applied to a clamped hash and encoded it gives the RFC 8032 public key. Without the bound on the last byte the claim is refuted.",
  "all scalars below 2^255, all seeds and hash functions", "2^255 scalars; rests on 256 table entries of 30 limbs", ["signify/internal/edwards25519/edwards25519.go: GeScalarMultBase"])
p("Double scalar multiplication",
  "For every point A of the curve and scalars a, b of at most 2^255, GeDoubleScalarMultVartime returns a representation of aA + bB. The doc comment, which states no bound, is refuted for a = 2^256-1.",
  "all points and scalars", "2^765 combinations", ["signify/internal/edwards25519/edwards25519.go: GeDoubleScalarMultVartime"])
p("Precomputed tables and the order of the base point",
  "base[i][j] represents (j+1)*256^i*B and bi[j] represents (2j+1)*B; selectPoint(pos, d) represents d*256^pos*B for -8 <= d <= 8. The group generated by B has the prime order l = 2^252 + 27742317777372353535851937790883648493, so mB = nB exactly if m and n agree modulo l.",
  "all table entries, all digits, all integers", "a wrong limb in one of 7920 shows only for scalars with a particular digit", ["signify/internal/edwards25519/const.go: base, bi", "signify/internal/edwards25519/edwards25519.go: selectPoint, equal, negative, PreComputedGroupElementCMove"])

p("Reduction modulo the group order",
  "For every 64-byte string s, ScReduce returns the 32-byte little-endian encoding of the number s stands for modulo l, fully reduced (below l), int64 wrap-around included.",
  "all 2^512 inputs", "2^512 inputs; errors show only for particular carries", ["signify/internal/edwards25519/edwards25519.go: ScReduce, load3, load4"])
p("Multiply-add modulo the group order",
  "For all 32-byte strings a, b, c (not only reduced ones), ScMulAdd returns the 32-byte little-endian encoding of ab+c modulo l, fully reduced.",
  "all 2^768 inputs", "2^768 inputs; errors show only for particular carries", ["signify/internal/edwards25519/edwards25519.go: ScMulAdd"])
p("The test for minimal scalars",
  "ScMinimal returns true exactly if the number the 32 bytes stand for is below the group order l.",
  "all 2^256 scalars", "the boundary is one value in 2^256", ["signify/internal/edwards25519/edwards25519.go: ScMinimal, order"])
p("The routines of the package give Ed25519",
  "Composed as golang.org/x/crypto/ed25519 composes them, with any hash function of 64-byte results, the routines of package edwards25519 sign as RFC 8032 prescribes, and the verification accepts exactly the pairs (R, s) with s below l and R the encoding of sB - kA, where k is the hash modulo l and A the decoded public key. Signatures so made are accepted for every seed and message, and for given key, message and R at most one s is accepted (no malleability in s).",
  "all seeds, messages, public keys, signatures and hash functions", "unbounded messages; malleability needs a second valid s", ["signify/internal/edwards25519/edwards25519.go: ScReduce, ScMulAdd, ScMinimal, GeScalarMultBase, GeDoubleScalarMultVartime, FromBytes, ToBytes, FeNeg"])

p("The API is correct with the primitives the libraries implement",
  "With SHA-512, bcrypt_pbkdf, Ed25519 as composed from the package, X25519, XSalsa20-Poly1305 and HMAC-SHA-512 in place of the external libraries, every law assumed of them elsewhere holds; so, with no premise about a library, files signed with a generated key verify, sealed files open to the same message (for a key with a passphrase, unless a 64-bit checksum matches by coincidence), and Verify succeeds exactly for RFC 8032 signatures over the message. The test data of the repository are instances.",
  "all keys, passphrases, messages, paths and file system states", "a test uses one key and one message; the laws of the primitives quantify over all inputs", ["signify/key.go: GenerateKey, Sign, Verify", "crypto/crypto.go: Seal, Open", "signify/testdata/", "crypto/testdata/"])

p("Crash freedom and exit statuses",
  "For every command line and every state of the system, psignify ends with status 0, 1 or 2, and with 2 (a crash) exactly when it is asked to verify, the key and the message can be read, and the payload of the signature file is shorter than ten bytes. Sign, Seal and Open never crash, whatever the files hold and whichever system calls fail.",
  "all command lines, file contents, terminal inputs and system call faults", "a crash needs a particular malformed file; absence needs all of them", ["cmd/psignify/main.go: main", "signify/key.go: Sign", "signify/key.go: Verify", "crypto/crypto.go: Seal, Open"])
p("The answer of psignify -V",
  "Asked to verify, psignify prints \"<message>: OK\" and exits with 0 exactly if the three files can be read and hold a public key, a message and a valid signature of it by that key; otherwise it prints \"<message>: invalid signature\" on standard error and exits with 1, or crashes as in C72. It changes no file, consumes no randomness and asks for no passphrase.",
  "all command lines asking for a verification, all file system states and faults", "the output must be wrong for no combination of files and faults", ["cmd/psignify/main.go: main", "signify/key.go: Verify"])
p("Whole sessions on the command line",
  "psignify -G, then -S with the secret key, then -V with the public key all exit with 0 and the last prints \"<message>: OK\"; -G, then -E, then -D all exit with 0 and the decrypted file is the message. This holds with and without a passphrase, for all key names, messages and paths that do not overwrite one another, and with the primitives of C71 without a premise about a library.",
  "all key names, passphrases, messages and paths", "a test runs one session", ["cmd/psignify/main.go: main", "signify/key.go: GenerateKey, Sign", "crypto/crypto.go: Seal, Open"])
p("Files cut short",
  "What the readers make of the first k bytes of a key or signature file, for every k: a public key is read only if it is complete; a secret key is accepted as soon as its first two key bytes are there and the cut is between two groups of four characters, missing bytes becoming zero, and a signature likewise, or the reader crashes. Hence what can be read after a crash of GenerateKey or Sign is the old file or the new one, possibly with the end replaced by zeros. That torn files are rejected, that a key left by a crash does not sign, that what it signs verifies with the public key of the pair, and that Verify survives what a crash of Sign left are refuted.",
  "all keys, signatures and cut positions; all crash points", "a crash must hit a particular byte", ["signify/common.go: readDataFileBytes", "signify/key.go: readPrivateKeyFile, readPublicKeyFile, GenerateKey, Sign", "signify/signature.go: readSignatureFile"])

p("A key file cut short gives the key away",
  "If a message is signed with an unencrypted key and again with the same key file cut between groups so that only the end of its public half is lost, the two signatures share R and differ in S. Whenever the two challenges differ modulo the group order, a number computed from the public key, the message and the two signatures alone makes signature files of any message that Verify accepts. The signature made with the cut key is itself accepted only if the challenges agree. Holds for any two second halves and any hash function; the repository's test key is an instance.",
  "all keys, messages, cut positions, forged messages", "needs the right cut and computes a discrete logarithm from public data", ["signify/key.go: readPrivateKeyData, Sign, sign", "signify/common.go: readDataFileBytes"])

p("A crash of Seal",
  "At any moment of any run of Seal, whatever fails and whatever it returns, no file but the encrypted one differs from before, and that one is either still as before or a first part of what the run leaves in the end. Opening what an interrupted run left, with the matching key, either fails or gives the whole message, unless a piece's box cut short is by coincidence itself a valid box. That the file is at every moment the old or the new one is refuted: an earlier encrypted file is lost as soon as the run starts.",
  "all keys, messages, paths, faults and crash points", "a crash must hit every one of the writes, and opening must fail for each", ["crypto/crypto.go: Seal, seal, Open"])

p("Several runs at the same time",
  "When any number of calls of GenerateKey, Sign, Verify, Seal and Open run at the same time from the same files, their writes interleaved in any order, a file that none of them is to write stays as it was, and a file that only one of them is to write ends as that call alone leaves it. If several key generations use one name, each of the two files ends complete, written by one of them, whatever the interleaving; but the secret key may be that of one and the public key that of another: signatures made with the key pair then do not verify. That two sealings into one file leave one of the two encrypted files is refuted: both report success and the file cannot be opened.",
  "any number of calls with any arguments, all interleavings of their writes", "a race needs a particular interleaving", ["signify/key.go: GenerateKey, Sign", "signify/key.go: Verify", "crypto/crypto.go: Seal, Open"])

p("What a call depends on",
  "The result of GenerateKey, Sign, Verify, Seal and Open, their writes and everything else they do depend only on the arguments, on the contents (not the permissions) of the files they are given to read, and on the behaviour of terminal, random source and system calls; no other file has any influence, and the same holds of psignify and the files named on its command line or by default. Therefore calls none of which writes what another reads or writes can be run in any order, or at the same time with their writes interleaved in any way, with the same results and the same files in the end. For a signature and its verification this is refuted.",
  "all calls, all worlds differing in other files, all orders and interleavings", "two runs have to be compared in every pair of file systems", ["signify/key.go: GenerateKey, Sign", "signify/key.go: Verify", "crypto/crypto.go: Seal, Open", "cmd/psignify/main.go: main"])

p("Sealing and opening over any reader",
  "For every reader and a length given to it, seal writes the header for the number of pieces that the length calls for and then the boxes of exactly what the successive reads returned; it returns nil exactly if all those reads succeeded, and otherwise the first error of the reader. For every reader, open writes the concatenation of the pieces whose boxes the successive reads returned, and returns nil exactly if the header is authentic and as many boxes were read as it announces; otherwise it returns the reader's error, the header error, or the number of the first chunk that is not a box. With buffers on both sides and a generated key pair, opening gives back every non-empty message. That nil means the whole message was sealed when the reader returns less than asked for, that a correct sealed text opens however it is delivered, and that the empty message makes the round trip, are refuted.",
  "all readers, lengths, keys and messages; for the round trip all generated key pairs, passphrases and non-empty messages below 2^63 bytes", "a test uses one reader, which returns as much as is asked for", ["crypto/crypto.go: seal, open", "crypto/crypto_test.go: TestSealUnseal"])

p("Exchange with OpenBSD's signify",
  "Every file that OpenBSD's reader accepts is read here as the same bytes, provided its base64 text contains no blanks. A key pair made by either program, with or without a passphrase, is the same key to both, both can sign with its secret key file, and both accept with its public key file whatever either of them signed. On files that both read, Verify accepts exactly the signatures that OpenBSD accepts and whose scalar is below the group order; for every signature there is another file that only OpenBSD accepts. That the two accept the same files is refuted in both directions: blanks in the base64 text, a file without comment line.",
  "all files, key pairs, passphrases, messages; comments and key names of less than about 1000 bytes without newline and NUL", "needs both programs and all inputs", ["README.txt", "signify/common.go: readDataFileBytes, writeDataFile", "signify/key.go: GenerateKey, Sign, readPrivateKeyFile, readPublicKeyFile", "signify/key.go: Verify", "signify/signature.go: readSignatureFile"])

p("Results written over arguments",
  "On a memory where pointers may be equal: each field routine (FeZero, FeOne, FeCopy, FeAdd, FeSub, FeNeg, FeCMove, FeMul, FeSquare, FeSquare2, FeInvert, fePow22523) leaves at its destination the value computed from what its arguments held before the call, whichever of the pointers coincide, and changes nothing else. The point routines, the two scalar multiplications, encoding, decoding and Public.ToBox write only their result and leave their arguments, the precomputed tables and the constants as they were; the multiplications give the multiples of C64 and C65 whatever the result variable held before. That decoding leaves the point alone when it fails is refuted.",
  "all memories, all choices of pointers (with coincidences where the types allow them), all scalars and encodings", "needs every combination of coinciding pointers and every value", ["signify/internal/edwards25519/edwards25519.go: FeAdd, FeSub, FeCMove, FeNeg, FeMul, FeSquare, FeInvert, fePow22523, geAdd, geSub, geMixedAdd, geMixedSub, FromBytes, ToBytes, selectPoint, GeScalarMultBase, GeDoubleScalarMultVartime", "signify/key.go: ToBox"])

p("Which texts are read as what",
  "Told from the text alone: a text decodes, after its line ends are dropped, exactly if it consists of digits of the base64 alphabet filled up with at most two '=' to a multiple of four characters, and the result is the bits of the digits less the last incomplete byte. A file is a data file exactly if comment lines are followed by one line of such text, or it is empty or begins with a line of more than 65535 bytes and then stands for no data. From this follow, as equivalences, which files are read as a public key, a private key or a signature and with what contents; that Verify succeeds, and psignify -V answers OK with status 0, exactly if the three files can be read and contain a key, a message and a signature of it under Ed25519, and that it crashes exactly if the signature's file holds less than ten bytes beside a readable key and message. The streaming decoder is described in the same way for every buffer size, including when it panics. Keys and signatures whose newlines were replaced by CR LF are read as before; a sealed message so converted is never opened.",
  "all texts, files, command lines, buffer sizes, worlds", "the set of accepted texts is infinite and its boundary irregular", ["base64/coding.go: Read", "signify/common.go: readDataFileBytes", "signify/key.go: readPublicKeyFile, readPrivateKeyFile", "signify/key.go: Verify", "signify/signature.go: readSignatureFile", "crypto/crypto.go: Open", "cmd/psignify/main.go: main"])

p("What goes wrong and what is reported",
  "For every state of the files, the terminal and the random source, the result of Verify, Sign, Seal and Open is given as an equivalence: which of several defects is reported when there is more than one, with the exact text of the program's own messages (including the length, algorithm, chunk number or count they quote), when the result is nil and when the call panics. For Verify and Sign this includes failing reads. With the options for signing, psignify prints 'Signing', the message's name, 'failed:' and that text on standard error and exits with status 1, prints nothing there and exits with 0 on success, and exits with 2 on a panic. One message in the text of Verify, that the key is not an Ed25519 key, is never reported, since keys of other kinds are refused earlier.",
  "all files, paths, answers at the terminal, random bytes; all read failures for Verify and Sign; for Seal and Open no failing system call, the output not being the input", "a test has one defect at a time and rarely looks at the text", ["signify/key.go: Verify", "signify/key.go: Sign, readPrivateKeyData, readPublicKeyData, decrypt, ToBox", "signify/signature.go: readSignatureFile", "crypto/crypto.go: Seal, Open, open", "cmd/psignify/main.go: main"])

p("Everything psignify prints",
  "For every command line, what psignify prints on standard output and standard error, in order, and its exit status: when it asks for a passphrase (for signing exactly if the key can be read and says it is encrypted; for decrypting exactly if in addition the encrypted file has a first line and the output can be created, and the stored checksum is not that of the stored key; for a new key unless -n is given, twice), that the line is ended only after an answer, then the one line that reports the result, with its text, or the name of the file and OK, or nothing after signing and key generation; the usage, on standard error with status 1 if no mode is given; and for a command line that cannot be read the complaint on standard error and the usage on standard output, with status 0. Nothing else is printed. Verify, Seal and GenerateKey themselves print nothing. What GenerateKey returns is told from the random source, the passphrase and the number of rounds, which counts modulo 2^32.",
  "all command lines, files, answers of the terminal, random bytes; no failing system call for -G, -E, -D", "a test compares a few outputs and misses what should not be printed", ["cmd/psignify/main.go: main", "cmd/psignify/main.go: init", "signify/key.go: PassphrasePrompt", "signify/key.go: GenerateKey, GenerateKeypair, Sign, ToBox", "crypto/crypto.go: Open"])

p("What the repository's tests check, for all inputs: boxes between holders of generated keys, and the encoder read back without Close",
 "With the primitives of C71: for every generated pair, with or without a passphrase, ToBox of the two halves gives a 32-byte secret and its X25519 public key; once the private half is unlocked, further calls of ToBox return the same secret and ask nothing. Whatever is sealed with nacl/box to that public key with an ephemeral secret is opened by the private half with the ephemeral public key, and the other way round, for every message and nonce (TestEncryption). For two generated pairs, what is sealed with the public half of one and the private half of the other is opened with the remaining halves, and also by its sender (TestEncryption2). That the sender's own two halves do not open it, the last check of that test, does not hold for every random source. Text written by the encoder without Close, read with a buffer at least as long, gives the longest prefix of the data whose length is a multiple of 3, without an error; it gives the data exactly if their length is a multiple of 3 (TestEncodeDecode).",
  "all passphrases, random bytes, messages, nonces, ephemeral secrets; all data and ways of cutting them into writes", "the tests use one message, one nonce and an array of 72 bytes, a multiple of 3", ["signify/key_test.go: TestEncryption, TestEncryption2", "signify/key.go: ToBox (Private), ToBox (Public), GenerateKeypair", "base64/coding_test.go: TestEncodeDecode", "base64/coding.go: Write, Read"])

p("Where a text goes wrong, and what the message says",
  "A text that is not base64 has exactly one faulty byte, told from the text alone: the first character that is neither a digit, a line break nor an acceptable '='; the '=' that comes after less than two digits of a group; the end of the text less the number of digits of the incomplete group when the digits run out (so line breaks within that group shift it); the end when a second '=' is missing, or the byte before the character standing in its place; the first character after the padding that is not a line break. DecodeString reports CorruptInputError with that byte, and only then. What precedes the faulty byte can always be continued to a text that decodes. Of a key or signature file the error names the byte within the line after the comments, counted without a final CR, or byte 9 of the comment line if nothing follows it. The printed text of such an error is 'illegal base64 data at input byte' and that number, that of a missing file 'open', its path and 'no such file or directory'.",
  "all texts, files and paths", "the number is different for every text; a test compares at most the kind of error", ["encoding/base64 (Go): decodeQuantum", "signify/common.go: readDataFileBytes", "base64/coding.go: Read", "cmd/psignify/main.go: main"])

p("Whatever the operating system answers",
  "The operations as sequences of calls to an operating system about which next to nothing is assumed: every answer may depend in any way on the calls before it, so other processes may change the files during the run, and any call may fail. Verify succeeds exactly if the three files, as they were when each was read once, hold a key, a message and a signature of it, and makes no other call; Sign succeeds exactly if the key was read, unlocked with the one passphrase asked for if it says it is encrypted, the message read once after that, and the signature of what was read written with success; GenerateKey writes first the secret and then the public file of one pair made from the three random values drawn. Seal, when it returns nil, drew one ephemeral secret and made as many reads of the message as the size it had when opened calls for; if no write failed, the file written is the sealed file of exactly the pieces read. What Open writes is always the pieces of boxes authentic in order under the key of the header, and on nil all that the header announces, and it read nothing besides. In every run each descriptor is used only while open and closed exactly once, only the files named in the arguments are read or written, nothing but the prompt for a passphrase is printed, and a failing call is the last one and its error is the result, except for the closings, the end of the encrypted file and, in Seal, up to two writes of at most four bytes at the end of the text. That nil from Seal means that every write succeeded is refuted.",
  "all operating systems, all arguments, all results", "a test has one file system that does what is expected", ["crypto/crypto.go: Seal, Open, seal, open", "signify/key.go: Sign", "signify/key.go: Verify", "signify/key.go: GenerateKey, ToBox, PassphrasePrompt", "base64/coding.go: Write, Close, Read"])

p("What the passphrase changes, and what it leaves visible",
  "Two key pairs generated from the same random bytes with any two passphrases (or none) and any numbers of rounds have the same public key file, and secret key files that differ only in the number of rounds and the 64 key bytes: salt, checksum and key number are the same, and the checksum is that of the key itself, not of what is stored. Signatures made with either are the same file, and Open gives the same answer to every file with either. The public and the secret file together show the second half of the bytes derived from the passphrase, since half of the key protected by it is the public key.",
  "all random bytes, passphrases, rounds, messages and files", "two runs with equal randomness have to be compared", ["signify/key.go: GenerateKeypair, GenerateKey", "signify/key.go: Sign, decrypt, ToBox", "crypto/crypto.go: Open"])

p("What the order of calls shows of a scalar",
  "GeScalarMultBase calls the same 3064 field routines with the same pointers for every scalar, reads every entry of its table, and the scalar enters only as the bit of the conditional moves; so an observer of the instructions and addresses learns nothing about it. GeDoubleScalarMultVartime, as its name says, is the opposite: its calls determine both scalars completely.",
  "all scalars, pointers and memories", "timing behaviour is not visible in results", ["signify/internal/edwards25519/edwards25519.go: GeScalarMultBase, selectPoint, PreComputedGroupElementCMove", "signify/internal/edwards25519/edwards25519.go: GeDoubleScalarMultVartime, slide"])

p("psignify, whatever the operating system answers",
  "The command over the operating systems of C88. For every command line that can be read: the mode and the file names are the ones C85 gives; the run is the calls of that one operation, as C88 describes them (for a new key after the passphrase has been typed twice the same, unless -n is given), then at most one line on standard output; the exit status is 0 with nothing on standard error, or 1 with exactly one message there, which for a failing operation names its error, or 2 for a panic. A run with -V exits with status 0 exactly if the three files, as they were when read in that run, hold a valid signature, and then the calls are these three reads and printing the name and OK. A line ending in ': OK' is printed only by a run that exits with status 0, and it names the file the flags name. A command line that cannot be read leads to no call but printing the usage.",
  "all operating systems, command lines, users", "a test runs the command on one file system and seldom looks at the status and the text together", ["cmd/psignify/main.go: main", "cmd/psignify/main.go: init", "signify/key.go: PassphrasePrompt", "signify/key.go: Verify, Sign, GenerateKey", "crypto/crypto.go: Seal, Open"])

p("The two accounts of the operations agree",
  "The operations and the command are modelled twice: over a world of files, random bytes, terminal answers and faults to come, and as calls to an arbitrary operating system. Every world is one of these operating systems (its answers are those of the primitives in the world the calls so far lead to), it obeys the few rules C88 asks of them, and on it the two agree for all arguments: Verify, Sign, GenerateKey, Seal, Open and the command return the same result or exit status, the command prints the same text on standard error, and the calls made, carried out on the world, lead to the same files, remaining faults, random source, terminal and effects in the same order. So what is proved of the one holds of the other, and every run of psignify on a world is one of those C91 describes. Assumed is that the terminal does not panic and that the size of a file fits os.FileInfo.",
  "all worlds with all schedules of faults, all arguments and command lines", "two models of the same code are compared on all their states", ["crypto/crypto.go: Seal, Open, seal, open", "signify/key.go: Sign", "signify/key.go: Verify", "signify/key.go: GenerateKey, ToBox, PassphrasePrompt", "cmd/psignify/main.go: main"])

p("A program's own PassphrasePrompt",
  "PassphrasePrompt is a variable that programs using the package may set. Whatever function is put there: if it answers a passphrase (or an error) and leaves files and the random source alone, then Sign, ToBox and Open return what they return when that passphrase (or error) comes from the terminal, with the same effects on files. Sign asks once at most, without confirmation, after reading the key file, and never for a key without passphrase. Sign overwrites the very buffer it was given with zeros, whatever it returns, and no other buffer; Open and ToBox leave it. That a function returning a passphrase it keeps can be used for several signatures is refuted: the second one fails with a checksum error although nothing but the buffer has changed.",
  "all functions, keys, files and worlds", "tests set one function that returns a fresh slice each time", ["signify/key.go: PassphrasePrompt", "signify/key.go: Sign", "signify/key.go: ToBox (Private)", "signify/common.go: zero", "crypto/crypto.go: Open"])

p("Whole files, call by call",
  "ioutil.ReadFile and ioutil.WriteFile, which C88 and C91 count as single calls, opened up into the calls they consist of, over any operating system in which files come to an end. Every run of psignify is then a sequence of opening, asking for the size, reading, writing and closing that refines the calls of C91: a file is read piece by piece up to its end or the first error, a file is written with one write, and at the end no descriptor is open, whatever failed. -V exits with status 0 only if each of the three files was read up to its end and what was read, put together, holds a valid signature; -S only if the whole text of the signature was accepted and closing the file reported no error, a short write being an error. If the files do not change during the run, what is verified is their content. That psignify -V accepts only a message that the file held at some time is refuted: a file rewritten while it is being read can be accepted although neither content has a valid signature.",
  "all operating systems whose files end, all sizes of the reads, all command lines", "the pieces a file is read in, short writes and errors on closing cannot be arranged in a test, nor can a file be changed between two reads", ["signify/common.go: writeDataFile", "signify/key.go: LoadPublicKey, LoadPrivateKey", "signify/key.go: Verify", "signify/key.go: Sign", "signify/key.go: GenerateKey", "cmd/psignify/main.go: main"])

p("What psignify finds wrong, and what of the files reaches the terminal",
  "Every error Verify, Sign, GenerateKey, Seal and Open return was either answered by a system call about one of their files, the random source, a descriptor or the terminal, or is one of a short list of errors of their own (text that is not base64; a key of the wrong length or cut short; an unsupported algorithm; an empty passphrase; a wrong checksum, key number or signature; an unfinished header, a header or a box that is not authentic). GenerateKey with the default options has none of its own. As for the program: if its name and arguments, the user's name and home directory and the texts of the operating system's errors consist of printable ASCII and ends of lines, so does everything printed on standard output, and everything printed on standard error but for one message: -S and -D repeat two bytes of a secret key file whose KDF algorithm they do not know. That nothing of a file reaches the terminal unfiltered is therefore refuted: a secret key file can make -S send an escape sequence to it.",
  "all operating systems, command lines, keys, messages and files", "a test tries some broken files; it cannot show that no other error, and no other byte of a file, ever comes out", ["signify/key.go: decrypt", "signify/key.go: readPublicKeyData", "signify/key.go: Verify", "signify/key.go: Sign", "crypto/crypto.go: seal", "crypto/crypto.go: open", "cmd/psignify/main.go: main"])

p("Histories of any length: what lasts",
  "psignify is run any number of times, with any arguments, by any users, over any faults, terminals and random bytes, and in between other programs change files of theirs. A file that no run is there to write (the pair of a -G, the signature of a -S, the sealed file of a -E, the message of a -D) and that the others leave alone is as it was, whatever the runs were and however they ended; and no run ever makes a file vanish. Runs of -V, and wrong calls, change nothing. So what was achieved lasts: a pair made with status 0, used after any such history to sign a message with the passphrase typed, gives a signature that after any further history sparing the public key, the message and the signature is verified with status 0 and OK; and likewise a message sealed to the pair is got back. A verdict of -V stays the same as long as its three files are spared. That a run never costs the user its own key is refuted: a -D told to write the message over the secret key, and failing, has emptied the key.",
  "all finite histories of runs (any arguments, faults, users) and changes by others, all primitives with the stated laws, and those of C71", "the number of histories is unbounded and tests only run short scripts", ["cmd/psignify/main.go: main", "signify/key.go: Sign", "signify/key.go: Verify", "signify/key.go: GenerateKey", "crypto/crypto.go: Seal", "crypto/crypto.go: Open"])

p("Statement by statement: what the leaf routines compute and show",
  "The routines of edwards25519 that touch single words (the field operations, FeFromBytes, FeToBytes, FeIsNegative, FeIsNonZero, equal, negative, the magnitude of a digit, the recoding of a scalar into digits, ScMulAdd, ScReduce), taken one statement after the other over a memory in which the pointers may be equal, compute what the functional model says, write nothing but their results (FeToBytes: also its argument, carried), and show nothing of the numbers they work on: which operations run, which way branches go and which addresses are read and written is settled by the pointers alone. So for GeScalarMultBase every operation, branch and address of all its field routines is the same for any two scalars and any two contents of memory. ScMinimal does compute the comparison with the group order; that it shows nothing is refuted (its scalar is part of a signature, not a secret).",
  "all values of variables, pointers and memory, all scalars; all lists of calls of field routines", "that no address or branch depends on a secret is a statement about pairs of runs, and about things a test does not observe", ["signify/internal/edwards25519/edwards25519.go: FeMul", "signify/internal/edwards25519/edwards25519.go: FeToBytes", "signify/internal/edwards25519/edwards25519.go: FeFromBytes", "signify/internal/edwards25519/edwards25519.go: FeCMove", "signify/internal/edwards25519/edwards25519.go: equal", "signify/internal/edwards25519/edwards25519.go: GeScalarMultBase", "signify/internal/edwards25519/edwards25519.go: ScMulAdd", "signify/internal/edwards25519/edwards25519.go: ScReduce", "signify/internal/edwards25519/edwards25519.go: ScMinimal"])

p("From the statements of the text to points of the curve",
  "With the package variables as declared and arrays apart from the points: a 32-byte scalar below 2^255 in memory, recoded, multiplied and encoded by the statements of GeScalarMultBase and ToBytes, becomes the 32 bytes of that multiple of the base point, and the operations, branches and addresses of the whole run are the same whatever the memory holds. The statements of FromBytes turn 32 bytes into the point they encode or refuse them because no point has that coordinate; those of Public.ToBox overwrite a key with the bytes of (1+y)/(1-y), exactly when ToBox of the functional model succeeds. The statements of ScMulAdd and ScReduce leave the little-endian bytes of (ab+c) mod l and s mod l, and those of ScMinimal answer 1 just below l.",
  "all memories with the declared package variables, all scalars and keys, all placements of the points and of the local arrays", "no test covers all scalars, and none observes addresses and branches", ["signify/internal/edwards25519/edwards25519.go: GeScalarMultBase", "signify/internal/edwards25519/edwards25519.go: selectPoint", "signify/internal/edwards25519/edwards25519.go: ToBytes", "signify/internal/edwards25519/edwards25519.go: FromBytes", "signify/internal/edwards25519/edwards25519.go: ScMulAdd", "signify/internal/edwards25519/edwards25519.go: ScReduce", "signify/internal/edwards25519/edwards25519.go: ScMinimal", "signify/key.go: ToBox"])

p("Two scalars and a point in memory",
  "The statements of slide, reading and writing its array digit by digit, leave 256 digits that are zero or odd between -15 and 15, no two of them that are not zero within four places of each other, whose binary value is the scalar (modulo 2^256, and exactly up to 2^255), and change no other array. With the package variables as declared and arrays apart from the points, GeDoubleScalarMultVartime with the scalars a and b in memory, reading every digit where it is stored, leaves the point aP + bB at its result, keeps P and everything outside its frame, and ToBytes then leaves the 32 bytes of that point.",
  "all memories with the declared package variables, all scalars up to 2^255, all points of the curve, all placements of points and arrays, also with one array for both scalars and the result", "no test covers all pairs of scalars or all placements", ["signify/internal/edwards25519/edwards25519.go: slide", "signify/internal/edwards25519/edwards25519.go: GeDoubleScalarMultVartime", "signify/internal/edwards25519/edwards25519.go: ToBytes"])

if __name__=="__main__":
    with open("/verif/properties.jsonl","w") as f:
        for x in P: f.write(json.dumps(x)+"\n")
    print(len(P))
