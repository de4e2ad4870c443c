{"id": "C01", "title": "Header round trip", "statement": "Writing a V3, V4 or V5 header with Header::serialize and reading the bytes back with Header::deserialize (whatever data follows) yields a header with the same type, nonce, salt/keyslots, and leaves the reader positioned exactly on the first byte after the header.", "quantifier": "every header a caller can build with field lengths matching its algorithm/mode, every number of keyslots 0..4, every trailing content, every reader position at which the header starts", "why_tests_cant": "the header space is astronomically large; the repo's tests only contain two byte vectors", "anchors": ["crates/volaris-crypto/src/header.rs: Header::serialize, Header::deserialize, Keyslot::serialize"]}
{"id": "C02", "title": "AAD agreement between writer and reader", "statement": "The AAD that Header::create_aad computes at encryption time equals the AAD that Header::deserialize returns when the serialized header is read back, for every version that can be serialized.", "quantifier": "all V3/V4/V5 headers with well-formed field lengths", "why_tests_cant": "a single mismatching padding length for one algorithm/mode pair would make every such file undecryptable; tests cover one algorithm", "anchors": ["crates/volaris-crypto/src/header.rs: Header::create_aad, Header::deserialize"]}
{"id": "C03", "title": "Header size is exact", "statement": "The number of bytes Header::serialize produces, the number of bytes Header::deserialize consumes on success, and Header::get_size are equal (64, 128 or 416).", "quantifier": "all headers, all accepted byte inputs", "why_tests_cant": "needs all algorithm/mode/keyslot-count combinations and all inputs", "anchors": ["crates/volaris-crypto/src/header.rs: Header::get_size, serialize, deserialize"]}
{"id": "C04", "title": "Header parser is total and rejects non-headers", "statement": "Header::deserialize never panics on any byte input: it returns a header exactly when the input carries a known version, algorithm and mode tag, is long enough, and (V5) every keyslot identifier met is known; otherwise it returns an error.", "quantifier": "every byte string and start position", "why_tests_cant": "parsers are attacked with arbitrary bytes; tests feed only valid files", "anchors": ["crates/volaris-crypto/src/header.rs: Header::deserialize"]}
{"id": "C05", "title": "Header fields are bound by the AAD", "statement": "If two V5 headers give the same AAD, they have the same version, algorithm, mode and nonce and the same first 32 bytes; for V3 the AAD is the whole header; for V4 it is everything except the encrypted master key and its nonce. Headers of different versions (V3 or later) never share an AAD.", "quantifier": "all pairs of accepted headers", "why_tests_cant": "a statement about all pairs of inputs (injectivity)", "anchors": ["crates/volaris-crypto/src/header.rs: deserialize (aad computation), create_aad"]}
{"id": "C06", "title": "Re-serializing a parsed header preserves its meaning", "statement": "For every byte string accepted as a V3, V4 or V5 header, serializing the parsed header gives bytes of the same length which parse back to the same header; if the padding of the input was zero and its keyslots contiguous, the bytes are identical to the input.", "quantifier": "all accepted inputs", "why_tests_cant": "quantifies over all accepted inputs including hand-made ones", "anchors": ["crates/volaris-crypto/src/header.rs: serialize, deserialize", "crates/volaris-tools/src/header/dump.rs", "crates/volaris-tools/src/header/restore.rs"]}
{"id": "C07", "title": "Deprecated headers are never written", "statement": "Header::serialize, Header::create_aad and Header::write return an error for V1 and V2 headers and write nothing.", "quantifier": "all V1/V2 headers, all writers", "why_tests_cant": "all headers and all writer states", "anchors": ["crates/volaris-crypto/src/header.rs: serialize, create_aad, write"]}
{"id": "C08", "title": "Every keyslot survives serialization", "statement": "A V5 header's keyslots, whatever their hash_algorithm version number, are all still present and identical after serialize/deserialize.", "quantifier": "all keyslots constructible through the public API (hash_algorithm carries an arbitrary i32)", "why_tests_cant": "i32 version numbers are unbounded in practice; tests use one", "anchors": ["crates/volaris-crypto/src/header.rs: Keyslot::serialize, HashingAlgorithm"]}
{"id": "C09", "title": "Stream mode round trip", "statement": "DecryptionStreams::decrypt_file applied to the output of EncryptionStreams::encrypt_file with the same key, nonce, algorithm and AAD writes back exactly the original bytes, including empty inputs and exact multiples of the block size.", "quantifier": "all plaintexts whose block count fits the stream counter, all keys, nonces, AADs, algorithms", "why_tests_cant": "block-boundary behaviour over unbounded sizes; tests use an 11-byte message", "anchors": ["crates/volaris-crypto/src/stream.rs: encrypt_file, decrypt_file"]}
{"id": "C10", "title": "Ciphertext length law", "statement": "encrypt_file appends exactly |p| + 16*(|p|/1048576 + 1) bytes to the output.", "quantifier": "all plaintexts", "why_tests_cant": "all sizes", "anchors": ["crates/volaris-crypto/src/stream.rs: encrypt_file"]}
{"id": "C11", "title": "No nonce reuse within a stream", "statement": "All AEAD invocations made by one encrypt_file call use pairwise distinct nonces, each of the algorithm's nonce length; the final block is always flagged, so a non-final block is never accepted as final.", "quantifier": "all plaintext lengths, all base nonces", "why_tests_cant": "distinctness over unboundedly many blocks", "anchors": ["crates/volaris-crypto/src/stream.rs: encrypt_file", "crates/volaris-crypto/src/primitives.rs: get_nonce_len"]}
{"id": "C12", "title": "Stream integrity: truncation, reordering, splicing and extension are detected", "statement": "If decrypt_file succeeds on a ciphertext other than the one encrypt_file produced (same key, nonce; any AAD), then the AEAD accepted some (nonce, AAD, ciphertext) that encryption never produced, i.e. an AEAD forgery. In particular any truncated, reordered, extended or bit-flipped ciphertext is rejected unless the AEAD is forged.", "quantifier": "all plaintexts and all modified ciphertexts", "why_tests_cant": "adversarial inputs of any size", "anchors": ["crates/volaris-crypto/src/stream.rs: decrypt_file"]}
{"id": "C13", "title": "Only authenticated plaintext is ever output", "statement": "Whatever bytes decrypt_file reads, what it has written when it stops (with success or error) is a sequence of whole blocks forming a prefix of the original plaintext, unless the AEAD is forged.", "quantifier": "all ciphertext inputs, all read/write fault schedules", "why_tests_cant": "needs all inputs and all fault points", "anchors": ["crates/volaris-crypto/src/stream.rs: decrypt_file"]}
{"id": "C14", "title": "Encryption covers the whole input of any Reader", "statement": "If encrypt_file returns Ok, decrypting its output yields everything the reader would deliver, for every implementation of std::io::Read including ones that return short reads (pipes, sockets).", "quantifier": "all short-read schedules permitted by the Read contract", "why_tests_cant": "short-read schedules are unboundedly many and depend on the kernel", "anchors": ["crates/volaris-crypto/src/stream.rs: encrypt_file"]}
{"id": "C15", "title": "Stream counter never wraps", "statement": "encrypt_file refuses (returns an error) rather than wrapping its block counter when the input has more blocks than the counter can number.", "quantifier": "all plaintext lengths", "why_tests_cant": "needs a 256 TiB input", "anchors": ["crates/volaris-crypto/src/stream.rs: encrypt_file, encrypt_next"]}
{"id": "C16", "title": "I/O faults during streaming are never reported as success", "statement": "Whatever reads, writes or flushes fail or are short on the output side, if encrypt_file/decrypt_file return Ok then the complete output of everything that was read has been written; if they return an error, the bytes written are a prefix of that output. They never panic.", "quantifier": "all fault schedules on reader and writer", "why_tests_cant": "fault schedules", "anchors": ["crates/volaris-crypto/src/stream.rs: encrypt_file, decrypt_file"]}
{"id": "C17", "title": "Encrypt/decrypt round trip (embedded header)", "statement": "For a V5 request in stream mode with a supported hashing algorithm, encrypt::execute into an empty output followed by decrypt::execute with the same key returns the original content.", "quantifier": "all contents, passwords, algorithms, hashing algorithms, RNG outputs, reader positions", "why_tests_cant": "all inputs and random choices; tests fix the RNG and one message", "anchors": ["crates/volaris-tools/src/encrypt.rs: execute", "crates/volaris-tools/src/decrypt.rs: execute", "crates/volaris-crypto/src/key.rs: decrypt_master_key"]}
{"id": "C18", "title": "Encrypt/decrypt round trip (detached header)", "statement": "With a header_writer, the content output contains no header byte, and decrypt::execute with that header as header_reader restores the content.", "quantifier": "all contents, passwords, algorithms, RNG outputs", "why_tests_cant": "depends on the first 416 ciphertext bytes and on EOF behaviour of the reader", "anchors": ["crates/volaris-tools/src/encrypt.rs: execute", "crates/volaris-tools/src/decrypt.rs: execute"]}
{"id": "C19", "title": "Wrong key writes nothing", "statement": "If no keyslot of the file accepts the supplied key, decrypt::execute returns an error and writes nothing to the output.", "quantifier": "all files, all keys, all modes and versions", "why_tests_cant": "all inputs", "anchors": ["crates/volaris-tools/src/decrypt.rs: execute", "crates/volaris-crypto/src/key.rs: decrypt_master_key"]}
{"id": "C20", "title": "File-level integrity", "statement": "If decrypt::execute with the right password succeeds on any modified version of an encrypted file and outputs something other than the original plaintext, then an AEAD forgery or a KDF collision occurred: changing, truncating, splicing or downgrading header and data is detected.", "quantifier": "all modified files (any length, any header version), all passwords", "why_tests_cant": "adversarial inputs, including cross-version downgrade", "anchors": ["crates/volaris-tools/src/decrypt.rs: execute", "crates/volaris-crypto/src/header.rs: deserialize", "crates/volaris-crypto/src/key.rs: decrypt_master_key"]}
{"id": "C21", "title": "Failed decryption exposes only authentic data", "statement": "Whatever file is given to decrypt::execute, the bytes written to the output when it returns (Ok or Err) are a block-aligned prefix of the original plaintext or the whole of it, unless the AEAD is forged or the KDF collides.", "quantifier": "all modified files", "why_tests_cant": "adversarial inputs and partial progress", "anchors": ["crates/volaris-tools/src/decrypt.rs: execute", "crates/volaris-crypto/src/stream.rs: decrypt_file"]}
{"id": "C22", "title": "V4 round trip", "statement": "A file encrypted with a V4 header decrypts with the same key for every hashing algorithm encrypt::execute accepts.", "quantifier": "all hashing algorithms, contents, passwords", "why_tests_cant": "tests only pair V4 with Blake3Balloon(4)", "anchors": ["crates/volaris-tools/src/encrypt.rs: execute", "crates/volaris-crypto/src/header.rs: serialize_v4/deserialize V4"]}
{"id": "C23", "title": "Unsupported requests fail cleanly", "statement": "encrypt::execute with an unsupported header version, mode or hashing algorithm returns an error without panicking and without modifying any output.", "quantifier": "all header types, hashing algorithms, keys, outputs", "why_tests_cant": "enumerates all request shapes", "anchors": ["crates/volaris-tools/src/encrypt.rs: execute"]}
{"id": "C24", "title": "The encrypted body does not depend on the password", "statement": "For fixed RNG output, the bytes following the header produced by encrypt::execute are the same for any two passwords and hashing algorithms, and only the keyslot region of the header differs; so re-keying never needs re-encryption.", "quantifier": "all pairs of passwords/hashing algorithms", "why_tests_cant": "a two-run (relational) property", "anchors": ["crates/volaris-tools/src/encrypt.rs: execute"]}
{"id": "C25", "title": "Output left behind by encryption is exactly header + body", "statement": "After a successful encrypt::execute the output holds the header followed by the body and nothing else, whatever the output held before.", "quantifier": "all prior output contents", "why_tests_cant": "depends on prior file contents of any length", "anchors": ["crates/volaris-tools/src/encrypt.rs: execute"]}
{"id": "C26", "title": "Adding a key", "statement": "After a successful key::add, the file body and all existing keyslots are byte-for-byte unchanged, and both the old key and the new key decrypt the file to the same plaintext.", "quantifier": "all files, keys, handle positions, RNG outputs", "why_tests_cant": "all header states", "anchors": ["crates/volaris-tools/src/key/add.rs: execute"]}
{"id": "C27", "title": "Changing a key", "statement": "After a successful key::change, the new key decrypts the file to the same plaintext, only the keyslot that the old key opened was replaced, all other keyslots and the body are unchanged, and the old key no longer opens the replaced slot unless an AEAD forgery occurs.", "quantifier": "all files, keys, RNG outputs", "why_tests_cant": "all header states", "anchors": ["crates/volaris-tools/src/key/change.rs: execute"]}
{"id": "C28", "title": "Deleting a key", "statement": "After a successful key::delete exactly the keyslot opened by the given key is gone, the others remain in order, the body is unchanged, and at least one key that decrypts the file remains.", "quantifier": "all files with any number of keyslots", "why_tests_cant": "all header states including the last slot", "anchors": ["crates/volaris-tools/src/key/delete.rs: execute"]}
{"id": "C29", "title": "Verify agrees with decrypt", "statement": "key::verify succeeds on a V5 file exactly when decrypt_master_key succeeds with that key, and never changes the file.", "quantifier": "all files and keys", "why_tests_cant": "agreement of two separate implementations of the keyslot search over all inputs", "anchors": ["crates/volaris-tools/src/key/verify.rs: execute", "crates/volaris-tools/src/key.rs: decrypt_v5_master_key_with_index", "crates/volaris-crypto/src/key.rs: decrypt_master_key"]}
{"id": "C30", "title": "Failed key operations leave the file unchanged", "statement": "If key::add, key::change, key::delete or key::verify returns an error, every byte of the file is unchanged.", "quantifier": "all files, keys and I/O fault schedules on the handle", "why_tests_cant": "fault schedules", "anchors": ["crates/volaris-tools/src/key/add.rs", "crates/volaris-tools/src/key/change.rs", "crates/volaris-tools/src/key/delete.rs", "crates/volaris-tools/src/key/verify.rs"]}
{"id": "C31", "title": "Any history of key operations keeps the file usable", "statement": "After any sequence of add/change/delete/verify operations (successful or not) on a freshly encrypted file: the header parses as V5 with at most 4 keyslots, the body is unchanged, and the set of keys that open the file is the one an abstract key list predicts (each such key decrypting to the original plaintext).", "quantifier": "all operation sequences of any length", "why_tests_cant": "unbounded histories", "anchors": ["crates/volaris-tools/src/key.rs", "crates/volaris-tools/src/key/add.rs", "crates/volaris-tools/src/key/change.rs", "crates/volaris-tools/src/key/delete.rs"]}
{"id": "C32", "title": "Key operations are crash safe", "statement": "If the machine stops part-way through the header rewrite of key::add/change/delete, every key that should be valid both before and after the operation still opens the file.", "quantifier": "every crash point (every prefix of the rewrite), all headers", "why_tests_cant": "every crash point", "anchors": ["crates/volaris-tools/src/key/add.rs", "crates/volaris-tools/src/key/change.rs", "crates/volaris-tools/src/key/delete.rs", "crates/volaris-crypto/src/header.rs: write"]}
{"id": "C33", "title": "Key operations touch only the header region", "statement": "Whatever happens (success, error, short write, failure), key operations never modify any byte outside the 416 bytes of the header at the handle's position.", "quantifier": "all fault schedules, positions and files", "why_tests_cant": "fault schedules", "anchors": ["crates/volaris-tools/src/key/add.rs", "crates/volaris-tools/src/key/change.rs", "crates/volaris-tools/src/key/delete.rs"]}
{"id": "C34", "title": "A header is written completely or an error is reported", "statement": "If Header::write (and the header write inside encrypt::execute) returns Ok then all header bytes were written.", "quantifier": "all short-write schedules permitted by the Write contract", "why_tests_cant": "short writes depend on the writer", "anchors": ["crates/volaris-crypto/src/header.rs: write", "crates/volaris-tools/src/encrypt.rs: execute"]}
{"id": "C35", "title": "Strip removes exactly the header", "statement": "header::strip on a file that starts with a valid header replaces exactly the header's bytes by zeros and leaves every other byte and the file length unchanged; on a file without a valid header it changes nothing and returns an error.", "quantifier": "all files", "why_tests_cant": "all contents and versions", "anchors": ["crates/volaris-tools/src/header/strip.rs: execute"]}
{"id": "C36", "title": "Dump, strip, restore is the identity", "statement": "For every file produced by encrypt::execute (V5) and any later key operations, dumping its header, stripping it and restoring the dump gives back the identical file.", "quantifier": "all encrypted files and key histories", "why_tests_cant": "all contents", "anchors": ["crates/volaris-tools/src/header/dump.rs", "crates/volaris-tools/src/header/strip.rs", "crates/volaris-tools/src/header/restore.rs"]}
{"id": "C37", "title": "Restore never overwrites data", "statement": "header::restore succeeds only if the target starts with at least as many zero bytes as the header is long, and otherwise leaves the target unchanged.", "quantifier": "all targets (including short ones) and all short-read schedules", "why_tests_cant": "all target contents and lengths", "anchors": ["crates/volaris-tools/src/header/restore.rs: execute"]}
{"id": "C38", "title": "A stripped file decrypts with its dumped header", "statement": "decrypt::execute with the dumped header as header_reader and the stripped file as reader gives the same result as decrypting the original file.", "quantifier": "all encrypted files, all keys", "why_tests_cant": "all contents", "anchors": ["crates/volaris-tools/src/decrypt.rs: execute", "crates/volaris-tools/src/header/strip.rs", "crates/volaris-tools/src/header/dump.rs"]}
{"id": "C39", "title": "Overwrite ends with zeros of the right extent", "statement": "After overwrite::execute returns Ok the first buf_capacity bytes of the target are zero and all bytes beyond are untouched, for every number of passes.", "quantifier": "all contents, capacities, pass counts (including negative)", "why_tests_cant": "all sizes around the 512-byte block", "anchors": ["crates/volaris-tools/src/overwrite.rs: execute"]}
{"id": "C40", "title": "Each erase pass overwrites the whole content with random data", "statement": "overwrite::execute with passes = n writes buf_capacity random bytes over the target n times before the final zero pass.", "quantifier": "all capacities and n >= 1", "why_tests_cant": "the final state hides the intermediate passes, so tests on the final content cannot see them", "anchors": ["crates/volaris-tools/src/overwrite.rs: execute"]}
{"id": "C41", "title": "Erase overwrites the file's content before removing it", "statement": "erase::execute on a stored file overwrites every byte of the old content in place before the file is truncated or removed.", "quantifier": "all file contents and pass counts", "why_tests_cant": "intermediate on-disk states are not observable from the end state; tests use an in-memory storage that behaves differently", "anchors": ["crates/volaris-tools/src/erase.rs: execute", "crates/volaris-tools/src/storage.rs: FileStorage::write_file"]}
{"id": "C42", "title": "Erase removes exactly the target", "statement": "After a successful erase::execute the path no longer exists and every other file and directory is unchanged; erasing a missing path or a directory fails and changes nothing.", "quantifier": "all file systems and paths", "why_tests_cant": "all file system states", "anchors": ["crates/volaris-tools/src/erase.rs: execute", "crates/volaris-tools/src/storage.rs: FileStorage"]}
{"id": "C43", "title": "Erasing a directory is independent of thread scheduling", "statement": "erase_dir::execute removes the directory and everything below it and nothing else, under every interleaving of its per-file threads.", "quantifier": "all schedules, all directory trees", "why_tests_cant": "thread interleavings", "anchors": ["crates/volaris-tools/src/erase_dir.rs: execute"]}
{"id": "C44", "title": "Hash covers the whole input from the start", "statement": "hash::execute returns the hash of the entire content whatever the reader's initial position and whatever the content length relative to the 1 MiB block.", "quantifier": "all contents and initial positions", "why_tests_cant": "all sizes", "anchors": ["crates/volaris-tools/src/hash.rs: execute", "crates/volaris-tools/src/hasher.rs"]}
{"id": "C45", "title": "Hash is correct for every Reader", "statement": "hash::execute returns the hash of everything the reader would deliver even if reads are short.", "quantifier": "all short-read schedules", "why_tests_cant": "short-read schedules", "anchors": ["crates/volaris-tools/src/hash.rs: execute"]}
{"id": "C46", "title": "Unpack never writes outside the output directory", "statement": "Whatever names an archive contains, every directory or file that unpack::execute creates or overwrites lies inside the output directory.", "quantifier": "all archives (adversarial entry names)", "why_tests_cant": "adversarial names", "anchors": ["crates/volaris-tools/src/unpack.rs: execute"]}
{"id": "C47", "title": "Pack/unpack round trip", "statement": "Unpacking a packed directory tree restores every file with its content and every directory.", "quantifier": "all directory trees and input paths (relative, absolute, with ..)", "why_tests_cant": "all trees and path spellings", "anchors": ["crates/volaris-tools/src/pack.rs: execute", "crates/volaris-tools/src/unpack.rs: execute"]}
{"id": "C48", "title": "No plaintext temporary archive is left behind", "statement": "When pack::execute or unpack::execute returns (success or error), the temporary plaintext archive has been zeroed and removed.", "quantifier": "all failure points", "why_tests_cant": "every failure point", "anchors": ["crates/volaris-tools/src/pack.rs: execute", "crates/volaris-tools/src/unpack.rs: execute"]}
{"id": "C49", "title": "Declined files are not touched by unpack", "statement": "A path for which the on_zip_file callback answers false is neither created, truncated nor written.", "quantifier": "all archives and callbacks", "why_tests_cant": "all archives and answers", "anchors": ["crates/volaris-tools/src/unpack.rs: execute"]}
{"id": "C50", "title": "Generated passphrases are well-formed", "statement": "generate_passphrase(n) never panics and returns n words of the word list joined by '-' (the empty string for n <= 0).", "quantifier": "all n and all RNG outputs", "why_tests_cant": "a 1-in-7772 RNG outcome is unlikely to be hit by tests", "anchors": ["crates/volaris-crypto/src/key.rs: generate_passphrase"]}
{"id": "C51", "title": "Secrets are never empty", "statement": "Key::get_secret never returns an empty key, whatever the key source; in validation mode a typed password is returned only if typed twice identically.", "quantifier": "all key sources, stdin contents, typed inputs", "why_tests_cant": "all input sequences", "anchors": ["crates/volaris-cli/src/global/states.rs: Key::get_secret", "crates/volaris-cli/src/cli/prompt.rs: get_password"]}
{"id": "C52", "title": "Key source precedence", "statement": "The key source is the keyfile if one is given, else the VOLARIS_KEY environment variable, else a generated passphrase if requested, else the interactive prompt; a passphrase is generated only if the user asked for it.", "quantifier": "all command lines and environments", "why_tests_cant": "all argument combinations", "anchors": ["crates/volaris-cli/src/global/states.rs: Key::init", "crates/volaris-cli/src/cli.rs"]}
{"id": "C53", "title": "The input file is erased only on request", "statement": "volaris encrypt/decrypt erase the input file only if --erase was given.", "quantifier": "all command lines", "why_tests_cant": "all argument combinations", "anchors": ["crates/volaris-cli/src/global/parameters.rs: parameter_handler", "crates/volaris-cli/src/cli.rs", "crates/volaris-cli/src/subcommands/encrypt.rs"]}
{"id": "C54", "title": "hex_encode is faithful", "statement": "hex_encode yields two lowercase hexadecimal digits per byte, is injective, and decodes back to the input.", "quantifier": "all byte strings", "why_tests_cant": "all inputs", "anchors": ["crates/volaris-tools/src/utils.rs: hex_encode"]}
{"id": "C55", "title": "Key material conversion keeps every byte", "statement": "vec_to_arr::<N> returns the first N bytes of its input, padded with zeros; converting the 48-byte encrypted and 32-byte decrypted master key loses nothing, so a master key wrapped by encrypt_master_key is unwrapped identically with the same key.", "quantifier": "all vectors and N, all master keys", "why_tests_cant": "all lengths", "anchors": ["crates/volaris-crypto/src/key.rs: vec_to_arr", "crates/volaris-tools/src/key.rs: encrypt_master_key, decrypt_v5_master_key_with_index"]}
{"id": "C56", "title": "Every master key is usable", "statement": "A file whose master key is any 32-byte value can be managed (verify/add/change/delete) with its key.", "quantifier": "all master keys", "why_tests_cant": "the exceptional value has probability 2^-256", "anchors": ["crates/volaris-tools/src/key.rs: decrypt_v5_master_key_with_index"]}
{"id": "C57", "title": "Encrypting a file onto itself is prevented", "statement": "volaris encrypt/decrypt never truncate or overwrite the input file through the output path.", "quantifier": "all pairs of path spellings", "why_tests_cant": "all path spellings", "anchors": ["crates/volaris-cli/src/subcommands/encrypt.rs: stream_mode", "crates/volaris-cli/src/subcommands/decrypt.rs: stream_mode"]}
{"id": "C58", "title": "Yes/no prompts", "statement": "get_answer returns the default on an empty line, true/false on an answer starting with y/n in any case, asks again on anything else, and with --force answers without asking.", "quantifier": "all input line sequences", "why_tests_cant": "unbounded retry sequences", "anchors": ["crates/volaris-cli/src/cli/prompt.rs: get_answer, overwrite_check"]}
{"id": "C59", "title": "Packing leaves other files alone", "statement": "Whatever fails, pack::execute changes no file or directory except the output file, the detached header file and its own temporary file; in particular not the files being packed.", "quantifier": "all trees, entry lists, device behaviours and failures", "why_tests_cant": "all failure points", "anchors": ["crates/volaris-tools/src/pack.rs: execute"]}
{"id": "C60", "title": "Decrypting never panics", "statement": "decrypt::execute returns a result or an error for every input file, detached header, key and behaviour of the devices; it neither panics nor loops.", "quantifier": "all byte strings, keys, device behaviours", "why_tests_cant": "all inputs, including malformed ones", "anchors": ["crates/volaris-tools/src/decrypt.rs: execute", "crates/volaris-crypto/src/header.rs: Header::deserialize"]}
{"id": "C61", "title": "A file is erased after encrypting only if it can be got back", "statement": "volaris encrypt either leaves the input file as it was or, after erasing it, leaves an output from which volaris decrypt with the same key makes a file with the same content.", "quantifier": "all command lines, files, keys", "why_tests_cant": "all inputs; the whole chain of two runs of the program", "anchors": ["crates/volaris-cli/src/subcommands/encrypt.rs: stream_mode", "crates/volaris-cli/src/subcommands/decrypt.rs: stream_mode", "crates/volaris-cli/src/subcommands/erase.rs"]}
{"id": "C62", "title": "A wrong key does not cost the encrypted file", "statement": "volaris decrypt erases its input only if the key unlocks its header and everything was decrypted; otherwise the input is unchanged.", "quantifier": "all command lines, files, keys", "why_tests_cant": "all inputs", "anchors": ["crates/volaris-cli/src/subcommands/decrypt.rs: stream_mode", "crates/volaris-cli/src/subcommands/erase.rs"]}
{"id": "C63", "title": "Every subcommand can be used", "statement": "Every subcommand that the command line program offers ends without a panic on some command line.", "quantifier": "all command lines of each subcommand", "why_tests_cant": "all argument combinations", "anchors": ["crates/volaris-cli/src/subcommands.rs", "crates/volaris-cli/src/cli.rs", "crates/volaris-cli/src/main.rs"]}
{"id": "C64", "title": "The command line program does not panic", "statement": "volaris encrypt, decrypt, pack, erase and hash end with a result or an error, whatever the files contain and whatever system calls fail.", "quantifier": "all command lines, file systems, failures, keys, builds", "why_tests_cant": "all inputs and failures", "anchors": ["crates/volaris-cli/src/subcommands/encrypt.rs", "crates/volaris-cli/src/subcommands/decrypt.rs", "crates/volaris-cli/src/global/states.rs", "crates/volaris-cli/src/subcommands/pack.rs", "crates/volaris-cli/src/subcommands/erase.rs", "crates/volaris-crypto/src/key.rs: generate_passphrase"]}
{"id": "C65", "title": "Nothing is overwritten without consent", "statement": "If the output exists and neither --force is given nor the question answered with yes, encrypt, decrypt and pack change no file; more generally, a run declined by the user changes nothing.", "quantifier": "all command lines, all answers", "why_tests_cant": "all answers, including end of input and invalid text", "anchors": ["crates/volaris-cli/src/cli/prompt.rs: overwrite_check", "crates/volaris-cli/src/subcommands/encrypt.rs", "crates/volaris-cli/src/subcommands/decrypt.rs", "crates/volaris-cli/src/subcommands/pack.rs"]}
{"id": "C66", "title": "A failed decryption leaves the old output", "statement": "If volaris decrypt fails, for example because of a wrong key, an existing output file is as before, and no other file has changed.", "quantifier": "all command lines, files, keys, failures", "why_tests_cant": "all inputs", "anchors": ["crates/volaris-cli/src/subcommands/decrypt.rs: stream_mode"]}
{"id": "C67", "title": "Directories are erased only with consent", "statement": "volaris erase on a directory changes nothing unless --force is given or the question is answered with yes; the default is no.", "quantifier": "all answers", "why_tests_cant": "all answers, including end of input and invalid text", "anchors": ["crates/volaris-cli/src/subcommands/erase.rs: secure_erase"]}
{"id": "C68", "title": "Hashes printed are the files' hashes", "statement": "volaris hash prints for each file given, in order, the hexadecimal BLAKE3 hash of its content, and changes nothing.", "quantifier": "all lists of files", "why_tests_cant": "all inputs", "anchors": ["crates/volaris-cli/src/subcommands/hashing.rs: hash_stream"]}
{"id": "C69", "title": "Erasing after packing does not lose the archive", "statement": "volaris pack --erase erases the directories packed only if the archive remains.", "quantifier": "all command lines and trees", "why_tests_cant": "all path combinations", "anchors": ["crates/volaris-cli/src/subcommands/pack.rs: execute", "crates/volaris-cli/src/subcommands/erase.rs"]}
{"id": "C70", "title": "A key on standard input is taken whole", "statement": "With keyfile '-', the key is everything on standard input.", "quantifier": "all command lines and inputs", "why_tests_cant": "all inputs", "anchors": ["crates/volaris-cli/src/global/states.rs: Key::get_secret", "crates/volaris-cli/src/cli/prompt.rs: get_answer"]}
{"id": "C71", "title": "Header details are read-only and complete", "statement": "volaris header details changes no file and asks nothing; it succeeds exactly on files that start with a readable header; two files with the same output have the same header.", "quantifier": "all files, including damaged ones, all device failures for the first part", "why_tests_cant": "all 416-byte headers", "anchors": ["crates/volaris-cli/src/subcommands/header.rs: details"]}
{"id": "C72", "title": "Dumping a header leaves the encrypted file", "statement": "volaris header dump writes the header to the output and changes no other file, in particular not the encrypted one.", "quantifier": "all paths, including several names of one file, all answers and failures", "why_tests_cant": "all pairs of paths and file systems", "anchors": ["crates/volaris-cli/src/subcommands/header.rs: dump", "crates/volaris-tools/src/header/dump.rs"]}
{"id": "C73", "title": "Strip and restore change the header area only", "statement": "volaris header strip overwrites exactly the header of the named file with zeros; restore writes the header in the input to the start of the output, only if that is zero; errors change nothing, except that a failing device can leave a strip half done.", "quantifier": "all files, all failures", "why_tests_cant": "all failure points", "anchors": ["crates/volaris-cli/src/subcommands/header.rs: strip", "crates/volaris-cli/src/subcommands/header.rs: restore"]}
{"id": "C74", "title": "Dump, strip and restore by path are inverse", "statement": "Dumping the header of a file to another file, stripping it and restoring it from there gives the file back and changes no third file.", "quantifier": "all file systems, paths, headers", "why_tests_cant": "all headers and paths", "anchors": ["crates/volaris-cli/src/subcommands/header.rs"]}
{"id": "C75", "title": "Key commands touch the header only", "statement": "volaris key add, change, delete and verify: if the command fails, nothing has changed; if it succeeds, only the first 416 bytes of the named file were written. It does what the key operation does with the keys supplied.", "quantifier": "all files, keys, key sources, failures", "why_tests_cant": "all failure points and inputs", "anchors": ["crates/volaris-cli/src/subcommands/key.rs", "crates/volaris-tools/src/key"]}
{"id": "C76", "title": "Key commands refuse old files before asking for keys", "statement": "On a file without a header of version 5 the key commands report an error before a key is read from the terminal or standard input, and change nothing.", "quantifier": "all files", "why_tests_cant": "all byte strings", "anchors": ["crates/volaris-cli/src/subcommands/key.rs"]}
{"id": "C77", "title": "Key commands in any order", "statement": "After any sequence of key commands on an encrypted file, each with its own key sources, exactly the keys left by the commands that succeeded decrypt it.", "quantifier": "all sequences of commands, all inputs", "why_tests_cant": "unbounded sequences", "anchors": ["crates/volaris-cli/src/subcommands/key.rs", "crates/volaris-cli/src/global/states.rs", "crates/volaris-tools/src/key"]}
{"id": "C78", "title": "Key changes ignore VOLARIS_KEY", "statement": "key add and key change take the old key only from the key file named or the terminal, the new key also from the generator; VOLARIS_KEY has no influence on them.", "quantifier": "all command lines, all values of VOLARIS_KEY", "why_tests_cant": "all values", "anchors": ["crates/volaris-cli/src/global/parameters.rs: key_manipulation_params", "crates/volaris-cli/src/global/states.rs: Key::init", "crates/volaris-cli/src/subcommands.rs"]}
{"id": "C79", "title": "Unpacking overwrites only with consent", "statement": "Without --force, unpacking changes an existing file only if the user was asked about it and agreed.", "quantifier": "all archives, file systems, answers, schedules, failures", "why_tests_cant": "all archives, including hostile ones", "anchors": ["crates/volaris-cli/src/subcommands/unpack.rs", "crates/volaris-tools/src/unpack.rs"]}
{"id": "C80", "title": "Unpacking does not panic", "statement": "The unpack function of the command line returns or reports an error.", "quantifier": "all archives, file systems, answers, failures", "why_tests_cant": "all archives, including hostile ones", "anchors": ["crates/volaris-cli/src/subcommands/unpack.rs"]}
{"id": "C81", "title": "Unpacking by path is confined", "statement": "Unpacking a file given by path into a directory given by path changes only what is inside the directory, besides making the directory and the temporary archive; on success the temporary archive has been overwritten and removed.", "quantifier": "all archives, paths, answers, schedules; output directories without links", "why_tests_cant": "all archives and interleavings", "anchors": ["crates/volaris-cli/src/subcommands/unpack.rs", "crates/volaris-tools/src/unpack.rs"]}
{"id": "C82", "title": "Password hash parameters", "statement": "Each supported hashing algorithm and version is one evaluation of Argon2id (8 MiB, 256 MiB, 256 MiB memory; 8, 8, 10 passes; 4 lanes for versions 1 to 3) or BLAKE3-Balloon (2^18 and 17*2^14 hashes, one pass, for versions 4 and 5); every other version is refused.", "quantifier": "all passwords, salts, versions", "why_tests_cant": "all inputs; the cost itself cannot be seen in a result", "anchors": ["crates/volaris-crypto/src/key.rs: argon2id_hash", "crates/volaris-crypto/src/key.rs: balloon_hash", "crates/volaris-crypto/src/header.rs: HashingAlgorithm::hash"]}
{"id": "C83", "title": "Files are protected as asked", "statement": "encrypt writes a version 5 header with the algorithm asked for by --aes and one keyslot with the hashing algorithm asked for by --argon; each guess at the password costs one evaluation of that function. Key add and change choose the hashing the same way.", "quantifier": "all command lines, file systems, keys", "why_tests_cant": "all inputs", "anchors": ["crates/volaris-cli/src/global/parameters.rs: algorithm", "crates/volaris-cli/src/global/parameters.rs: hashing_algorithm", "crates/volaris-tools/src/encrypt.rs: execute"]}
{"id": "C84", "title": "Decryption is exact", "statement": "decrypt succeeds only if the header is readable, the password gives the master key and the body is an encryption under it, and then it has written all of the plaintext; on files it succeeds in all these cases. This covers every version, mode and algorithm, header in the file or detached, and for the first part every device.", "quantifier": "all byte strings, passwords, devices", "why_tests_cant": "all files, all short reads and writes", "anchors": ["crates/volaris-tools/src/decrypt.rs: execute", "crates/volaris-crypto/src/key.rs: decrypt_master_key"]}
{"id": "C85", "title": "Old files still decrypt", "statement": "A file of version 1, 2 or 3, in memory or stream mode, made as these formats are defined, decrypts to its content.", "quantifier": "all contents, salts, nonces, unused bytes, passwords, algorithms", "why_tests_cant": "the program no longer writes these versions, so there is no round trip to test", "anchors": ["crates/volaris-tools/src/decrypt.rs: execute", "crates/volaris-crypto/src/header.rs: deserialize", "crates/volaris-crypto/src/key.rs: argon2id_hash"]}
{"id": "C86", "title": "Pack and unpack by path give the directories back", "statement": "After a successful volaris pack of directories, with or without --erase, unpacking the output file (with the header file, if one was asked for) on any machine with the same key gives copies of all the directories: same files, same contents, same empty directories.", "quantifier": "all lists of directory trees without links, output and header paths elsewhere, keys, machines with room, schedules", "why_tests_cant": "all trees, contents and interleavings; the unpack subcommand itself always panics (C63)", "anchors": ["crates/volaris-cli/src/subcommands/pack.rs: execute", "crates/volaris-cli/src/subcommands/unpack.rs: unpack", "crates/volaris-tools/src/pack.rs: execute", "crates/volaris-tools/src/unpack.rs: execute"]}
{"id": "C87", "title": "Commands work when nothing is in the way", "statement": "Without failures of the system, with a key that can be had and hashed, and with outputs that are free (or are files, with --force) and are not the input, volaris encrypt finishes without an error; and a release build of volaris decrypt, on a file of any version that the key opens, finishes without an error and leaves the plaintext in the output.", "quantifier": "all command lines, file systems, contents, keys, header in the file or detached", "why_tests_cant": "all inputs: no combination of options, paths and contents within these conditions is refused", "anchors": ["crates/volaris-cli/src/subcommands/encrypt.rs: stream_mode", "crates/volaris-cli/src/subcommands/decrypt.rs: stream_mode", "crates/volaris-cli/src/cli/prompt.rs: overwrite_check", "crates/volaris-tools/src/encrypt.rs: execute", "crates/volaris-tools/src/decrypt.rs: execute"]}
{"id": "C88", "title": "No key and nonce are used twice, ever", "statement": "Over any sequence of library calls, or of commands by path, with any files and outcomes, no two AEAD encryptions have the same key and the same nonce, unless the random bytes drawn so far contain 12 bytes in a row twice, or 8 bytes twice and a derived key equal to a random master key.", "quantifier": "all histories: encryption in both modes, decryption, key operations, pack, unpack, erase, header commands; all devices, failures and passwords", "why_tests_cant": "all histories; a repeated nonce cannot be seen in any single result", "anchors": ["crates/volaris-tools/src/encrypt.rs: execute", "crates/volaris-tools/src/key/add.rs: execute", "crates/volaris-tools/src/key/change.rs: execute", "crates/volaris-crypto/src/primitives.rs: gen_nonce", "crates/volaris-crypto/src/stream.rs: encrypt_file"]}
{"id": "C89", "title": "Generated passphrases are not lost; numbers are read as written", "statement": "encrypt and pack with a generated passphrase write nothing, or show the passphrase, and after a successful encrypt the passphrase shown is the one that decrypts the file. A number on the command line is read as the decimal numeral it is, if it fits in 32 bits, and as none otherwise.", "quantifier": "all command lines, file systems, failures, random draws, texts", "why_tests_cant": "all runs that stop half way; a passphrase lost is data lost, since the input is erased", "anchors": ["crates/volaris-cli/src/global/states.rs: Key::get_secret", "crates/volaris-cli/src/global/states.rs: Key::init", "crates/volaris-cli/src/global/parameters.rs: erase_params", "crates/volaris-cli/src/subcommands/encrypt.rs: stream_mode", "crates/volaris-cli/src/subcommands/pack.rs: execute"]}
{"id": "C90", "title": "Erase and pack work when nothing is in the way", "statement": "Without failures of the system, volaris erase removes a file, or a directory without links whose files have no other names, and finishes without an error; volaris pack, with a key that can be had and hashed, outputs and a temporary name that can be written, and no more data than the counter counts, finishes without an error; with --erase --force the directories are then gone. The threads that erase need six turns each, no more.", "quantifier": "all command lines, file systems, contents, keys, numbers of directories and schedules, header in the file or detached", "why_tests_cant": "all trees and all schedules: no deadlock, lost wakeup or refused input within these conditions", "anchors": ["crates/volaris-cli/src/subcommands/erase.rs: secure_erase", "crates/volaris-cli/src/subcommands/pack.rs: execute", "crates/volaris-tools/src/erase_dir.rs: execute", "crates/volaris-tools/src/erase.rs: execute", "crates/volaris-tools/src/pack.rs: execute"]}
{"id": "C91", "title": "The tests' storage behaves like the real one", "statement": "The in-memory storage that the unit tests of erase, erase_dir and pack run on gives the same answers as the file storage to every call and every sequence of calls, so that what the tests check holds for the program.", "quantifier": "all contents of both storages that agree, all calls by relative name, all sequences", "why_tests_cant": "it is what the tests themselves rest on", "anchors": ["crates/volaris-tools/src/storage.rs: InMemoryStorage", "crates/volaris-tools/src/storage.rs: FileStorage", "crates/volaris-tools/src/erase.rs: execute", "crates/volaris-tools/src/erase_dir.rs: execute"]}
{"id": "C92", "title": "Secrets and content do not stay in memory", "statement": "When encryption, decryption or an operation on keys ends, however it ends, every heap buffer that held a secret, a master key or content of a file has been overwritten with zeros before it was released; and so for hashing.", "quantifier": "all files, keys, ciphers, devices and failures, panics included; headers in the file or detached", "why_tests_cant": "released memory cannot be looked at from a test; all ways a function can end early", "anchors": ["crates/volaris-crypto/src/protected.rs: Protected::drop", "crates/volaris-crypto/src/key.rs: vec_to_arr", "crates/volaris-crypto/src/stream.rs: encrypt_file", "crates/volaris-crypto/src/stream.rs: decrypt_file", "crates/volaris-tools/src/decrypt.rs: execute", "crates/volaris-tools/src/hash.rs: execute", "crates/volaris-tools/src/key.rs: decrypt_v5_master_key_with_index"]}
{"id": "C93", "title": "Secrets asked for do not stay in memory", "statement": "After a secret has been obtained from the terminal, a key file, standard input, the environment or the passphrase generator, it is in exactly one buffer, which wipes itself when released; every other buffer it passed through has been wiped. If obtaining it fails, nothing of it is left.", "quantifier": "all key sources, inputs, file systems and failures", "why_tests_cant": "released memory cannot be looked at from a test; all sequences of attempts at the prompt", "anchors": ["crates/volaris-cli/src/global/states.rs: Key::get_secret", "crates/volaris-cli/src/global/states.rs: get_bytes", "crates/volaris-cli/src/cli/prompt.rs: get_password", "crates/volaris-crypto/src/protected.rs: Protected::drop"]}
{"id": "C94", "title": "Inputs that cannot be meant are refused first", "statement": "encrypt, decrypt and pack refuse an output with the same name as an input, and pack refuses an input that is a file, wherever it stands in the list, before anything is asked, read from the terminal or changed on disk.", "quantifier": "all command lines, file systems and failures", "why_tests_cant": "all positions in the list and all other options", "anchors": ["crates/volaris-cli/src/subcommands/encrypt.rs: stream_mode", "crates/volaris-cli/src/subcommands/decrypt.rs: stream_mode", "crates/volaris-cli/src/subcommands/pack.rs: execute"]}
{"id": "C95", "title": "A command line means what the interface says", "statement": "A line is accepted exactly when it names a subcommand, gives options of that subcommand in one of the documented spellings, each at most once, and the operands in order (everything after -- being operands; the last operand of pack being the output), without --auto together with --keyfile; and it is then read as just these values. What is read satisfies what the program assumes about its arguments, and every such request can be written as a line.", "quantifier": "all lines of any words", "why_tests_cant": "all lines: mixtures of options and operands, values that look like options, repeated options", "anchors": ["crates/volaris-cli/src/cli.rs: get_matches", "crates/volaris-cli/src/main.rs: main"]}
{"id": "C96", "title": "A flag needs no value", "statement": "The options that switch something on (force, hash, argon, aes, verbose, zstd, recursive, and erase of pack) can be given by themselves, anywhere on the line, without changing the meaning of the other words.", "quantifier": "all lines, all flags", "why_tests_cant": "the tests do not go through the command line", "anchors": ["crates/volaris-cli/src/cli.rs: get_matches", "crates/volaris-cli/src/global/parameters.rs: forcemode"]}
{"id": "C97", "title": "The exit status tells whether the work was done", "statement": "volaris exits with status 0 exactly if the command was accepted and ran to its end.", "quantifier": "all lines, file systems, failures and answers", "why_tests_cant": "all failures and answers; scripts that delete the original rely on it", "anchors": ["crates/volaris-cli/src/main.rs: main", "crates/volaris-cli/src/subcommands/encrypt.rs: stream_mode", "crates/volaris-cli/src/subcommands/pack.rs: execute", "crates/volaris-cli/src/subcommands/erase.rs: secure_erase", "crates/volaris-cli/src/cli/prompt.rs: overwrite_check"]}
{"id": "C98", "title": "There and back from the command line", "statement": "A file encrypted with one command line and decrypted with the next, without failures, is back at its place with its content; the encrypted file is gone and nothing else has changed.", "quantifier": "all pairs of lines for encrypt and decrypt with the same key (key file, environment, or passphrase drawn and typed), contents and file systems", "why_tests_cant": "all lines, contents and file systems", "anchors": ["crates/volaris-cli/src/main.rs: main", "crates/volaris-cli/src/subcommands.rs: encrypt, decrypt", "crates/volaris-cli/src/subcommands/encrypt.rs: stream_mode", "crates/volaris-cli/src/subcommands/decrypt.rs: stream_mode", "crates/volaris-cli/src/subcommands/erase.rs: secure_erase"]}
{"id": "C99", "title": "Secrets and content do not stay in memory after a command", "statement": "When a command ends, however it ends, every heap buffer that held the secret, a master key or content of a file has been overwritten with zeros before it was released.", "quantifier": "all commands, options, key sources, file systems, files and failures", "why_tests_cant": "all command lines, file systems and failures", "anchors": ["crates/volaris-cli/src/subcommands.rs: encrypt, decrypt, pack, hash_stream", "crates/volaris-cli/src/subcommands/encrypt.rs: stream_mode", "crates/volaris-cli/src/subcommands/decrypt.rs: stream_mode", "crates/volaris-cli/src/subcommands/pack.rs: execute", "crates/volaris-cli/src/subcommands/hashing.rs: hash_stream", "crates/volaris-tools/src/pack.rs: execute", "crates/volaris-crypto/src/protected.rs: Protected"]}
{"id": "C100", "title": "Nothing secret is printed", "statement": "Whatever its result, a command prints only warnings of fixed text, questions that name files of the command line, the hash of the encrypted file (or of the files to hash), and a passphrase that it has generated; that at most once, and exactly once if it succeeds with a generated key. No key it has been given, nothing of the content of a file and no hash of a plaintext is printed.", "quantifier": "all commands, options, key sources, answers, file systems, files and failures", "why_tests_cant": "all command lines, file systems, answers and failures", "anchors": ["crates/volaris-cli/src/subcommands/encrypt.rs: stream_mode", "crates/volaris-cli/src/subcommands/decrypt.rs: stream_mode", "crates/volaris-cli/src/subcommands/pack.rs: execute", "crates/volaris-cli/src/subcommands/hashing.rs: hash_stream", "crates/volaris-cli/src/subcommands/erase.rs: secure_erase", "crates/volaris-cli/src/global/states.rs: Key::get_secret", "crates/volaris-cli/src/cli/prompt.rs"]}
{"id": "C101", "title": "Encrypted files have the size and the hash that is announced", "statement": "A successful volaris encrypt of n bytes leaves a file of 416 + n + 16*(n/1048576 + 1) bytes (without the 416 if the header is in a file of its own, which has 416 bytes). With --hash, encrypt shows the hash of the file that it leaves, decrypt that of the encrypted file it was given; without, no hash is shown.", "quantifier": "all command lines, file systems and contents, without failures, output and header not the input", "why_tests_cant": "all contents and file systems", "anchors": ["crates/volaris-cli/src/subcommands/encrypt.rs: stream_mode", "crates/volaris-cli/src/subcommands/decrypt.rs: stream_mode", "crates/volaris-cli/src/subcommands/hashing.rs: hash_stream", "crates/volaris-tools/src/encrypt.rs: execute", "crates/volaris-crypto/src/stream.rs: encrypt_file"]}
{"id": "C102", "title": "What callers are told while decrypting is right", "statement": "decrypt and unpack call on_decrypted_header with the type of an authenticated header, exactly once; unpack then asks about every path in turn and calls on_archive_info with the number of files that are going to be written.", "quantifier": "all files, keys, devices, archives, answers and schedules", "why_tests_cant": "all files, archives, answers and failures; no test passes these callbacks", "anchors": ["crates/volaris-tools/src/decrypt.rs: execute", "crates/volaris-tools/src/unpack.rs: execute"]}
{"id": "C103", "title": "A hostile file costs a bounded amount of work", "statement": "Whatever the file contains, decrypting it hashes the password at most four times, each time with one of the fixed sets of parameters, and only if it starts with a header; no more is authenticated than four keyslots and the length of the file, in at most 5 + n/(block size + 16) pieces. The key operations hash at most four times, and once more for a new key.", "quantifier": "all files, keys, devices and failures", "why_tests_cant": "all files, well-formed or not", "anchors": ["crates/volaris-crypto/src/key.rs: decrypt_master_key", "crates/volaris-crypto/src/stream.rs: decrypt_file", "crates/volaris-tools/src/key.rs: decrypt_v5_master_key_with_index", "crates/volaris-tools/src/decrypt.rs: execute", "crates/volaris-tools/src/key/add.rs: execute", "crates/volaris-tools/src/key/change.rs: execute", "crates/volaris-tools/src/key/delete.rs: execute", "crates/volaris-tools/src/key/verify.rs: execute"]}
{"id": "C104", "title": "Deleting or changing a key takes its access away", "statement": "After a key has been deleted from a file or changed, the old password does not open the file any more, with any header the file ever had.", "quantifier": "all passwords, files, histories of key operations before and after, and headers dumped in between", "why_tests_cant": "all histories of operations; no test keeps an old header", "anchors": ["crates/volaris-tools/src/key/delete.rs: execute", "crates/volaris-tools/src/key/change.rs: execute", "crates/volaris-tools/src/header/dump.rs: execute", "crates/volaris-tools/src/header/strip.rs: execute", "crates/volaris-tools/src/header/restore.rs: execute", "crates/volaris-tools/src/decrypt.rs: execute"]}
{"id": "C105", "title": "An error tells what is wrong", "statement": "Decrypt reports DeserializeHeader exactly if there is no header, DecryptMasterKey exactly if the password is wrong, DecryptData exactly if the data is not authentic, WriteData exactly if the output fails. The key operations report HeaderDeserialize, Unsupported, IncorrectKey, TooManyKeyslots and KeyHash exactly if there is no header, its version is older than 5, the password opens no keyslot, there are four keyslots already, or a password cannot be hashed.", "quantifier": "all files, headers, passwords, devices and failures", "why_tests_cant": "all files and failures; tests check that there is an error, not which", "anchors": ["crates/volaris-tools/src/decrypt.rs: execute", "crates/volaris-tools/src/key.rs: decrypt_v5_master_key_with_index", "crates/volaris-tools/src/key/add.rs: execute", "crates/volaris-tools/src/key/change.rs: execute", "crates/volaris-tools/src/key/delete.rs: execute", "crates/volaris-tools/src/key/verify.rs: execute"]}
{"id": "C106", "title": "A file that is open twice", "statement": "If the input, the output and the header file are different files, encrypt and decrypt over the open files do what they do on separate devices. If the output or the header file is the input or each other under another name, every run still ends in a result or an error, and: decrypting fails with nothing written; encrypting a file onto itself, or onto its header file, succeeds with the encryption of its own new header, which is what decrypting returns; encrypting with the output as the header file leaves the body over the start of the header.", "quantifier": "all requests, passwords, contents, random choices, and for the first part and for ending all failures", "why_tests_cant": "all contents, and files that are open twice; no test has one file under two names", "anchors": ["crates/volaris-tools/src/encrypt.rs: execute", "crates/volaris-tools/src/decrypt.rs: execute", "crates/volaris-crypto/src/stream.rs: encrypt_file, decrypt_file", "crates/volaris-cli/src/subcommands/encrypt.rs: stream_mode", "crates/volaris-cli/src/subcommands/decrypt.rs: stream_mode"]}
{"id": "C107", "title": "A command that is cut off loses nothing", "statement": "Whenever encrypt or decrypt is killed, whatever failed before, either the input is there with its content, or the files to be written are there as the finished run leaves them; for encrypt without failures that means that decrypt with the same key makes the content of the input. Whenever pack is killed, with --erase as well, the directories are there unchanged, or unpack with the same key makes them from the files it wrote. The same holds when power fails.", "quantifier": "all files, options, keys, failures, and every point at which the program can be killed, in the middle of a write as well", "why_tests_cant": "every point of every run; tests do not interrupt the program", "anchors": ["crates/volaris-cli/src/subcommands/encrypt.rs: stream_mode", "crates/volaris-cli/src/subcommands/decrypt.rs: stream_mode", "crates/volaris-cli/src/subcommands/pack.rs: execute", "crates/volaris-cli/src/subcommands/erase.rs: secure_erase", "crates/volaris-tools/src/erase.rs: execute", "crates/volaris-tools/src/erase_dir.rs: execute", "crates/volaris-tools/src/encrypt.rs: execute", "crates/volaris-tools/src/storage.rs: FileStorage"]}
{"id": "C108", "title": "A pack that is cut off leaves no plaintext behind", "statement": "Whenever pack is killed, no file but the source files has their content.", "quantifier": "all directories, options, and every point at which the program can be killed", "why_tests_cant": "every point of every run; tests do not interrupt the program", "anchors": ["crates/volaris-tools/src/pack.rs: execute", "crates/volaris-cli/src/subcommands/pack.rs: execute"]}
{"id": "C109", "title": "The message tells which error it was", "statement": "Two different errors never have the same message: not within one operation of the library, and not within one command of the program.", "quantifier": "all errors of all operations and commands", "why_tests_cant": "all pairs of errors, and all runs that end in them; the tests of the repository look at no message", "anchors": ["crates/volaris-tools/src/encrypt.rs: Error", "crates/volaris-tools/src/pack.rs: Error", "crates/volaris-tools/src/hash.rs: Error", "crates/volaris-cli/src/main.rs: main"]}
{"id": "C110", "title": "Directories are packed whatever the names in them", "statement": "Packing a directory works for every file name the file system takes; a name that cannot be stored does not cost the old output and leaves nothing readable behind.", "quantifier": "all names, directories, states of the file system and failures", "why_tests_cant": "names that are not UTF-8 are allowed on Unix but refused halfway through; the tests use ASCII names on the storage in memory", "anchors": ["crates/volaris-tools/src/pack.rs: execute (line 80)", "crates/volaris-cli/src/subcommands/pack.rs: execute"]}
{"id": "C111", "title": "A directory may have any number of files", "statement": "Packing or erasing a directory works however many files it has; where the process may not open so many, nothing is lost.", "quantifier": "all limits, directories, arguments, states of the file system and failures", "why_tests_cant": "all files of a directory are held open at once; the tests use a handful of files in memory", "anchors": ["crates/volaris-tools/src/storage.rs: read_dir (lines 161-174)", "crates/volaris-cli/src/subcommands/pack.rs: execute", "crates/volaris-tools/src/erase_dir.rs: execute"]}
{"id": "C112", "title": "Files that other programs make meanwhile are safe", "statement": "A command neither overwrites without asking nor erases without having encrypted it a file that another program makes while it runs.", "quantifier": "all actions of other programs at two moments of the run, all arguments, states of the file system and failures", "why_tests_cant": "races between a check and the use of a name depend on timing; the tests run alone, on the storage in memory", "anchors": ["crates/volaris-cli/src/cli/prompt.rs: overwrite_check", "crates/volaris-cli/src/subcommands/encrypt.rs: stream_mode", "crates/volaris-cli/src/subcommands/decrypt.rs: stream_mode", "crates/volaris-cli/src/subcommands/pack.rs: execute"]}
{"id": "C113", "title": "A command on an encrypted file that is cut off leaves it usable", "statement": "When a key command, header strip, header restore or unpack is killed, the encrypted file can still be decrypted with what decrypted it before, and nothing secret or foreign is left behind.", "quantifier": "all commands, states of the file system, failures and moments at which the program is killed, also in the middle of a write", "why_tests_cant": "the tests let every command finish; the moments that matter are single bytes of one write", "anchors": ["crates/volaris-cli/src/subcommands/key.rs: add, change, delete", "crates/volaris-cli/src/subcommands/header.rs: strip, restore", "crates/volaris-cli/src/subcommands/unpack.rs: unpack", "crates/volaris-tools/src/header/strip.rs: execute", "crates/volaris-tools/src/header/restore.rs: execute", "crates/volaris-tools/src/key/add.rs: execute"]}
{"id": "C114", "title": "Unpack reports success only if everything in the archive was written", "statement": "If unpack ends successfully, every entry of the decrypted archive that the user accepted is in the output directory with its complete content.", "quantifier": "all archives, answers, states of the file system, failing and partial system calls and schedules", "why_tests_cant": "a write that fails in the middle of one of many files is not something the tests provoke; an error dropped there would look like success", "anchors": ["crates/volaris-tools/src/unpack.rs: execute", "crates/volaris-cli/src/subcommands/unpack.rs: unpack"]}
{"id": "C115", "title": "The original goes only when the result is complete, whatever fails", "statement": "However calls of the operating system fail, are interrupted or are done in part, encrypt and decrypt by path leave the input as it was or a complete result in the output.", "quantifier": "all runs of the two commands in all states of the file system, with all sequences of failing, interrupted and partial calls, also while the input is erased", "why_tests_cant": "the tests run on a file system on which every call succeeds in full", "anchors": ["crates/volaris-cli/src/subcommands/encrypt.rs: stream_mode", "crates/volaris-cli/src/subcommands/decrypt.rs: stream_mode", "crates/volaris-cli/src/subcommands/erase.rs: secure_erase", "crates/volaris-crypto/src/stream.rs: encrypt_file", "crates/volaris-crypto/src/header.rs: write"]}
{"id": "C116", "title": "Pack reports success only if the archive has everything, whatever fails", "statement": "However calls of the operating system fail, are interrupted or are done in part, a pack that reports success has made an archive from which every packed file comes back complete.", "quantifier": "all lists of entries, contents, states of the file system, and sequences of failing, interrupted and partial calls", "why_tests_cant": "the tests run on a file system on which every call succeeds in full; the archive goes through a temporary file that may fail in its own ways", "anchors": ["crates/volaris-tools/src/pack.rs: execute", "crates/volaris-cli/src/subcommands/pack.rs: execute"]}
{"id": "C117", "title": "A key or header command that reports success has done its work, whatever fails", "statement": "However calls of the operating system fail, are interrupted or are done in part, a key add, change, delete or verify, a header dump, a header restore and a header strip that report success have left in the file exactly what they leave when nothing fails.", "quantifier": "all files, keys and ways of supplying them, states of the file system, and sequences of failing, interrupted and partial calls", "why_tests_cant": "the tests run on a file system on which every call succeeds in full, and check the bytes written by a call that takes them all", "anchors": ["crates/volaris-cli/src/subcommands/key.rs", "crates/volaris-cli/src/subcommands/header.rs", "crates/volaris-tools/src/key", "crates/volaris-tools/src/header", "crates/volaris-crypto/src/header.rs: write"]}
{"id": "C118", "title": "Every hash that is printed is that of the file, whatever fails", "statement": "However calls of the operating system fail, are interrupted or are done in part, the command hash prints for a file the hash of its whole content or no hash, and reports success only if it has printed one for every file. The same holds for the hash that encrypt and decrypt show with --hash.", "quantifier": "all lists of files, contents, states of the file system, and sequences of failing, interrupted and partial calls", "why_tests_cant": "the tests hash from memory, where every read returns all there is", "anchors": ["crates/volaris-cli/src/subcommands/hashing.rs: hash_stream", "crates/volaris-cli/src/subcommands/encrypt.rs: stream_mode", "crates/volaris-cli/src/subcommands/decrypt.rs: stream_mode", "crates/volaris-tools/src/hash.rs: execute"]}
