# volaris in Rocq: model, properties, trusted base

Model of the volaris workspace (`crates/volaris-crypto`, `crates/volaris-tools`,
`crates/volaris-cli`) in Coq 8.16.1, standard library only.

1. How the code is modelled
2. Properties: what is modelled and how each is proved
3. Trusted base: kernel, axioms, assumptions of the theorems
4. Which parts of the code are modelled and which are not
5. How outside code is modelled
6. Testing the theorems

## 1. How the code is modelled

Every definition of a model file carries the file and lines it transcribes.

| file in `rocq/theories` | models |
|---|---|
| `Bytes.v` | u8 as `Byte.byte`, byte strings as lists, little-endian integers |
| `Outcome.v` | results of functions, the state monad |
| `IO.v` | `std::io` devices: content, cursor, a fault plan, a write log; `read`, `write`, `read_exact`, `write_all`, `read_to_end`, `seek`, `rewind`, `flush` |
| `Primitives.v` | `primitives.rs`: algorithms, modes, nonce lengths, RNG consumers |
| `Crypto.v` | the abstract cryptographic environment and its laws; `key.rs` hashing, `cipher.rs` |
| `Header.v` | `header.rs`: serialization, parsing, AAD |
| `Stream.v` | `stream.rs`: STREAM-LE31 construction, `encrypt_file`, `decrypt_file` |
| `KeyModel.v` | `volaris-crypto/key.rs`: `decrypt_master_key`, `vec_to_arr`, passphrases |
| `EncDec.v` | `encrypt.rs`, `decrypt.rs` |
| `KeyOps.v` | `volaris-tools/key.rs`, `key/{add,change,delete,verify}.rs` |
| `HeaderOps.v` | `header/{dump,strip,restore}.rs` |
| `Overwrite.v`, `Hash.v` | `overwrite.rs`, `hash.rs`, `hasher.rs`, `utils.rs` |
| `FS.v` | a file system with links, and `storage.rs` (`FileStorage`) over it; threads |
| `Erase.v` | `erase.rs`, `erase_dir.rs` |
| `Archive.v` | `pack.rs`, `unpack.rs` over an abstract zip container |
| `Cli.v` | `volaris-cli`: arguments, key sources, prompts, subcommands, `main` |
| `CliTools.v` | `volaris-cli`: the functions behind `header`, `key` and `unpack` |
| `MemStore.v` | `storage.rs`: the in-memory storage of the tests |
| `Wipe.v` | the heap buffers of the library functions that handle keys and content: what is wiped and when |
| `WipeCli.v` | the buffers of `get_secret` and `get_password` |
| `WipeCmd.v` | the buffers of whole commands |
| `Clap.v` | how clap reads a command line against `cli.rs`; `main` with its exit status |
| `Watch.v` | the callbacks of decrypt and unpack |
| `Shared.v` | encrypt and decrypt on files open under two handles |
| `Messages.v` | the texts of errors |
| `Names.v` | pack with its check of names that are not UTF-8 |
| `Limits.v` | pack and erase where only so many files may be open |
| `Races.v` | encrypt, decrypt and pack with other programs acting in between |

The vocabulary of the theorem statements is in `IOSpec.v`, `HeaderSpec.v`,
`StreamSpec.v`, `FileSpec.v`, `KeySpec.v`, `ToolSpec.v`, `FSSpec.v`, `ArchiveSpec.v`,
`RestoreSpec.v`, `RestoreManySpec.v`, `CliSpec.v`, `CliToolsSpec.v`, `ChoiceSpec.v`, `DecryptSpec.v`, `PackPathSpec.v`, `WorksSpec.v`, `WorksMoreSpec.v`, `FreshSpec.v`, `PhraseSpec.v`, `MemSpec.v`, `WipeSpec.v`, `WipeCliSpec.v`, `ClapSpec.v`, `RoundSpec.v`, `WipeCmdSpec.v`, `PrintSpec.v`, `ReportSpec.v`, `WatchSpec.v`, `CauseSpec.v`, `SharedSpec.v`, `CrashSpec.v`, `MessageSpec.v`, `NamesSpec.v`, `LimitsSpec.v`, `RacesSpec.v`, `KilledSpec.v`, `WrittenSpec.v`, `FaultsSpec.v` (and `same_disk` of `FSFacts.v`).  The theorems are in
`Properties*.v`, each followed by `Print Assumptions` and by an `Example` that meets
its hypotheses.  All other files are proofs and concrete cases.

Conventions.

* A Rust function that can fail returns `outcome`: `Ok v`, `Err e`, `Panic`, or
  `Diverge` (a loop ran out of fuel; proved unreachable wherever a loop occurs).
* `&mut R`/`&mut W` arguments are threaded as device states. A device carries a
  *plan*: a list of events saying, call by call, whether the call transfers
  everything, transfers fewer bytes, is interrupted, or fails. The empty plan is the
  well-behaved device (a regular file). Quantifying over plans is quantifying over
  all schedules of short reads, short writes, interruptions and failures.
* Every write is recorded in the device's log, in order, with its offset, so
  intermediate states and crash points are expressible: a crash state is a prefix of
  the log with the last write possibly torn.
* Every call of the file system may fail (`s_faults`), and every file opened has a
  plan of its own (`s_plans`).
* The RNG is an arbitrary infinite stream of bytes.
* Cryptography is an abstract environment (record `env`): AEAD encryption and
  decryption per algorithm, Argon2id and balloon hashing as functions of numeric
  parameters, password and salt. Laws (record `env_ok`) are hypotheses of the theorems
  that need them. `ToyEnv.v` exhibits an environment that satisfies them (`toy_ok`),
  so they are consistent, and the concrete cases run in it.
* Integrity theorems are reductions: "either the result is the honest one, or here is
  a tuple the AEAD accepts although the honest run never produced it" (or a collision
  of the key derivation function). The AEAD calls of a run are recorded in a ghost
  trace for this purpose.
* Threads (`erase_dir`, directory creation in `unpack`) are interleavings of atomic
  storage operations under an arbitrary schedule.

## 2. Properties: what is modelled and how it is proved

Statements are in `properties.jsonl`, results in `MANIFEST.json`. A property that is
false of the code has a theorem `_refuted` with a concrete witness and a theorem
`_partial` with what is true instead; the manifest then says "partial".

| id | property | result | theorems in | how |
|---|---|---|---|---|
| C01 | Header round trip | proved | `PropertiesHeader.v` | symbolic evaluation per version, induction over keyslots; readers with plans by simulation |
| C02 | AAD agreement between writer and reader | proved | `PropertiesHeader.v` | case analysis on version, algorithm, mode |
| C03 | Header size is exact | proved | `PropertiesHeader.v` | length lemmas for serialize; cursor after deserialize |
| C04 | Header parser is total and rejects non-headers | proved | `PropertiesHeader.v` | independent acceptance predicate on bytes; deserialize proved equivalent, never `Panic` |
| C05 | Header fields are bound by the AAD | proved | `PropertiesHeader.v` | AAD layout lemmas; injectivity of tags |
| C06 | Re-serializing a parsed header preserves its meaning | proved | `PropertiesHeader.v` | inversion of deserialize, then serialize |
| C07 | Deprecated headers are never written | proved | `PropertiesHeader.v` | computation, all headers |
| C08 | Every keyslot survives serialization | false; true part proved | `PropertiesHeader.v` | witness; equivalence with "parameters known" |
| C09 | Stream mode round trip | proved | `PropertiesStream.v` | induction over blocks of the STREAM loop |
| C10 | Ciphertext length law | proved | `PropertiesStream.v` | induction over blocks |
| C11 | No nonce reuse within a stream | proved | `PropertiesStream.v` | trace of AEAD calls of the loop; injectivity of the little-endian counter |
| C12 | Stream integrity: truncation, reordering, splicing and extension are detected | proved | `PropertiesStream.v` | reduction by induction over blocks |
| C13 | Only authenticated plaintext is ever output | proved | `PropertiesStream.v` | reduction by induction over blocks, all devices |
| C14 | Encryption covers the whole input of any Reader | false; true part proved | `PropertiesStream.v` | witness; induction over the bytes actually read |
| C15 | Stream counter never wraps | proved | `PropertiesStream.v` | induction over blocks with the counter bound |
| C16 | I/O faults during streaming are never reported as success | proved | `PropertiesStream.v` | invariants over arbitrary plans |
| C17 | Encrypt/decrypt round trip (embedded header) | proved | `PropertiesFile.v` | composition of C01, C02, C09 through `encrypt::execute`, `decrypt::execute` |
| C18 | Encrypt/decrypt round trip (detached header) | false; true part proved | `PropertiesFile.v` | witness; composition as C17 |
| C19 | Wrong key writes nothing | proved | `PropertiesFile.v` | case analysis: the key is found before anything is written |
| C20 | File-level integrity | false; true part proved | `PropertiesFile.v` | witness (downgrade); reduction over all files |
| C21 | Failed decryption exposes only authentic data | false; true part proved | `PropertiesFile.v` | witness; reduction over all files and outcomes |
| C22 | V4 round trip | false; true part proved | `PropertiesFile.v` | witness; composition as C17 |
| C23 | Unsupported requests fail cleanly | false; true part proved | `PropertiesFile.v` | witness; evaluation |
| C24 | The encrypted body does not depend on the password | proved | `PropertiesFile.v` | two runs related |
| C25 | Output left behind by encryption is exactly header + body | false; true part proved | `PropertiesFile.v` | witness; exact content after the run |
| C26 | Adding a key | false; true part proved | `PropertiesKey.v` | witness; symbolic evaluation on parsed headers, simulation of the two decryptions |
| C27 | Changing a key | false; true part proved | `PropertiesKey.v` | witness; as C26 |
| C28 | Deleting a key | false; true part proved | `PropertiesKey.v` | witness; as C26 |
| C29 | Verify agrees with decrypt | false; true part proved | `PropertiesKey.v` | witness; equivalence of the two keyslot searches |
| C30 | Failed key operations leave the file unchanged | proved | `PropertiesKey.v` | invariants over plans |
| C31 | Any history of key operations keeps the file usable | proved | `PropertiesKey.v` | refinement to an abstract key list, induction over histories |
| C32 | Key operations are crash safe | false; true part proved | `PropertiesKey.v` | witnesses; crash prefixes of the single header write |
| C33 | Key operations touch only the header region | proved | `PropertiesKey.v` | invariants over plans |
| C34 | A header is written completely or an error is reported | false; true part proved | `PropertiesKey.v` | witnesses; devices without short writes |
| C35 | Strip removes exactly the header | proved | `PropertiesKey.v` | evaluation on devices |
| C36 | Dump, strip, restore is the identity | proved | `PropertiesKey.v` | evaluation on devices |
| C37 | Restore never overwrites data | false; true part proved | `PropertiesKey.v` | witnesses; evaluation on devices |
| C38 | A stripped file decrypts with its dumped header | proved | `PropertiesKey.v` | simulation of decryption with and without the header in the file |
| C39 | Overwrite ends with zeros of the right extent | proved | `PropertiesTools.v` | write log of `overwrite::execute` |
| C40 | Each erase pass overwrites the whole content with random data | false; true part proved | `PropertiesTools.v` | witness; write log |
| C41 | Erase overwrites the file's content before removing it | false; true part proved | `PropertiesErase.v` | witness; events of every execution |
| C42 | Erase removes exactly the target | false; true part proved | `PropertiesErase.v` | witness; file system model |
| C43 | Erasing a directory is independent of thread scheduling | false; true part proved | `PropertiesErase.v` | witnesses; induction over schedules |
| C44 | Hash covers the whole input from the start | proved | `PropertiesTools.v` | induction over blocks |
| C45 | Hash is correct for every Reader | false; true part proved | `PropertiesTools.v` | witness; induction over blocks |
| C46 | Unpack never writes outside the output directory | false; true part proved | `PropertiesArchive.v` | witness; invariant over all steps of all threads |
| C47 | Pack/unpack round trip | false; true part proved | `PropertiesRestore.v` | witnesses; induction over the listings of the trees |
| C48 | No plaintext temporary archive is left behind | false; true part proved | `PropertiesArchive.v` | witnesses; events of every run |
| C49 | Declined files are not touched by unpack | false; true part proved | `PropertiesArchive.v` | witness; invariant over all steps |
| C50 | Generated passphrases are well-formed | false; true part proved | `PropertiesTools.v` | witness; induction over the words |
| C51 | Secrets are never empty | proved | `PropertiesCli.v` | case analysis over key sources; induction over the typed inputs |
| C52 | Key source precedence | false; true part proved | `PropertiesCli.v` | witness; case analysis over command lines |
| C53 | The input file is erased only on request | false; true part proved | `PropertiesCli.v` | witnesses; events of every run of pack |
| C54 | hex_encode is faithful | proved | `PropertiesTools.v` | induction on bytes |
| C55 | Key material conversion keeps every byte | proved | `PropertiesKey.v` | lists |
| C56 | Every master key is usable | false; true part proved | `PropertiesKey.v` | witness; evaluation |
| C57 | Encrypting a file onto itself is prevented | false; true part proved | `PropertiesCli.v` | witnesses; events of every run |
| C58 | Yes/no prompts | proved | `PropertiesCli.v` | induction over the lines of standard input |
| C59 | Packing leaves other files alone | proved | `PropertiesArchive.v` | invariant over all steps |
| C60 | Decrypting never panics | proved | `PropertiesCli.v` | no-panic rules for every combinator |
| C61 | A file is erased after encrypting only if it can be got back | proved | `PropertiesCli.v` | symbolic run of the command; composition with C17, C18 |
| C62 | A wrong key does not cost the encrypted file | proved | `PropertiesCli.v` | symbolic run; composition with C19, C21 |
| C63 | Every subcommand can be used | false | `PropertiesCli.v` | all command lines |
| C64 | The command line program does not panic | false; true part proved | `PropertiesCli.v` | witnesses; no-panic rules |
| C65 | Nothing is overwritten without consent | false; true part proved | `PropertiesCli.v` | witness; runs up to the question |
| C66 | A failed decryption leaves the old output | false; true part proved | `PropertiesCli.v` | witness; two-stage invariant of every run |
| C67 | Directories are erased only with consent | proved | `PropertiesCli.v` | runs up to the question |
| C68 | Hashes printed are the files' hashes | proved | `PropertiesCli.v` | induction over the files |
| C69 | Erasing after packing does not lose the archive | false; true part proved | `PropertiesCli.v`, `PropertiesPackPath.v` | witness; frame of erasing composed with C86 |
| C70 | A key on standard input is taken whole | false; true part proved | `PropertiesCli.v` | witness; run up to the key |
| C71 | Header details are read-only and complete | proved | `PropertiesCliTools.v` | symbolic run; the lines determine the header; the lines against tables |
| C72 | Dumping a header leaves the encrypted file | false; true part proved | `PropertiesCliTools.v` | witness; symbolic run |
| C73 | Strip and restore change the header area only | proved | `PropertiesCliTools.v` | symbolic run with any device |
| C74 | Dump, strip and restore by path are inverse | proved | `PropertiesCliTools.v` | composition of three runs |
| C75 | Key commands touch the header only | proved | `PropertiesCliTools.v` | frames for every step; simulation by the key operation |
| C76 | Key commands refuse old files before asking for keys | proved | `PropertiesCliTools.v` | run up to the version check |
| C77 | Key commands in any order | proved | `PropertiesCliTools.v` | induction over sessions; composition with C31 |
| C78 | Key changes ignore VOLARIS_KEY | proved | `PropertiesCliTools.v` | case analysis over matches |
| C79 | Unpacking overwrites only with consent | false; true part proved | `PropertiesCliTools.v` | witness; answers traced to the archive; composition with C49 |
| C80 | Unpacking does not panic | false; true part proved | `PropertiesCliTools.v` | witnesses; no-panic rules |
| C81 | Unpacking by path is confined | proved | `PropertiesCliTools.v` | composition with C46, C48 |
| C82 | Password hash parameters | proved | `PropertiesChoice.v` | case analysis over versions |
| C83 | Files are protected as asked | proved | `PropertiesChoice.v` | symbolic run of encrypt; header read back |
| C84 | Decryption is exact | proved | `PropertiesDecrypt.v` | symbolic run with any device; uniqueness of the plaintext |
| C85 | Old files still decrypt | proved | `PropertiesDecrypt.v` | parser run on the layout; composition with C84 |
| C86 | Pack and unpack by path give the directories back | proved | `PropertiesPackPath.v` | inversion of the run of pack to the round trip of C47; the frame of what follows, erasing one directory after the other included |
| C87 | Commands work when nothing is in the way | proved | `PropertiesWorks.v` | running the commands forward, with C1 and C84 for the library |
| C88 | No key and nonce are used twice, ever | proved | `PropertiesFresh.v` | accounting of every random byte drawn; frames for everything else |
| C89 | Generated passphrases are not lost; numbers are read as written | proved | `PropertiesPhrase.v` | induction over the digits; frames of what is shown; composition with C61 |
| C90 | Erase and pack work when nothing is in the way | proved | `PropertiesWorksMore.v` | running the commands forward; the invariant of the erasing threads; induction over the directories |
| C91 | The tests' storage behaves like the real one | false; true part proved | `PropertiesMem.v` | one abstract store under both; simulation call by call, both ways at the boundary |
| C92 | Secrets and content do not stay in memory | false; true part proved | `PropertiesWipe.v` | the programs again with their buffers, proved to be the same; rules for what each step may leave behind |
| C93 | Secrets asked for do not stay in memory | false; true part proved | `PropertiesWipeCli.v` | the program again with its buffers, proved to be the same; induction over the attempts |
| C94 | Inputs that cannot be meant are refused first | proved | `PropertiesCli.v` | symbolic run of the first steps |
| C95 | A command line means what the interface says | proved | `PropertiesClap.v` | induction over the words both ways, with the state of the reader |
| C96 | A flag needs no value | false; true part proved | `PropertiesClap.v` | the reader fails on any line that ends so; rewriting the arguments of the program |
| C97 | The exit status tells whether the work was done | false; true part proved | `PropertiesClap.v` | rules for how each step may exit |
| C98 | There and back from the command line | proved | `PropertiesRound.v` | composition of C87, C61, C62 and C95; frames of the first command |
| C99 | Secrets and content do not stay in memory after a command | false; true part proved | `PropertiesWipeCmd.v` | the commands again with their buffers, proved to be the same; C93 for the secret, then the rules of C92 |
| C100 | Nothing secret is printed | proved | `PropertiesPrint.v` | a graded rule for every step: which notes, and how many passphrases |
| C101 | Encrypted files have the size and the hash that is announced | proved | `PropertiesReport.v` | the run of C61 with the hash step split off; C10 for the lengths; rules of C100 for the notes |
| C102 | What callers are told while decrypting is right | false; true part proved | `PropertiesWatch.v` | the programs again with their events, proved to be the same; rules for the events of each step; C04 for which headers there are |
| C103 | A hostile file costs a bounded amount of work | proved | `PropertiesWatch.v` | rules that count the events of each step; induction over the blocks read |
| C104 | Deleting or changing a key takes its access away | false; true part proved | `PropertiesRevoke.v` | the bytes past the header are the same after any history (C31), so C36 and C38 apply to the old header; C31 for the file alone |
| C105 | An error tells what is wrong | false; true part proved | `PropertiesCause.v` | each step of the programs in turn; C84 excludes the other errors for the converse |
| C106 | A file that is open twice | proved | `PropertiesShared.v` | the programs once over ports, so that one simulation ties open files to devices as long as they are apart; a short input is read at once, so one that was just written is tied again after the header |
| C107 | A command that is cut off loses nothing | false; true part proved | `PropertiesCrash.v` | a relation through every layer shows the log tells all; then a cut of the log is a cut of the writes, which touch only the targets, or has all the writes, and erasing touches only the input; erasing directories only takes away, so what is there at the end of it was there all the time |
| C108 | A pack that is cut off leaves no plaintext behind | false; true part proved | `PropertiesCrash.v` | by computation; for every run, the log up to the last write of the archive is a cut of the whole log |
| C109 | The message tells which error it was | false; true part proved | `PropertiesMessage.v` | cases; a rule for every step says in which errors it can end, and the list of all errors is compared by computation |
| C110 | Directories are packed whatever the names in them | false; true part proved | `PropertiesNames.v` | a text cut at an ASCII byte is two texts, so paths are text exactly if their names are; resolving keeps that, hence listing does; the two versions then agree step by step |
| C111 | A directory may have any number of files | false; true part proved | `PropertiesLimits.v` | by computation; every file of the tree is in the listing under its own path, so a successful listing has as many files open; the two versions agree step by step where no step reaches the limit |
| C112 | Files that other programs make meanwhile are safe | false; true part proved | `PropertiesRaces.v` | by computation; the check comes before the others, and the state when erasing starts is related to the one the encryption left |
| C113 | A command on an encrypted file that is cut off leaves it usable | false; true part proved | `PropertiesKilled.v` | the log of a key or header command is one write at the start of the file, so being cut off is writing a prefix of it; with C32 for the operation of the library; by computation; changes are confined for every prefix of the log of unpack |
| C114 | Unpack reports success only if everything in the archive was written | false; true part proved | `PropertiesWritten.v` | the loop over the entries keeps that those before are written, as a file is only changed again through an entry that leads to it; io::copy to a device that may fail writes all or reports; by computation |
| C115 | The original goes only when the result is complete, whatever fails | false; true part proved | `PropertiesFaults.v` | by computation; with the results on the library for all behaviours of the devices (C14, C34, C84), following the plans of the files from the state to the handles; erasing, whatever fails, changes no other file |
| C116 | Pack reports success only if the archive has everything, whatever fails | false; true part proved | `PropertiesFaultsPack.v` | by computation; reading to a short read gives the rest of the file if no call is done in part, the temporary file then has the whole archive or an error is reported, and the encryption of it is that of the library for all behaviours of the devices (C14, C34); by path as for C69, with the file in the temporary directory that may be left |
| C117 | A key or header command that reports success has done its work, whatever fails | false; true part proved | `PropertiesFaultsTools.v` | by computation; every step that succeeds on a device that fails succeeds on one that does not, with the same bytes and position, as long as no call is done in part; with C73 and C75 for the runs by path |
| C118 | Every hash that is printed is that of the file, whatever fails | false; true part proved | `PropertiesFaultsHash.v`, `PropertiesFaultsShown.v` | by computation; by induction on the list of files, with C45 for each of them; the steps before keep that calls are not done in part, and erasing leaves the other files |

## 3. Trusted base

### 3.1 Kernel and axioms

* Coq's kernel, version 8.16.1, and `coqchk` of the same version.
* `Print Assumptions` after each of the 304 theorems in `Properties*.v` reports
  **Closed under the global context**: no theorem uses any axiom, neither one of the
  standard library nor one of ours. The theorems are listed at the end of this section.
* No `Axiom`, `Parameter`, `Variable` or `Hypothesis` outside sections, no `Admitted`,
  no functors or module types of our own, no kernel check switched off, no plugins.
* `coqchk -o` on all modules lists, besides nothing of ours, seven entries that are
  parameters of a module type in the standard library's `Coq.ssr.ssrunder`
  (`Under_rel.Under_rel`, `Under_rel_from_rel`, `Under_relE`, `Over_rel`, `over_rel`,
  `over_rel_done`, `under_rel_done`). The file is loaded through the standard library;
  no theorem depends on it.

### 3.2 What the theorems assume

Assumptions are hypotheses of the theorems, never axioms. Besides "no failures" or
"well-behaved device", which the statements name, they are the following.

* `env_ok` (`Crypto.v`): AEAD decryption inverts encryption; a ciphertext is 16 bytes
  longer than its plaintext; encrypting at most one block with at most 1000 bytes of
  AAD succeeds; key derivation yields 32 bytes; the block counter of STREAM-LE31 is
  below 2^31. No security of the cryptography is assumed: where it matters, the
  conclusion offers a forgery or collision as an alternative.
* `zip_ok` (`ArchiveSpec.v`; C47 only): an archive of entries with distinct names
  reads back as written.
* `incremental` (`ToolSpec.v`; C44, C45): feeding a hasher two pieces is feeding it
  their concatenation. `Blake3Hasher` satisfies it by definition.
* `inodes_ok`, `tree_ok` (`ArchiveSpec.v`, `FSSpec.v`): the file system is well formed.
* `matches_ok` (`Cli.v`): what clap guarantees about arguments. `Clap.v` is a model of
  clap's reader for which it is proved (C95).
* `alias_calm` (`CliSpec.v`; C60, C64): encrypting or decrypting with one file open
  under two handles does not panic. Otherwise what it does is left open (`ce_alias`).
  C106 proves it of the library over shared files (`Shared.v`), as the commands call it.

### 3.3 Theorems, all closed under the global context

* `PropertiesArchive.v`: `C46_confined_refuted`, `C46_confined_partial`, `C48_pack_temp_refuted`, `C48_unpack_temp_refuted`, `C48_pack_temp_partial`, `C48_pack_temp_left`, `C48_unpack_temp_partial`, `C48_unpack_temp_left`, `C49_declined_refuted`, `C49_declined_partial`, `C49_accepted_only`, `C59_pack_changes_nothing_else`
* `PropertiesCause.v`: `C105_cause_refuted`, `C105_decrypt_partial`, `C105_decrypt_tells_partial`, `C105_keys_partial`, `C105_keys_tell_partial`
* `PropertiesChoice.v`: `C82_hash_parameters`, `C83_encrypt_as_asked`, `C83_key_commands_as_asked`
* `PropertiesClap.v`: `C95_line`, `C95_matches`, `C95_all`, `C96_flag_last_refuted`, `C96_swallowed_refuted`, `C96_values_partial`, `C97_declined_refuted`, `C97_zero_partial`, `C97_forced_partial`, `C97_failed_partial`
* `PropertiesCli.v`: `C51_secret_never_empty`, `C52_key_source_refuted`, `C52_key_source_partial`, `C53_erase_on_request_refuted`, `C53_always_erased_refuted`, `C53_pack_partial`, `C57_onto_itself_refuted`, `C57_header_refuted`, `C57_same_text_partial`, `C57_spared_partial`, `C58_answers`, `C60_decrypt_never_panics`, `C61_encrypted_before_erased`, `C62_decrypt_keeps_input`, `C63_unpack_refuted`, `C64_phrase_refuted`, `C64_debug_refuted`, `C64_no_other_panic_partial`, `C64_other_commands_partial`, `C65_output_consent`, `C65_declined_refuted`, `C66_old_output_refuted`, `C66_only_output_partial`, `C67_erase_directory_consent`, `C68_hash_prints`, `C69_pack_erase_refuted`, `C70_stdin_key_refuted`, `C70_stdin_key_partial`, `C94_same_text`, `C94_pack`
* `PropertiesCliTools.v`: `C71_details`, `C71_details_tell`, `C71_details_text`, `C72_dump_refuted`, `C72_dump_partial`, `C73_strip`, `C73_restore`, `C74_dump_strip_restore`, `C75_key_commands`, `C75_key_operation`, `C76_old_files_refused`, `C77_sessions`, `C77_sessions_exist`, `C78_environment_unused`, `C78_sources`, `C78_default_sources`, `C79_unpack_consent_refuted`, `C79_unpack_consent_partial`, `C80_unpack_panics_refuted`, `C80_unpack_name_refuted`, `C80_unpack_panics_partial`, `C81_unpack_confined`
* `PropertiesCrash.v`: `C107_log_tells_all`, `C107_encrypt_killed`, `C107_decrypt_killed`, `C107_nothing_lost`, `C107_pack_killed`, `C107_power_lost_refuted`, `C108_archive_left_refuted`, `C108_every_pack`
* `PropertiesDecrypt.v`: `C84_decrypt_sound`, `C84_decrypt_complete`, `C84_detached_complete`, `C85_old_files`
* `PropertiesErase.v`: `C41_overwrite_before_remove_refuted`, `C41_nothing_overwritten`, `C41_dropped_then_removed_partial`, `C42_exactly_target_refuted`, `C42_exactly_target_partial`, `C43_nothing_else_refuted`, `C43_schedule_independent_refuted`, `C43_every_schedule_partial`, `C43_scope`
* `PropertiesFaults.v`: `C115_half_refuted`, `C115_header_cut_refuted`, `C115_encrypt_kept_partial`, `C115_decrypt_kept_partial`, `C115_decrypt_header_kept_partial`
* `PropertiesFaultsHash.v`: `C118_two_alike_refuted`, `C118_printed_partial`
* `PropertiesFaultsPack.v`: `C116_half_packed_refuted`, `C116_pack_complete_partial`, `C116_pack_erase_partial`
* `PropertiesFaultsShown.v`: `C118_shown_cut_refuted`, `C118_encrypt_shown_partial`, `C118_decrypt_shown_partial`
* `PropertiesFaultsTools.v`: `C117_key_cut_refuted`, `C117_deleted_opens_refuted`, `C117_dump_cut_refuted`, `C117_key_done_partial`, `C117_dump_done_partial`, `C117_restore_done_partial`, `C117_strip_done_partial`
* `PropertiesFile.v`: `C17_file_round_trip`, `C18_detached_round_trip_refuted`, `C18_detached_round_trip_partial`, `C19_wrong_key_writes_nothing`, `C20_file_integrity_refuted`, `C20_file_integrity_partial`, `C21_only_authentic_file_output_refuted`, `C21_only_authentic_file_output_partial`, `C22_v4_round_trip_refuted`, `C22_v4_round_trip_partial`, `C22_v4_content_lost_partial`, `C23_unsupported_request_refuted`, `C23_unsupported_request_partial`, `C24_body_independent_of_key`, `C25_output_exact_refuted`, `C25_output_exact_partial`
* `PropertiesFresh.v`: `C88_library`, `C88_paths`
* `PropertiesHeader.v`: `C01_header_round_trip`, `C02_aad_agreement`, `C03_header_size_exact`, `C04_parser_total`, `C05_aad_binds`, `C06_reserialize`, `C07_deprecated_never_written`, `C08_slots_survive_refuted`, `C08_slots_survive_partial`
* `PropertiesKey.v`: `C26_add_key_refuted`, `C26_add_key_partial`, `C27_change_key_refuted`, `C27_change_key_partial`, `C28_delete_key_refuted`, `C28_delete_key_partial`, `C29_verify_agrees_refuted`, `C29_verify_agrees_partial`, `C30_failed_op_changes_nothing`, `C31_key_history`, `C31_key_history_predicted`, `C32_crash_safety_refuted`, `C32_crash_safety_change_refuted`, `C32_crash_safety_delete_refuted`, `C32_crash_safety_partial`, `C33_op_touches_header_only`, `C34_header_complete_refuted`, `C34_encrypt_complete_refuted`, `C34_header_complete_partial`, `C34_encrypt_complete_partial`, `C35_strip_exact`, `C36_dump_strip_restore`, `C37_restore_safe_refuted`, `C37_restore_short_read_refuted`, `C37_restore_safe_partial`, `C38_stripped_file_decrypts`, `C55_key_wrapping`, `C56_every_master_key_refuted`, `C56_every_master_key_partial`
* `PropertiesKilled.v`: `C113_key_killed_refuted`, `C113_strip_killed_refuted`, `C113_archive_left_refuted`, `C113_key_rest`, `C113_strip_rest`, `C113_restore_tail`, `C113_key_killed_partial`, `C113_unpack_killed`
* `PropertiesLimits.v`: `C111_any_number_refuted`, `C111_never_packed`, `C111_output_lost`, `C111_not_erased`, `C111_enough_pack_partial`, `C111_enough_erase`
* `PropertiesMem.v`: `C91_write_refuted`, `C91_erase_length_refuted`, `C91_boundary_partial`, `C91_sequences_partial`, `C91_same_erase`
* `PropertiesMessage.v`: `C109_library`, `C109_message_tells_refuted`, `C109_message_tells_partial`
* `PropertiesNames.v`: `C110_same_programs`, `C110_library_same`, `C110_any_name_refuted`, `C110_never_packed`, `C110_library_never`, `C110_left_readable`, `C110_pack_works_partial`
* `PropertiesPackPath.v`: `C86_pack_unpack_by_path`, `C69_pack_erase_partial`
* `PropertiesPhrase.v`: `C89_numbers`, `C89_phrase_shown`, `C89_phrase_recovers`
* `PropertiesPrint.v`: `C100_only_allowed`, `C100_phrase_once`
* `PropertiesRaces.v`: `C112_overwritten_refuted`, `C112_erased_refuted`, `C112_packed_refuted`, `C112_same_programs`, `C112_output_consent`, `C112_erases_current`, `C112_kept_partial`
* `PropertiesReport.v`: `C101_size`, `C101_encrypt_hash`, `C101_decrypt_hash`
* `PropertiesRestore.v`: `C47_absolute_refuted`, `C47_parent_refuted`, `C47_backslash_refuted`, `C47_short_read_refuted`, `C47_round_trip_partial`
* `PropertiesRevoke.v`: `C104_revoked_refuted`, `C104_old_header`, `C104_file_alone_partial`
* `PropertiesRound.v`: `C98_there_and_back`
* `PropertiesShared.v`: `C106_same_programs`, `C106_different_files`, `C106_calls`, `C106_left_open`, `C106_decrypt_onto_itself`, `C106_onto_input`, `C106_comes_back`, `C106_over_header`
* `PropertiesStream.v`: `C09_stream_round_trip`, `C10_ciphertext_length`, `C10_ciphertext_bytes`, `C11_nonces_unique`, `C12_stream_integrity`, `C13_only_authentic_output`, `C14_whole_input_refuted`, `C14_whole_input_partial`, `C15_counter_never_wraps`, `C16_io_faults_reported`
* `PropertiesTools.v`: `C39_overwrite_zeroes`, `C40_random_passes_refuted`, `C40_single_zero_pass_partial`, `C44_hash_whole_input`, `C44_hash_blake3`, `C45_hash_short_reads_refuted`, `C45_hash_of_prefix_partial`, `C50_passphrase_panics_refuted`, `C50_passphrase_shape_partial`, `C50_passphrase_reaches_all_partial`, `C54_hex_encode_faithful`
* `PropertiesWatch.v`: `C102_same_programs`, `C102_authentic_refuted`, `C102_count_refuted`, `C102_header_partial`, `C102_once_partial`, `C102_unpack_partial`, `C103_decrypt`, `C103_keys`
* `PropertiesWipe.v`: `C92_same_programs`, `C92_keys`, `C92_key_operations`, `C92_encrypt_partial`, `C92_decrypt_partial`, `C92_failure_refuted`, `C92_one_piece_refuted`, `C92_hash_refuted`
* `PropertiesWipeCli.v`: `C93_same_program`, `C93_handed_on`, `C93_success_partial`, `C93_failure_partial`, `C93_wiped_refuted`
* `PropertiesWipeCmd.v`: `C99_same_programs`, `C99_keys_partial`, `C99_encrypt_partial`, `C99_decrypt_partial`, `C99_pack_partial`, `C99_exit_refuted`, `C99_pack_refuted`, `C99_hash_refuted`
* `PropertiesWorks.v`: `C87_encrypt_works`, `C87_decrypt_works`, `C87_detached_works`, `C87_old_files_by_path`
* `PropertiesWorksMore.v`: `C90_erase_file`, `C90_erase_directory`, `C90_pack_works`, `C90_pack_erase_works`
* `PropertiesWritten.v`: `C114_dropped_refuted`, `C114_replaced_refuted`, `C114_unpack_written`, `C114_cli_written`

## 4. Which parts of the code are modelled

| source | modelled | not modelled |
|---|---|---|
| `volaris-crypto/src/primitives.rs` | all constants and functions | `Display` impls, `ALGORITHMS` list |
| `.../cipher.rs` | `initialize`, `encrypt`, `decrypt` | the AEADs themselves (abstract) |
| `.../key.rs` | everything | Argon2, balloon hashing (abstract), the word list's contents (any list), `Protected` |
| `.../header.rs` | everything | error texts; `Display` impls  |
| `.../stream.rs` | everything; wiping of buffers in `Wipe.v` (C92) | spinner (`visual` feature) |
| `.../protected.rs` | values; the drop of heap buffers in `Wipe.v` (C92), `WipeCli.v` (C93), `WipeCmd.v` (C99) | copies on the stack and what moving a value leaves behind; `Debug` |
| `.../visual.rs`, `lib.rs` | nothing | no behaviour without the `visual` feature |
| `volaris-tools/src/{encrypt,decrypt}.rs` | `execute`; the callback in `Watch.v` (C102) | tests |
| `.../key.rs`, `key/*.rs` | everything | tests |
| `.../header/*.rs` | everything | |
| `.../overwrite.rs`, `erase.rs`, `erase_dir.rs`, `hash.rs`, `hasher.rs` | everything | tests |
| `.../utils.rs` | `hex_encode`, the re-exports used outside tests | fixed seeds used in tests |
| `.../pack.rs` | `execute`; its own buffers in `WipeCmd.v` (C99) | the zip container (abstract) and its buffers; the check of line 80 (names that are not UTF-8) is only in `Names.v` (C110), which proves both versions equal when all names are text |
| `.../unpack.rs` | `execute`; the callbacks in `Watch.v` (C102) | the zip container |
| `.../storage.rs` | `FileStorage`, `Entry`, `create_temp_file`; `InMemoryStorage`, which is compiled for tests only (`MemStore.v`, C91) | the tests, the unread field `len` of `InMemoryFile`; that a process may have only so many files open is only in `Limits.v` (C111) |
| `volaris-cli/src/cli.rs`, `main.rs` | definitions of all arguments, dispatch; how clap splits a command line (`Clap.v`, from clap's documentation), exit status | help, version and error output; `-ek` |
| `.../cli/prompt.rs`, `global/*.rs` | everything | wording of warnings |
| `.../subcommands.rs`, `subcommands/{encrypt,decrypt,erase,hashing,pack}.rs` | everything | wording of messages |
| `.../subcommands/{header,key,unpack}.rs` | everything; not reachable from the command line: `cli.rs` defines no subcommands `header` and `key`, and `unpack` panics before (C63) | wording of messages other than of `header details`; what the questions of unpack print |

## 5. How outside code is modelled

What follows is read from the documentation and sources of Rust's standard library and
of the crates as known to us; none of it is in `/repo`, and none of it could be run.

* `std::io`: `read_exact`, `write_all`, `read_to_end` are std's default loops
  (retry on `Interrupted`, `UnexpectedEof`, `WriteZero`). A short `read` returns at least
  one byte unless at the end. Writing beyond the end fills the gap with zeros. `flush`
  and `seek` fail or do what they should.
* File system (`FS.v`): POSIX names, directories, regular files with inodes, symbolic
  links (at most 40 followed), `.` and `..`, a current directory. Not modelled:
  permissions, special files, mounts, other processes (two moments: `Races.v`, C112), limits (open files: `Limits.v`, C111), a trailing slash after the name
  of a file. A path of zero bytes denotes nothing. `fs::remove_dir_all` is one step.
  `create_dir_all` is std's recursion. `walkdir` lists the directory and everything
  below it without following links, in arbitrary order.
* Encrypting and decrypting on open files (`run_world`) reads and writes through
  handles on different files; their writes appear in the log one file after the other.
  Where the command line can open one file twice, the effect on that file is left to
  an arbitrary oracle (`ce_alias`). `Shared.v` has the library again over handles that
  may share a file, and C106 proves that the oracle can be that; for pack with its
  output as the header file it stays an oracle.
* A program that is killed (`CrashSpec.v`) leaves the files as after a part of its
  changes: a prefix, the last write possibly in part, writes to different files within
  one call in any order (the model logs them one file after the other). After a loss
  of power, any writes may be missing, as nothing in /repo synchronises a file.
* aead 0.5 `StreamLE31`: nonce prefix, then little-endian `position | last << 31`;
  refuses to go on at the counter's maximum, which is a parameter below 2^31.
  `GenericArray` conversions panic on a wrong length.
* zip 2.2.0 (`Archive.v`): `is_dir` tests for a slash or backslash at the end,
  `add_directory` appends a slash, `enclosed_name` keeps a relative path that never
  leads above its start, names used twice are refused, dropping an unfinished writer
  completes the archive. The archive is written in one piece, so a failing write can
  show as another error than the real one; the function returns in either case.
  Reading an entry yields arbitrary bytes and may fail at the end. The archive is
  decoded once from the temporary file. Names longer than 65535 bytes are not
  modelled.
* clap 4.5: arguments without an action take a value; a default value makes
  `contains_id` true; `get_flag` panics on an argument that is not a flag; in debug
  builds asking for an unknown argument panics. Values are text. An option is given at
  most once; a value that starts with `-` (other than `-`) has to be joined to its
  option; `--` ends the options; where a positional argument with many values is
  followed by one more, the last word (before an option or the end) goes to the latter.
  Error exits of clap are one outcome (`FClap`), which does not touch the disk.
* rpassword: returns the lines typed, or an error. Standard input is a list of bytes
  and reading it does not fail; printing does not fail.
* rand: `gen_range(0..=n)` is an arbitrary number up to and with `n`; the 16 characters
  of a temporary name come from an arbitrary function of the RNG.
* Integers: lengths are unbounded naturals; `usize` and `u64` do not overflow. `i32`
  parsing is modelled with its range.
* Errors are distinguished as far as the code's error enums do. Their texts are modelled
  for the enums of volaris-tools and for the fixed messages of the program
  (`Messages.v`, C109), not for header.rs of volaris-crypto.

## 6. Testing the theorems

`seeded/LOG.jsonl` records edits made to the model in a scratch copy, each the image of
a realistic bug, with the theorems that then failed and those that were tightened.
