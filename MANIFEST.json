{"claims": [
{"property": "C01", "status": "proved", "theorems": ["C01_header_round_trip"], "note": "For every well-formed V3/V4/V5 header and every reader standing on its bytes; also on readers with short reads, interruptions and faults when they succeed."},
{"property": "C02", "status": "proved", "theorems": ["C02_aad_agreement"], "note": "All readers."},
{"property": "C03", "status": "proved", "theorems": ["C03_header_size_exact"], "note": ""},
{"property": "C04", "status": "proved", "theorems": ["C04_parser_total"], "note": "Acceptance is characterised on bytes by 'readable' (HeaderSpec.v), on any well-behaved reader; no panic on any reader."},
{"property": "C05", "status": "proved", "theorems": ["C05_aad_binds"], "note": ""},
{"property": "C06", "status": "proved", "theorems": ["C06_reserialize"], "note": ""},
{"property": "C07", "status": "proved", "theorems": ["C07_deprecated_never_written"], "note": ""},
{"property": "C08", "status": "partial", "theorems": ["C08_slots_survive_refuted", "C08_slots_survive_partial"], "note": "REFUTED as listed: a keyslot whose hash_algorithm number is not one of the five known ones is written with the identifier of an empty slot and lost. Proved: slots survive if and only if all carry known parameters."},
{"property": "C09", "status": "proved", "theorems": ["C09_stream_round_trip"], "note": "Hypotheses: the AEAD laws env_ok, AAD of at most 1000 bytes, well-behaved devices (see C14 for short reads)."},
{"property": "C10", "status": "proved", "theorems": ["C10_ciphertext_length", "C10_ciphertext_bytes"], "note": "For a well-behaved reader and any writer."},
{"property": "C100", "status": "proved", "theorems": ["C100_only_allowed", "C100_phrase_once"], "note": "Messages of fixed text are one kind of note. The text of errors is built from the error value, which holds no bytes of keys or files (the type cli_error). What the terminal itself echoes is not modelled."},
{"property": "C101", "status": "proved", "theorems": ["C101_size", "C101_encrypt_hash", "C101_decrypt_hash"], "note": "Without failures of the system; output and header are not the input. For decrypt a release build (C63)."},
{"property": "C102", "status": "partial", "theorems": ["C102_same_programs", "C102_authentic_refuted", "C102_count_refuted", "C102_header_partial", "C102_once_partial", "C102_unpack_partial"], "note": "REFUTED: on_decrypted_header is called with the header as it was read, before anything is authenticated, so an altered file can have another type told; on_archive_info counts directories. Proved: the header is told exactly when there is one, once, and before any work; the paths and the number of those accepted follow. At which path a callback that panics does so is not modelled. The command line program passes no such callback but on_zip_file."},
{"property": "C103", "status": "proved", "theorems": ["C103_decrypt", "C103_keys"], "note": "For unpack see the first part of C102_unpack_partial. The memory and time of one evaluation of a password hash are those of the table in ChoiceSpec.v (C82). Reading a file of one piece takes as much memory as the file."},
{"property": "C104", "status": "partial", "theorems": ["C104_revoked_refuted", "C104_old_header", "C104_file_alone_partial"], "note": "REFUTED: the master key never changes, so a header dumped before a key was deleted or changed gives that key its access back, for every file and every history of key operations (C104_old_header). Proved: without such a header the removed password opens nothing, up to a crossing of passwords as in C31."},
{"property": "C105", "status": "partial", "theorems": ["C105_cause_refuted", "C105_decrypt_partial", "C105_decrypt_tells_partial", "C105_keys_partial", "C105_keys_tell_partial"], "note": "REFUTED: a wrong password for a file of versions 1 to 3, and an output that fails in stream mode, are reported as DecryptData, the error for damaged data; for an all-zero master key see C56. Proved: the exact cause of every error of decrypt and of the key operations, and which error each cause gives."},
{"property": "C106", "status": "proved", "theorems": ["C106_same_programs", "C106_different_files", "C106_calls", "C106_left_open", "C106_decrypt_onto_itself", "C106_onto_input", "C106_comes_back", "C106_over_header"], "note": "The content of a file encrypted onto itself under another name is lost (the command empties it before it is read, C57); the program exits successfully. The exact contents are for system calls that do not fail. pack with its output as the header file is left open."},
{"property": "C107", "status": "partial", "theorems": ["C107_log_tells_all", "C107_encrypt_killed", "C107_decrypt_killed", "C107_nothing_lost", "C107_pack_killed", "C107_power_lost_refuted"], "note": "REFUTED for a loss of power: the output is never synchronised before the input is erased, so both contents can be lost. Proved for a program that is killed, for every state a cut of its log of changes can leave, writes to different files in any order. Pack with --erase is covered for the directories of C69. The input must not be among the files written (see C57)."},
{"property": "C108", "status": "partial", "theorems": ["C108_archive_left_refuted", "C108_every_pack"], "note": "REFUTED: the archive is a file in the directory for temporary files until it is erased at the end, and killing the program leaves it there in plain. That is so in every successful run (C108_every_pack). For runs that end see C48."},
{"property": "C109", "status": "partial", "theorems": ["C109_library", "C109_message_tells_refuted", "C109_message_tells_partial"], "note": "REFUTED: \"Unable to read data\" is what pack --hash says both when a source cannot be read, and no output is made, and when only the hash of the complete output fails; encrypt --hash likewise with \"Unable to reset cursor position\". Proved: these two pairs are the only ones of any command, and within each operation of the library every error has its own text. Texts that hold a name or are chosen by a failing system call are left out (cli_text gives None), as is what follows \"Caused by\"."},
{"property": "C11", "status": "proved", "theorems": ["C11_nonces_unique"], "note": "For every device behaviour and outcome. That a non-final block is never taken for a final one is C12."},
{"property": "C110", "status": "partial", "theorems": ["C110_same_programs", "C110_library_same", "C110_any_name_refuted", "C110_never_packed", "C110_library_never", "C110_left_readable", "C110_pack_works_partial"], "note": "REFUTED: one file name that is not UTF-8 makes pack fail after the old output is emptied, and what was added before it stays unencrypted in the directory for temporary files. Proved: it is so whenever such a name is met and nothing else fails (library), no run with such a name below a directory succeeds (command, without --header; library, always), and where all names are text the program is the one the other properties are about."},
{"property": "C111", "status": "partial", "theorems": ["C111_any_number_refuted", "C111_never_packed", "C111_output_lost", "C111_not_erased", "C111_enough_pack_partial", "C111_enough_erase"], "note": "REFUTED: read_dir keeps every file of a tree open, so packing a directory with more files than a process may have open fails, after the old output is emptied (C111_output_lost: always, when the command would have succeeded otherwise). Erasing such a directory fails without changing anything. Where enough may be open, the programs with the limit are the ones the other properties are about; for pack only without --erase. The descriptors of the threads of erase_dir, of key files and of hashing are not counted."},
{"property": "C112", "status": "partial", "theorems": ["C112_overwritten_refuted", "C112_erased_refuted", "C112_packed_refuted", "C112_same_programs", "C112_output_consent", "C112_erases_current", "C112_kept_partial"], "note": "REFUTED: a file that another program makes under the output's name while the password is typed is overwritten without a question, and one saved under the input's name while it is encrypted is erased without having been encrypted. Proved: what exists at the start is safe from overwriting unless the user agrees, erasing hits what has the name at that time and nothing else, and the content opened as the input is kept encrypted if others leave the output alone. Others may act at two moments, when the key has been asked for and before erasing; the partial theorem allows only the second. Not modelled: others acting while the library runs or inside erasing."},
{"property": "C113", "status": "partial", "theorems": ["C113_key_killed_refuted", "C113_strip_killed_refuted", "C113_archive_left_refuted", "C113_key_rest", "C113_strip_rest", "C113_restore_tail", "C113_key_killed_partial", "C113_unpack_killed"], "note": "REFUTED: the header is overwritten in place. A key add killed between the two identifier bytes of the new keyslot leaves a file no password opens; a header strip killed in the middle leaves one that neither a dumped header nor restore can be used with, though the body is untouched; an unpack killed while it extracts leaves the archive decrypted in the directory for temporary files. Proved: nothing behind the first 416 bytes and no other file is ever changed by a key or header command cut off anywhere, a password with a keyslot in the old and the new header still decrypts unless the cut is one of the listed ones (bad_cut; needs a header whose unused keyslots are as the program writes them), and an unpack cut off anywhere has stayed inside the output directory. header dump is left out."},
{"property": "C114", "status": "partial", "theorems": ["C114_dropped_refuted", "C114_replaced_refuted", "C114_unpack_written", "C114_cli_written"], "note": "REFUTED: an entry the archive library cannot open is dropped by `.ok()?`, and of two entries that lead to one file the first is overwritten, both with success reported. Proved for every run that reports success, whatever system calls fail or are done in part: every other accepted entry is there with its complete content, a directory for each entry that is one. The one place left out is that of the temporary archive itself. What the user answered is given only for --force; otherwise see C79."},
{"property": "C115", "status": "partial", "theorems": ["C115_half_refuted", "C115_header_cut_refuted", "C115_encrypt_kept_partial", "C115_decrypt_kept_partial", "C115_decrypt_header_kept_partial"], "note": "REFUTED: a read of the input that returns less than asked for is taken for the end of the file, so the rest is not encrypted and then erased with success reported; a write that takes only a part of the header is not noticed (C34), and the input is erased though nothing decrypts the output. The input is always erased (C53). Proved where calls fail or are interrupted in any way but none is done in part: the content can be got back from the output, or the input is as it was, also when erasing fails half way. For decrypt with a header file, that file and the input are not the output. C61 and C62 are the statements without failures."},
{"property": "C116", "status": "partial", "theorems": ["C116_half_packed_refuted", "C116_pack_complete_partial", "C116_pack_erase_partial"], "note": "REFUTED: a read of a packed file that returns less than asked for is taken for its end (pack.rs lines 92-100), so the rest is not in the archive, and with --erase the directories are erased with success reported. Proved for the library, where calls fail or are interrupted in any way but none is done in part: success is reported only if the key gives back from the output, with the header file if there is one, an archive with every entry and its complete content (with a header file not if the output starts with 416 zero bytes). Proved for the command, for such calls: success is reported only if the archive is there and unpacks to copies of the directories, and, with an output and a header elsewhere, the directories are changed only if it is, however the run ends (the unpacking itself without failures). C86 and C69 are these statements for a packing without failures."},
{"property": "C117", "status": "partial", "theorems": ["C117_key_cut_refuted", "C117_deleted_opens_refuted", "C117_dump_cut_refuted", "C117_key_done_partial", "C117_dump_done_partial", "C117_restore_done_partial", "C117_strip_done_partial"], "note": "REFUTED: the header is written with one call of write (C34), and a part is not noticed: a key add that reports success can leave a file no password opens, and a key delete that reports success a file the deleted key still opens; a header dump that reports success can have written a part of the header only, which is lost when it is then stripped. Proved where calls fail or are interrupted in any way but none is done in part: a key command that reports success has used the keys supplied and left what it leaves without failures (C75, C28-C31), dump has written all of the header, and restore all of it over zeros only. Strip holds also with calls done in part. That key commands and restore change nothing when they fail, whatever fails, is C75 and C73."},
{"property": "C118", "status": "partial", "theorems": ["C118_two_alike_refuted", "C118_shown_cut_refuted", "C118_printed_partial", "C118_encrypt_shown_partial", "C118_decrypt_shown_partial"], "note": "REFUTED: a read that returns less than asked for is taken for the end of the file (hash.rs lines 41-51, C45), so one short read prints the hash of a prefix, with success reported; two different files can be printed with the same hash. Proved where calls fail or are interrupted in any way but none is done in part: the hashes printed are those of the first files, each of the whole content, and success is reported exactly if these are all. With --hash, encrypt shows the hash of the output as it is left at the end of the run, also if erasing fails, and decrypt that of the file it was given, or none and then does not report success; for decrypt a release build. The input is not among the files written. C68 and C101 are the statements without failures. pack and unpack with --hash are not covered."},
{"property": "C12", "status": "proved", "theorems": ["C12_stream_integrity"], "note": "As a reduction: success on anything else exhibits an AEAD forgery."},
{"property": "C13", "status": "proved", "theorems": ["C13_only_authentic_output"], "note": "When a write itself fails, the prefix may end inside a block (the failing write is partial)."},
{"property": "C14", "status": "partial", "theorems": ["C14_whole_input_refuted", "C14_whole_input_partial"], "note": "REFUTED: encrypt_file takes a short read for the end of the input, so a reader with short reads (pipe) is silently truncated. Proved: the output always is the ciphertext of the bytes read, and of the whole input if there are no short reads."},
{"property": "C15", "status": "proved", "theorems": ["C15_counter_never_wraps"], "note": "The counter limit is a parameter below 2^31 (aead crate, not in /repo)."},
{"property": "C16", "status": "proved", "theorems": ["C16_io_faults_reported"], "note": "For every behaviour of reader and writer."},
{"property": "C17", "status": "proved", "theorems": ["C17_file_round_trip"], "note": "Well-behaved devices; the KDF accepts the password; block count within the counter."},
{"property": "C18", "status": "partial", "theorems": ["C18_detached_round_trip_refuted", "C18_detached_round_trip_partial"], "note": "REFUTED: a body whose first 416 bytes (as far as present) are zero is mistaken for a blank header area and skipped. Proved for every other body and for bodies behind a zeroed header area; the body never contains header bytes."},
{"property": "C19", "status": "proved", "theorems": ["C19_wrong_key_writes_nothing"], "note": "All devices, versions, modes; also: nothing is written unless the AEAD accepts a block of the body."},
{"property": "C20", "status": "partial", "theorems": ["C20_file_integrity_refuted", "C20_file_integrity_partial"], "note": "REFUTED for hashing algorithms Argon2id(1) and Argon2id(2): the keyslot of a V5 file, repackaged as V1/V2 file, is accepted with the right password and yields the master key. Proved for all other algorithms, any password, any file, any devices, as a reduction to AEAD forgery or KDF collision."},
{"property": "C21", "status": "partial", "theorems": ["C21_only_authentic_file_output_refuted", "C21_only_authentic_file_output_partial"], "note": "REFUTED by the same downgrade. Proved for the other hashing algorithms, any outcome; block alignment needs a writer without faults."},
{"property": "C22", "status": "partial", "theorems": ["C22_v4_round_trip_refuted", "C22_v4_round_trip_partial", "C22_v4_content_lost_partial"], "note": "REFUTED: V4 does not record the hashing algorithm; only Blake3Balloon(4) round-trips. Proved: the round trip for it, and that the content is lost for the others (Argon2id(1), (2) excepted in the latter because of C20)."},
{"property": "C23", "status": "partial", "theorems": ["C23_unsupported_request_refuted", "C23_unsupported_request_partial"], "note": "REFUTED: a V3 stream-mode request panics. Proved: outputs are untouched by any unsupported request, and everything else gives an error."},
{"property": "C24", "status": "proved", "theorems": ["C24_body_independent_of_key"], "note": ""},
{"property": "C25", "status": "partial", "theorems": ["C25_output_exact_refuted", "C25_output_exact_partial"], "note": "REFUTED: encrypt::execute does not truncate, so a longer old output leaves trailing bytes and the file does not decrypt. Proved: the output is header, body, then the old bytes beyond."},
{"property": "C26", "status": "partial", "theorems": ["C26_add_key_refuted", "C26_add_key_partial"], "note": "REFUTED: key operations rewrite non-zero nonce padding (accepted and authenticated by decryption) as zeros, after which no password decrypts; only files not written by this program have such padding. Proved for every file with zero padding and every handle without short writes; byte-for-byte for headers as this program writes them."},
{"property": "C27", "status": "partial", "theorems": ["C27_change_key_refuted", "C27_change_key_partial"], "note": "REFUTED by the same padding. Proved for files with zero padding and handles without short writes; loss of the old password is a reduction to KDF collision or AEAD forgery."},
{"property": "C28", "status": "partial", "theorems": ["C28_delete_key_refuted", "C28_delete_key_partial"], "note": "REFUTED: the last key can be deleted, after which nothing decrypts the file. Proved: exactly the opened slot goes, the rest stays; remaining passwords decrypt as before, others get an error."},
{"property": "C29", "status": "partial", "theorems": ["C29_verify_agrees_refuted", "C29_verify_agrees_partial"], "note": "REFUTED for the all-zero master key. Proved: verify never changes the file, accepts only what decryption accepts, and accepts whenever decryption does with another master key and a KDF that does not fail."},
{"property": "C30", "status": "proved", "theorems": ["C30_failed_op_changes_nothing"], "note": "All files and behaviours of the handle; also no panic."},
{"property": "C31", "status": "proved", "theorems": ["C31_key_history", "C31_key_history_predicted"], "note": "As a reduction: or a keyslot opens for a password it was not made for. Each operation runs on a well-behaved handle at the start of the file. The second theorem also predicts every outcome; it needs a non-zero master key and a KDF that does not fail."},
{"property": "C32", "status": "partial", "theorems": ["C32_crash_safety_refuted", "C32_crash_safety_change_refuted", "C32_crash_safety_delete_refuted", "C32_crash_safety_partial"], "note": "REFUTED at some crash points: between the identifier bytes of an added slot; in the first bytes of the last slot when deleting; anywhere in the slot when a password is kept with another algorithm. Proved for all other crash points of canonical headers. A crash leaves a prefix of the new header over the old one."},
{"property": "C33", "status": "proved", "theorems": ["C33_op_touches_header_only"], "note": "All behaviours of the handle; also for the log of intermediate writes."},
{"property": "C34", "status": "partial", "theorems": ["C34_header_complete_refuted", "C34_encrypt_complete_refuted", "C34_header_complete_partial", "C34_encrypt_complete_partial"], "note": "REFUTED: the header is written with one call of write and the count is ignored. Proved for writers without short writes."},
{"property": "C35", "status": "proved", "theorems": ["C35_strip_exact"], "note": "The handle stands at the start of the file."},
{"property": "C36", "status": "proved", "theorems": ["C36_dump_strip_restore"], "note": "Well-behaved devices."},
{"property": "C37", "status": "partial", "theorems": ["C37_restore_safe_refuted", "C37_restore_short_read_refuted", "C37_restore_safe_partial"], "note": "REFUTED: targets shorter than the header are accepted, and after a short read data is overwritten. Proved: the target is unchanged unless restore succeeds, and the claim holds for long enough targets read without short reads."},
{"property": "C38", "status": "proved", "theorems": ["C38_stripped_file_decrypts"], "note": "Well-behaved input devices, any output device, any password."},
{"property": "C39", "status": "proved", "theorems": ["C39_overwrite_zeroes"], "note": "All pass counts and behaviours of the writer."},
{"property": "C40", "status": "partial", "theorems": ["C40_random_passes_refuted", "C40_single_zero_pass_partial"], "note": "REFUTED: the random buffer is created with Vec::with_capacity and has length zero, so the random passes write nothing. Proved: each byte is written exactly once, with zero."},
{"property": "C41", "status": "partial", "theorems": ["C41_overwrite_before_remove_refuted", "C41_nothing_overwritten", "C41_dropped_then_removed_partial"], "note": "REFUTED: write_file opens with truncate(true), so the content is dropped before anything is written; the overwrite then has capacity zero. No execution overwrites any byte. Proved instead: the content is dropped, then the name removed."},
{"property": "C42", "status": "partial", "theorems": ["C42_exactly_target_refuted", "C42_exactly_target_partial"], "note": "REFUTED for symbolic and hard links (the other name is left with an empty file). Proved for a file with a single name, and for all paths what changes; errors change nothing unless the file was opened."},
{"property": "C43", "status": "partial", "theorems": ["C43_nothing_else_refuted", "C43_schedule_independent_refuted", "C43_every_schedule_partial", "C43_scope"], "note": "REFUTED with symbolic links below the directory. Proved for directories without links and outside hard links, under every schedule; and for all trees, failures and schedules, what may change. remove_dir_all is one step."},
{"property": "C44", "status": "proved", "theorems": ["C44_hash_whole_input", "C44_hash_blake3"], "note": "Readers without faults; BLAKE3 is an arbitrary function with the incremental interface law."},
{"property": "C45", "status": "partial", "theorems": ["C45_hash_short_reads_refuted", "C45_hash_of_prefix_partial"], "note": "REFUTED: a short read is taken for the end of the input. Proved: the result is always the hash of a prefix, of everything without short reads."},
{"property": "C46", "status": "partial", "theorems": ["C46_confined_refuted", "C46_confined_partial"], "note": "REFUTED when the output directory contains a symbolic link: names below it lead out. Proved for output directories without links inside or on the way, all archives, callbacks, schedules and failures."},
{"property": "C47", "status": "partial", "theorems": ["C47_absolute_refuted", "C47_parent_refuted", "C47_backslash_refuted", "C47_short_read_refuted", "C47_round_trip_partial"], "note": "REFUTED: directories given by an absolute path or one starting with .. are silently not restored; files named with a backslash at the end come back as directories; a short read cuts a file. Proved: exact copies of any number of directories given by relative paths without .., none below another, names that survive, header in the file or detached, no failures."},
{"property": "C48", "status": "partial", "theorems": ["C48_pack_temp_refuted", "C48_unpack_temp_refuted", "C48_pack_temp_partial", "C48_pack_temp_left", "C48_unpack_temp_partial", "C48_unpack_temp_left"], "note": "REFUTED: most errors return with ? before the wiping and leave the archive in clear. Proved when no call fails: wiped on success and on errors of the encryption, left on every other error."},
{"property": "C49", "status": "partial", "theorems": ["C49_declined_refuted", "C49_declined_partial", "C49_accepted_only"], "note": "REFUTED when the archive reaches the declined file under a second name (d/../a). Proved: what no accepted path leads to or through is untouched, for output directories without links."},
{"property": "C50", "status": "partial", "theorems": ["C50_passphrase_panics_refuted", "C50_passphrase_shape_partial", "C50_passphrase_reaches_all_partial"], "note": "REFUTED: the range of the random index includes the length of the list, so one draw in 7772 panics. Proved: that is the only way to panic, and the shape otherwise."},
{"property": "C51", "status": "proved", "theorems": ["C51_secret_never_empty"], "note": "All sources and typed inputs; rpassword returns the lines typed."},
{"property": "C52", "status": "partial", "theorems": ["C52_key_source_refuted", "C52_key_source_partial"], "note": "REFUTED: autogenerate has a default value, so encrypt and pack generate a passphrase unasked and never prompt for a password. Proved: the precedence otherwise, for all command lines; debug builds panic where the prompt would come."},
{"property": "C53", "status": "partial", "theorems": ["C53_erase_on_request_refuted", "C53_always_erased_refuted", "C53_pack_partial"], "note": "REFUTED: erase has a default value; every run of encrypt and decrypt that succeeds erases its input. Proved for pack."},
{"property": "C54", "status": "proved", "theorems": ["C54_hex_encode_faithful"], "note": ""},
{"property": "C55", "status": "proved", "theorems": ["C55_key_wrapping"], "note": ""},
{"property": "C56", "status": "partial", "theorems": ["C56_every_master_key_refuted", "C56_every_master_key_partial"], "note": "REFUTED for the all-zero master key, which key operations take for 'not found'. Proved for all others."},
{"property": "C57", "status": "partial", "theorems": ["C57_onto_itself_refuted", "C57_header_refuted", "C57_same_text_partial", "C57_spared_partial"], "note": "REFUTED: ./a and a are the same file, which is truncated; so is an input named as header file. Proved: equal texts are refused; different files are not touched before the final erasing, whatever fails."},
{"property": "C58", "status": "proved", "theorems": ["C58_answers"], "note": "All inputs on standard input, UTF-8 or not."},
{"property": "C59", "status": "proved", "theorems": ["C59_pack_changes_nothing_else"], "note": "All behaviours; the output and header handles are open on existing files."},
{"property": "C60", "status": "proved", "theorems": ["C60_decrypt_never_panics"], "note": "All devices and block sizes, any environment with the AEAD laws."},
{"property": "C61", "status": "proved", "theorems": ["C61_encrypted_before_erased"], "note": "No failures, and input, output and header are different files. With a detached header the exception of C18 applies, and is stated."},
{"property": "C62", "status": "proved", "theorems": ["C62_decrypt_keeps_input"], "note": "Release build, no failures, and the output is another file than the input and the header. C57 and C66 cover failures."},
{"property": "C63", "status": "partial", "theorems": ["C63_unpack_refuted"], "note": "REFUTED: unpack calls get_flag on an argument that is not a flag, and panics on every command line. The function behind it works (C68, C86); encrypt, decrypt, erase and pack finish without an error when nothing is in the way (C87, C90)."},
{"property": "C64", "status": "partial", "theorems": ["C64_phrase_refuted", "C64_debug_refuted", "C64_no_other_panic_partial", "C64_other_commands_partial"], "note": "REFUTED: passphrase generation panics for one value of the random index; debug builds panic on every decrypt. Proved: there is no other panic in encrypt, decrypt, pack, erase and hash, for all files, failures and answers."},
{"property": "C65", "status": "partial", "theorems": ["C65_declined_refuted", "C65_output_consent"], "note": "REFUTED for the question about the header file, which is asked after the output has been truncated. Proved for the question about the output, for encrypt, decrypt and pack."},
{"property": "C66", "status": "partial", "theorems": ["C66_old_output_refuted", "C66_only_output_partial"], "note": "REFUTED: the output is truncated before the key is tried. Proved: nothing else changes, whatever fails."},
{"property": "C67", "status": "proved", "theorems": ["C67_erase_directory_consent"], "note": "All answers and failures."},
{"property": "C68", "status": "proved", "theorems": ["C68_hash_prints"], "note": "No failures; see C45 for short reads."},
{"property": "C69", "status": "partial", "theorems": ["C69_pack_erase_refuted", "C69_pack_erase_partial"], "note": "REFUTED: an output inside the directory packed is erased with it. Proved for an output and a header that are elsewhere: any number of directories, header in the file or detached, no failures of calls, every outcome and schedule. Without --erase see C53_pack_partial."},
{"property": "C70", "status": "partial", "theorems": ["C70_stdin_key_refuted", "C70_stdin_key_partial"], "note": "REFUTED: the question about an existing output reads the first line of the key. Proved if the output does not exist."},
{"property": "C71", "status": "proved", "theorems": ["C71_details", "C71_details_tell", "C71_details_text"], "note": "Reading may fail at any point; completeness and the text without failures."},
{"property": "C72", "status": "partial", "theorems": ["C72_dump_refuted", "C72_dump_partial"], "note": "REFUTED: dumping to another name of the encrypted file (./f and f), or with force to itself, empties it and then reports an error. Proved for all other cases: only the output is written, with consent, and it is the header."},
{"property": "C73", "status": "proved", "theorems": ["C73_strip", "C73_restore"], "note": "All files and failures; what is written on success without failures."},
{"property": "C74", "status": "proved", "theorems": ["C74_dump_strip_restore"], "note": "Headers the program writes (versions 3 to 5), no failures, output another file."},
{"property": "C75", "status": "proved", "theorems": ["C75_key_commands", "C75_key_operation"], "note": "All failures. The passphrase generator may panic (C64)."},
{"property": "C76", "status": "proved", "theorems": ["C76_old_files_refused"], "note": "All file contents and key sources, no failures."},
{"property": "C77", "status": "proved", "theorems": ["C77_sessions", "C77_sessions_exist"], "note": "All sequences; the alternative is a key collision, as in C31. The file was written by encrypt with the header in it."},
{"property": "C78", "status": "proved", "theorems": ["C78_environment_unused", "C78_sources", "C78_default_sources"], "note": "All matches: the command line defines no key subcommand, so what clap would return is arbitrary."},
{"property": "C79", "status": "partial", "theorems": ["C79_unpack_consent_refuted", "C79_unpack_consent_partial"], "note": "REFUTED: an entry new/../f is not asked about if new does not exist, and an earlier entry makes it. Proved for names without .., all archives, answers, schedules and failures, for output directories without links."},
{"property": "C80", "status": "partial", "theorems": ["C80_unpack_panics_refuted", "C80_unpack_name_refuted", "C80_unpack_panics_partial"], "note": "REFUTED: end of standard input at a question (always, if the key came from there) and names ending in .. panic; the decrypted archive stays in the temporary directory. Proved: there is no other panic."},
{"property": "C81", "status": "proved", "theorems": ["C81_unpack_confined"], "note": "Output directories without links inside or on the way and without hard links to the outside, as in C46. The wiping without failures."},
{"property": "C82", "status": "proved", "theorems": ["C82_hash_parameters"], "note": "Relative to the modelled argon2 and balloon-hash crates, whose arguments are the parameters."},
{"property": "C83", "status": "proved", "theorems": ["C83_encrypt_as_asked", "C83_key_commands_as_asked"], "note": "No failures, input and outputs different files. Header in the file or detached."},
{"property": "C84", "status": "proved", "theorems": ["C84_decrypt_sound", "C84_decrypt_complete", "C84_detached_complete"], "note": "Completeness without failures. Soundness: in stream mode a short read ends the body early (C14), which then fails to authenticate or is a prefix that decrypts."},
{"property": "C85", "status": "proved", "theorems": ["C85_old_files"], "note": "All three algorithms and both modes; layouts as the parser has them, since the code that wrote them is gone."},
{"property": "C86", "status": "proved", "theorems": ["C86_pack_unpack_by_path"], "note": "Any number of directories, header in the file or detached, output and header elsewhere, no failures. With a detached header, only if the output does not start with 416 zero bytes. Stated on the function behind the unpack subcommand, because of C63."},
{"property": "C87", "status": "proved", "theorems": ["C87_encrypt_works", "C87_decrypt_works", "C87_detached_works", "C87_old_files_by_path"], "note": "The hypotheses name everything that can be in the way. For decrypt the output is a free name."},
{"property": "C88", "status": "proved", "theorems": ["C88_library", "C88_paths"], "note": "Memory mode and all versions are included. By path, drawing the temporary name is assumed to take bytes in their order, and a file open twice to behave as a library call as far as random bytes and encryptions go."},
{"property": "C89", "status": "proved", "theorems": ["C89_numbers", "C89_phrase_shown", "C89_phrase_recovers"], "note": "Showing: encrypt and pack, all failures and outcomes. Recovering: encrypt, with the hypotheses of C61. The generator may panic (C64), before anything is written."},
{"property": "C90", "status": "proved", "theorems": ["C90_erase_file", "C90_erase_directory", "C90_pack_works", "C90_pack_erase_works"], "note": "The hypotheses name everything that can be in the way. Erasing after packing: with --force, the directories named without links."},
{"property": "C91", "status": "partial", "theorems": ["C91_write_refuted", "C91_erase_length_refuted", "C91_boundary_partial", "C91_sequences_partial", "C91_same_erase"], "note": "REFUTED: opening for writing empties a file on disk but not in memory, so the tests of erase see the length of the content where the program sees 0, and cannot notice C41. Proved: the exact set of calls on which the two storages agree (relative paths of plain names, no links, no failures), and agreement over any sequence of such calls."},
{"property": "C92", "status": "partial", "theorems": ["C92_same_programs", "C92_keys", "C92_key_operations", "C92_encrypt_partial", "C92_decrypt_partial", "C92_failure_refuted", "C92_one_piece_refuted", "C92_hash_refuted"], "note": "REFUTED for content: a failed write leaves the block in memory, decrypting a file of one piece (version 3 and older) always leaves the whole plaintext, and hashing leaves its buffer. Proved: all secrets and master keys are wiped in every run; content in every successful encryption and every successful decryption of a file made of blocks; all but one buffer otherwise. Heap buffers only: copies on the stack and inside the ciphers are not modelled."},
{"property": "C93", "status": "partial", "theorems": ["C93_same_program", "C93_handed_on", "C93_success_partial", "C93_failure_partial", "C93_wiped_refuted"], "note": "REFUTED: a password that does not match its confirmation stays in memory, the right one included, and so does what was read of a key file before an error. Proved: exactly these stay, and nothing else, in every run. A buffer that grows while it is read counts as one buffer."},
{"property": "C94", "status": "proved", "theorems": ["C94_same_text", "C94_pack"], "note": "Same text, not same file: for two names of one file see C59 and C67. For decrypt, a release build (C52)."},
{"property": "C95", "status": "proved", "theorems": ["C95_line", "C95_matches", "C95_all"], "note": "About Clap.v, our model of how clap 4.5 reads the definitions in cli.rs; clap itself is not in /repo. Not modelled: a short flag of a subcommand with more letters in the same word (-ek), the text of help and errors."},
{"property": "C96", "status": "partial", "theorems": ["C96_flag_last_refuted", "C96_swallowed_refuted", "C96_values_partial"], "note": "REFUTED: cli.rs gives flags no action, so each takes the next word as its value: encrypt a b --force is refused, and pack -r d e out leaves d out and succeeds. Proved: the value makes no difference, only whether there is one. Relative to the model of clap (C95)."},
{"property": "C97", "status": "partial", "theorems": ["C97_declined_refuted", "C97_zero_partial", "C97_forced_partial", "C97_failed_partial"], "note": "REFUTED: a command broken off at a question exits with 0, even when the old output is lost (C65). Proved: 0 means done or broken off at a question; with force, 0 exactly when done; any other error gives 1."},
{"property": "C98", "status": "proved", "theorems": ["C98_there_and_back"], "note": "Release build, no failures, no header file; the output is not the input and can be written (a new name, or an old file and force). The key is the content of a file other than these, the environment, or a passphrase drawn by the first command and typed at the second."},
{"property": "C99", "status": "partial", "theorems": ["C99_same_programs", "C99_keys_partial", "C99_encrypt_partial", "C99_decrypt_partial", "C99_pack_partial", "C99_exit_refuted", "C99_pack_refuted", "C99_hash_refuted"], "note": "REFUTED: when the program stops at the question whether to overwrite the header file, process::exit runs no destructors and the key is still in memory; packing leaves the last block of every packed file, hashing that of every file. Proved: keys are wiped in all other runs of all commands, unless a key file fails to be read (C93); content too, in encryption and decryption that succeed, and all but one block in those that fail; packing leaves nothing but such blocks. The buffers of the zip crate are not modelled; those of a run on two names of one file are followed for the secret only. unpack obtains no secret (C52)."}
]}
