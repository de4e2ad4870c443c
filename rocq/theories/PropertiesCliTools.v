(** Properties of the functions behind the subcommands [header], [key] and
    [unpack], for files given by path.  Proofs are elsewhere. *)
From Coq Require Import List Arith NArith ZArith Ascii String Bool.
From Verif Require Import Bytes Outcome IO Primitives Crypto Header Stream KeyModel EncDec KeyOps HeaderOps.
From Verif Require Import Overwrite Hash FS Erase Archive Cli CliTools.
From Verif Require Import HeaderSpec IOSpec KeySpec ToyEnv Fixtures FileCases FSSpec FSFacts EraseCases.
From Verif Require Import ArchiveSpec ArchiveCases CliSpec CliCases CliToolsSpec.
From Verif Require Import CliToolsHeader CliToolsProofs CliToolsResults CliToolsUnpack CliToolsKeys NoPanic CliToolsCases.
Import ListNotations.
Local Open Scope nat_scope.
Local Open Scope list_scope.

(** C71: header details changes nothing and asks nothing, and succeeds exactly on files
    that start with a header. *)
Theorem C71_details : forall input c o c', details input c = (o, c') ->
  regular o /\ unchanged (disk c) (disk c') /\ asks_nothing c c'
  /\ (o <> Ok tt -> c_out c' = c_out c)
  /\ (no_faults (disk c) -> forall i, stat (disk c) (os_path input) = Some (NFile i) ->
        (o = Ok tt <-> exists h aad, header_is (s_data (disk c) i) h aad)).
Proof. exact details_safe. Qed.
Print Assumptions C71_details.

(** ... and what it prints tells all of the header: files with the same output have
    the same header. *)
Theorem C71_details_tell : forall input c c' input2 c2 c2' i j,
  no_faults (disk c) -> no_faults (disk c2) ->
  stat (disk c) (os_path input) = Some (NFile i) -> stat (disk c2) (os_path input2) = Some (NFile j) ->
  details input c = (Ok tt, c') -> details input2 c2 = (Ok tt, c2') ->
  forall l, c_out c' = c_out c ++ l -> c_out c2' = c_out c2 ++ l ->
  exists h aad, header_is (s_data (disk c) i) h aad /\ header_is (s_data (disk c2) j) h aad.
Proof. exact details_tell. Qed.
Print Assumptions C71_details_tell.

(** ... and the lines are these: the names and numbers of the tables in the
    specification, and bytes in hexadecimal. *)
Theorem C71_details_text : forall input c c' i, no_faults (disk c) ->
  stat (disk c) (os_path input) = Some (NFile i) -> details input c = (Ok tt, c') ->
  exists h aad ls, header_is (s_data (disk c) i) h aad /\ told h aad ls /\ c_out c' = c_out c ++ map NLine ls.
Proof. exact details_text. Qed.
Print Assumptions C71_details_text.

Example C71_case :
  c_out (snd (details "new" enc_home))
  = map NLine
      ["Header version: V5"; "Encryption algorithm: XChaCha20-Poly1305"; "Encryption mode: Stream Mode";
       "Encryption nonce: 5555555555555555555555555555555555555555 (hex)";
       "AAD: de050e010c015555555555555555555555555555555555555555000000000000 (hex)";
       "Keyslot 0:"; "  Hashing Algorithm: BLAKE3-Balloon (param v5)";
       "  Salt: 55555555555555555555555555555555 (hex)";
       "  Master Key: 555555555555555555555555555555555555555555555555555555555555555545f127364f177f01593dd6cc63632d98 (hex, encrypted)";
       "  Master Key Nonce: 555555555555555555555555555555555555555555555555 (hex)"]%string
  /\ fst (details "k" enc_home) = Err TNoHeader.
Proof. split; vm_compute; reflexivity. Qed.

(** C72 is false: dumping to another name of the same file empties the file. *)
Theorem C72_dump_refuted : exists input output c c' e i h aad, no_faults (disk c) /\ inodes_ok (disk c)
  /\ input <> output
  /\ stat (disk c) (os_path input) = Some (NFile i) /\ header_is (s_data (disk c) i) h aad
  /\ 416 < List.length (s_data (disk c) i)
  /\ dump input output Force c = (Err e, c') /\ s_data (disk c') i = [].
Proof. exact dump_destroys. Qed.
Print Assumptions C72_dump_refuted.

(** What does hold: nothing but the output is written, an output that exists only with
    consent; the output is the header; and dumping to another file succeeds. *)
Theorem C72_dump_partial : forall input output force c o c', inodes_ok (disk c) ->
  dump input output force c = (o, c') ->
  regular o /\ only_writes (disk c) [os_path output] (disk c')
  /\ (o = Ok tt -> dumped_header (disk c) (disk c') input output)
  /\ (no_faults (disk c) -> forall i h aad, stat (disk c) (os_path input) = Some (NFile i) ->
        header_is (s_data (disk c) i) h aad -> ~ In (version_of h) [V1; V2] ->
        stat (disk c) (os_path output) <> Some (NFile i) ->
        writable (disk c) (os_path output) force -> o = Ok tt)
  /\ (forall ls, force = Prompt -> exists_path (disk c) (os_path output) = true ->
        lines (c_stdin c) ls -> (forall n r, ~ dialogue true ls (Some true) n r) ->
        o <> Ok tt /\ unchanged (disk c) (disk c')).
Proof. exact dump_safe. Qed.
Print Assumptions C72_dump_partial.

Example C72_case :
  let '(o, c) := dump "new" "hd" Prompt enc_home in
  (o, at_place (disk c) ["home"; "hd"]%string, s_data (disk c) 10)
  = (Ok tt, Some (SFile 11 (firstn 416 (s_data (disk enc_home) 10))), s_data (disk enc_home) 10).
Proof. vm_compute. reflexivity. Qed.
(** Without consent nothing happens. *)
Example C72_declined :
  let '(o, c) := dump "new" "out" Prompt (again enc_home [x6e; x0a] []) in
  (o, at_place (disk c) ["home"; "out"]%string) = (Err (TCli CExit), Some (SFile 2 (B "old"))).
Proof. vm_compute. reflexivity. Qed.

(** C73: stripping overwrites the header of the file with zeros, and nothing else. *)
Theorem C73_strip : forall input c o c', strip input c = (o, c') ->
  regular o /\ asks_nothing c c'
  /\ ((o <> Ok tt /\ unchanged (disk c) (disk c'))
      \/ exists i n, stat (disk c) (os_path input) = Some (NFile i) /\ In n [64; 128; 416]
           /\ only_header i n (disk c) (disk c'))
  /\ (no_faults (disk c) -> forall i, stat (disk c) (os_path input) = Some (NFile i) ->
        (forall h aad, header_is (s_data (disk c) i) h aad ->
           o = Ok tt /\ let n := get_size (version_of h) in
             s_data (disk c') i = zeros n ++ skipn n (s_data (disk c) i))
        /\ ((forall h aad, ~ header_is (s_data (disk c) i) h aad) ->
            o <> Ok tt /\ unchanged (disk c) (disk c'))).
Proof. exact strip_safe. Qed.
Print Assumptions C73_strip.

(** ... and restoring writes the header into such a space, and nothing else. *)
Theorem C73_restore : forall input output c o c', restore input output c = (o, c') ->
  regular o /\ asks_nothing c c'
  /\ (o <> Ok tt -> unchanged (disk c) (disk c'))
  /\ (o = Ok tt -> exists j, stat (disk c) (os_path output) = Some (NFile j)
        /\ only_file j 416 (disk c) (disk c'))
  /\ (no_faults (disk c) ->
      (o = Ok tt -> exists i j h aad b,
         stat (disk c) (os_path input) = Some (NFile i) /\ stat (disk c) (os_path output) = Some (NFile j)
         /\ header_is (s_data (disk c) i) h aad /\ serialize h = Ok b
         /\ s_data (disk c') j = b ++ skipn (List.length b) (s_data (disk c) j)
         /\ firstn (List.length b) (s_data (disk c) j)
            = zeros (List.length (firstn (List.length b) (s_data (disk c) j))))
      /\ (may_restore (disk c) input output -> o = Ok tt)).
Proof. exact restore_safe. Qed.
Print Assumptions C73_restore.

Example C73_case :
  let '(o, c) := strip "new" enc_home in
  (o, firstn 420 (s_data (disk c) 10), fst (strip "k" enc_home), fst (restore "new" "k" enc_home))
  = (Ok tt, zeros 416 ++ firstn 4 (skipn 416 (s_data (disk enc_home) 10)),
     Err (THop HopInvalidFile), Err (THop HopUnsupportedRestore)).
Proof. vm_compute. reflexivity. Qed.

(** C74: dump, strip and restore of a file that begins with a header, one after the
    other, give it back. *)
Theorem C74_dump_strip_restore : forall c input output force i h hdr body, no_faults (disk c) -> inodes_ok (disk c) ->
  stat (disk c) (os_path input) = Some (NFile i) -> well_formed_file h hdr body (s_data (disk c) i) ->
  stat (disk c) (os_path output) <> Some (NFile i) -> writable (disk c) (os_path output) force ->
  exists c1 c2 c3 j,
    dump input output force c = (Ok tt, c1)
    /\ strip input c1 = (Ok tt, c2)
    /\ restore output input c2 = (Ok tt, c3)
    /\ stat (disk c3) (os_path input) = Some (NFile i)
    /\ stat (disk c3) (os_path output) = Some (NFile j)
    /\ s_data (disk c1) i = s_data (disk c) i /\ s_data (disk c1) j = hdr
    /\ s_data (disk c2) i = zeros (List.length hdr) ++ body /\ s_data (disk c2) j = hdr
    /\ s_data (disk c3) i = s_data (disk c) i /\ s_data (disk c3) j = hdr
    /\ (forall k, k <> j -> k < s_next (disk c) -> s_data (disk c3) k = s_data (disk c) k).
Proof. exact round_path. Qed.
Print Assumptions C74_dump_strip_restore.

(** In between the file does not decrypt, in the end it does. *)
Example C74_case :
  let '(o, c) := dump "new" "hd" Prompt enc_home in
  let '(o1, c1) := strip "new" c in
  let '(o2, c2) := restore "hd" "new" c1 in
  (o, o1, o2, fst (opens "k" c1), opens "k" c2)
  = (Ok tt, Ok tt, Ok tt, Err (CDecrypt DecDeserializeHeader), (Ok tt, Some (SFile 12 (B "secret")))).
Proof. vm_compute. reflexivity. Qed.

(** C75: a key command that fails changes nothing; one that succeeds writes to the first
    416 bytes of the file only. *)
Theorem C75_key_commands : forall V input t c o c', env_ok (ce_E V) -> run_tool V input t c = (o, c') ->
  o <> Diverge
  /\ (o = Panic -> exists k, In k (tool_keys t) /\ generator_panics V k)
  /\ (o <> Ok tt -> unchanged (disk c) (disk c'))
  /\ (o = Ok tt -> exists i, stat (disk c) (os_path input) = Some (NFile i)
        /\ only_header i 416 (disk c) (disk c')).
Proof. exact tool_safe. Qed.
Print Assumptions C75_key_commands.

(** ... and it does what the key operation does with the keys supplied. *)
Theorem C75_key_operation : forall V input t c o c' i h aad, env_ok (ce_E V) -> no_faults (disk c) ->
  stat (disk c) (os_path input) = Some (NFile i) ->
  header_is (s_data (disk c) i) h aad -> version_of h = V5 ->
  run_tool V input t c = (o, c') ->
  (forall op, supplies V c t op ->
     let r := run_on (ce_E V) (op, s_rng (disk c)) (s_data (disk c) i) in
     o = tool_outcome (fst r) /\ s_data (disk c') i = snd r)
  /\ ((forall op, ~ supplies V c t op) ->
      unchanged (disk c) (disk c') /\ (o = Panic \/ exists e, o = Err (TCli e))).
Proof. exact tool_does. Qed.
Print Assumptions C75_key_operation.

Example C75_case :
  let '(o, c) := run_tool V0 "new" (ToolAdd (Keyfile "k") (Keyfile "h") ha) enc_home in
  let '(o1, c1) := run_tool V0 "new" (ToolDelete (Keyfile "k")) c in
  (o, opens "k" c, opens "h" c, (o1, opens "k" c1, opens "h" c1))
  = (Ok tt, (Ok tt, Some (SFile 11 (B "secret"))), (Ok tt, Some (SFile 11 (B "secret"))),
     (Ok tt, (Err (CDecrypt DecDecryptMasterKey), Some (SFile 11 [])), (Ok tt, Some (SFile 11 (B "secret"))))).
Proof. vm_compute. reflexivity. Qed.
(** The new password is typed twice, until both agree. *)
Example C75_typed :
  let '(o, c) := run_tool V0 "new" (ToolChange User User ha)
                   (again enc_home [] [Some (B "key"); Some (B "n"); Some (B "x"); Some (B "oldh"); Some (B "oldh")]) in
  (o, c_tty c, opens "h" c) = (Ok tt, [], (Ok tt, Some (SFile 11 (B "secret")))).
Proof. vm_compute. reflexivity. Qed.

(** C76: files without a header of version 5 are refused before any key is asked for. *)
Theorem C76_old_files_refused : forall V input t c o c' i, env_ok (ce_E V) -> no_faults (disk c) ->
  stat (disk c) (os_path input) = Some (NFile i) ->
  (forall h aad, header_is (s_data (disk c) i) h aad -> version_of h <> V5) ->
  run_tool V input t c = (o, c') ->
  asks_nothing c c' /\ c_out c' = c_out c /\ unchanged (disk c) (disk c')
  /\ (o = Err TOldVersion \/ exists e, o = Err (THeader e)).
Proof. exact tool_old. Qed.
Print Assumptions C76_old_files_refused.

Example C76_case :
  let '(o, c) := run_tool V0 "new" (ToolAdd User User ha) old_home in
  (o, c_tty c, c_out c, fst (run_tool V0 "k" (ToolVerify User) (again enc_home [] [Some (B "key")])))
  = (Err TOldVersion, [Some (B "key"); Some (B "n"); Some (B "n")], [], Err (THeader HBadVersion)).
Proof. vm_compute. reflexivity. Qed.
Example C76_old : exists h aad, header_is (s_data (disk old_home) 10) h aad /\ version_of h = V3.
Proof. eexists. eexists. split; [eexists|]; vm_compute; reflexivity. Qed.

(** C77: after any sequence of key commands on an encrypted file, exactly the keys that
    the history leaves open it (or a key collision has occurred, as in C31). *)
Theorem C77_sessions : forall V input i req w w' a l ops pw, env_ok (ce_E V) ->
  ht_version (er_header_type req) = V5 -> er_detached req = false ->
  d_plan (w_in w) = [] -> d_plan (w_out w) = [] -> d_data (w_out w) = [] ->
  encrypt_execute (ce_E V) req w = (Ok tt, w') ->
  no_faults (fst a) -> stat (fst a) (os_path input) = Some (NFile i) ->
  s_data (fst a) i = d_data (w_out w') ->
  session_ops V input l a ops ->
  let E := ce_E V in
  let r := run_session V input l a in
  let data := s_data (fst (snd r)) i in
  let q := run_all E (made_ops ops) (s_data (fst a) i) in
  outcomes_of ops (fst q) (fst r)
  /\ ((exists n, n <= List.length (made_ops ops)
         /\ crossed E (pw :: er_raw_key req :: passwords (made_ops ops))
              (snd (run_all E (firstn n (made_ops ops)) (s_data (fst a) i))))
      \/ exists keys, follow (made_ops ops) (fst q) [er_raw_key req] = Some keys
         /\ List.length keys <= 4
         /\ (In pw keys -> recovers E pw data None (d_data (w_in w)))
         /\ (~ In pw keys -> forall v, w_in v = dev_at data 0 -> d_plan (w_out v) = [] ->
               exists e v', decrypt_execute E false pw v = (Err e, v') /\ w_out v' = w_out v)).
Proof. exact session_keys. Qed.
Print Assumptions C77_sessions.

(** (Each sequence of commands has such a list of operations.) *)
Theorem C77_sessions_exist : forall V input, env_ok (ce_E V) -> forall l a, no_faults (fst a) ->
  exists ops, session_ops V input l a ops.
Proof. exact session_ops_exist. Qed.
Print Assumptions C77_sessions_exist.

Example C77_case :
  let r := run_session V0 "new"
    [(ToolChange (Keyfile "k") (Keyfile "h") ha, ([], [])); (ToolVerify (Keyfile "k"), ([], []));
     (ToolVerify (Keyfile "h"), ([], [])); (ToolAdd (Keyfile "-") User ha, (B "oldh", [Some (B "p"); Some (B "p")]));
     (ToolDelete (Keyfile "h"), ([], [])); (ToolVerify User, ([], [Some (B "p")]));
     (ToolVerify User, ([], [None]))] (c_a enc_home) in
  (fst r, opens "h" (mkCli (snd r) [] [] []))
  = ([Ok tt; Err (TKey KIncorrectKey); Ok tt; Ok tt; Ok tt; Ok tt; Err (TCli CPassword)],
     (Err (CDecrypt DecDecryptMasterKey), Some (SFile 11 []))).
Proof. vm_compute. reflexivity. Qed.

(** C78: VOLARIS_KEY makes no difference to key add and key change. *)
Theorem C78_environment_unused : forall key V m c,
  key_add_cmd (with_key key V) m c = key_add_cmd V m c
  /\ key_change_cmd (with_key key V) m c = key_change_cmd V m c.
Proof. exact cmds_with_key. Qed.
Print Assumptions C78_environment_unused.

(** ... their keys come from the key files named, the generator (if asked for), or the
    terminal. *)
Theorem C78_sources : forall V m c old new ha c',
  key_manipulation_params V m c = (Ok (old, new, ha), c') ->
  match value_of m "keyfile-old" with Some p => old = Keyfile p | None => old = User end
  /\ match value_of m "keyfile-new" with
     | Some p => new = Keyfile p
     | None => match value_of m "autogenerate" with
               | Some _ => exists i, new = Generate i
               | None => new = User
               end
     end.
Proof. exact manipulation_sources. Qed.
Print Assumptions C78_sources.

(** Deleting and checking a key take it from where decryption does. *)
Theorem C78_default_sources : forall V m id c k c',
  key_init V m key_params_default id c = (Ok k, c') ->
  match value_of m id, ce_key V with
  | Some p, _ => k = Keyfile p
  | None, Some _ => k = Env
  | None, None => match value_of m "autogenerate" with
                  | Some s => exists i, k = Generate i
                  | None => k = User
                  end
  end.
Proof. exact init_default. Qed.
Print Assumptions C78_default_sources.

Example C78_case :
  let m := mkMatches [required "input"; optional "keyfile-old"; optional "keyfile-new"; optional "autogenerate";
                      optional "argon"]%string
                     (args [("input", ["new"]); ("keyfile-new", ["h"])]%string) in
  let c := again enc_home [] [Some (B "key")] in
  let run v := let '(o, c') := key_change_cmd (V v 1%N no_alias) m c in (o, c_tty c', opens "h" c') in
  (run None, run (Some (B "wrong")))
  = ((Ok tt, [], (Ok tt, Some (SFile 11 (B "secret")))), (Ok tt, [], (Ok tt, Some (SFile 11 (B "secret"))))).
Proof. vm_compute. reflexivity. Qed.

(** C79 is false: a file is overwritten unasked through a name that leads by a new
    directory. *)
Theorem C79_unpack_consent_refuted : exists V p c c', no_faults (disk c) /\ tree_ok (disk c) /\ inodes_ok (disk c)
  /\ output_at (disk c) (parse_path "out") ["home"; "out"]%string []
  /\ cp_force p = Prompt /\ c_stdin c = []
  /\ at_place (disk c) ["home"; "out"; "a"]%string = Some (SFile 2 (B "precious"))
  /\ unpack_cli V "in" "out" false p c = (Ok tt, c')
  /\ at_place (disk c') ["home"; "out"; "a"]%string = Some (SFile 2 (B "attack")).
Proof. exact overwritten_unasked. Qed.
Print Assumptions C79_unpack_consent_refuted.

(** What does hold: a file that existed and has changed was named by an entry of the
    archive; if the name has no [..], the user was asked about it and agreed. *)
Theorem C79_unpack_consent_partial : forall V input output verbose p c o c' q0 names x i l,
  tree_ok (disk c) -> lookup (s_nodes (disk c)) (s_cwd (disk c)) = Some NDir -> inodes_ok (disk c) ->
  output_at (disk c) (parse_path output) q0 names -> cp_force p = Prompt ->
  unpack_cli V input output verbose p c = (o, c') ->
  at_place (disk c) x = Some (SFile i l) -> at_place (disk c') x <> Some (SFile i l) ->
  exists cs x', x' = lexical (q0 ++ names) cs /\ inside (q0 ++ names) x'
    /\ lookup (s_nodes (disk c)) x' = Some (NFile i)
    /\ (straight cs ->
        exists s1 ls ps, with_temp (disk c) s1 /\ lines (stdin_left (cp_key p) c) ls
          /\ offered (ce_Z V) (parse_path output) ps
          /\ agreed s1 ls ps (below_path (parse_path output) cs)).
Proof. exact unpack_consent. Qed.
Print Assumptions C79_unpack_consent_partial.

(** No to "a", yes to "b"; "c" is new. *)
Example C79_case :
  let '(o, c) := unpack_run (params "k" Prompt)
                   (zhome [("a", "new a"); ("b", "new b"); ("c", "new c")]%string [x6e; x0a; x79; x0a]) in
  (o, map (fun n => at_place (disk c) ["home"; "out"; n]) ["a"; "b"; "c"])%string
  = (Ok tt, [Some (SFile 2 (B "precious")); Some (SFile 3 (B "new b")); Some (SFile 11 (B "new c"))]).
Proof. vm_compute. reflexivity. Qed.

(** C80 is false: when standard input ends at a question, the program panics and leaves
    the decrypted archive; so it does whenever the key is read from there. *)
Theorem C80_unpack_panics_refuted : exists V p c c' i l, env_ok (ce_E V) /\ no_faults (disk c)
  /\ cp_key p = Keyfile "-" /\ cp_force p = Prompt
  /\ unpack_cli V "in" "out" false p c = (Panic, c')
  /\ at_place (disk c) ["tmp"; "tmpname"]%string = None
  /\ at_place (disk c') ["tmp"; "tmpname"]%string = Some (SFile i l)
  /\ z_decode toy_zip l = Some [mkZread "a"%string true (B "secret") true].
Proof. exact unpack_panics_stdin. Qed.
Print Assumptions C80_unpack_panics_refuted.

(** ... and with a name in the archive that ends in [..] *)
Theorem C80_unpack_name_refuted : exists V p c c' i l, env_ok (ce_E V) /\ no_faults (disk c) /\ cp_force p = Force
  /\ unpack_cli V "in" "out" false p c = (Panic, c')
  /\ at_place (disk c) ["tmp"; "tmpname"]%string = None
  /\ at_place (disk c') ["tmp"; "tmpname"]%string = Some (SFile i l)
  /\ z_decode toy_zip l = Some [mkZread "x"%string true (B "secret") true; mkZread "d/.."%string true [] true].
Proof. exact unpack_panics_name. Qed.
Print Assumptions C80_unpack_name_refuted.

(** There is no other panic. *)
Theorem C80_unpack_panics_partial : forall V input output verbose p c c', env_ok (ce_E V) ->
  unpack_cli V input output verbose p c = (Panic, c') ->
  (exists n, cp_key p = Generate n /\ generate_passphrase (ce_words V) (ce_draw V) n = Panic)
  \/ exists s1 l zs, let paths := map fst (entities (parse_path output) zs) in
       with_temp (disk c) s1 /\ z_decode (ce_Z V) l = Some zs
       /\ (cp_force p = Force -> exists q, In q paths /\ nameless q)
       /\ (cp_force p = Prompt -> forall ls, lines (stdin_left (cp_key p) c) ls -> unanswered s1 ls paths).
Proof. exact unpack_cli_panics. Qed.
Print Assumptions C80_unpack_panics_partial.

(** With the key on standard input and no question, there is none. *)
Example C80_case :
  let '(o, c) := unpack_run (params "-" Force) (zhome [("a", "secret"); ("d/", ""); ("d/../c", "more")]%string pw) in
  (o, at_place (disk c) ["home"; "out"; "a"]%string, at_place (disk c) ["home"; "out"; "c"]%string)
  = (Ok tt, Some (SFile 2 (B "secret")), Some (SFile 11 (B "more"))).
Proof. vm_compute. reflexivity. Qed.

(** C81: unpacking by path changes only what is inside the output directory, and the
    temporary file, which is wiped. *)
Theorem C81_unpack_confined : forall V input output verbose p c o c' q0 names,
  tree_ok (disk c) -> lookup (s_nodes (disk c)) (s_cwd (disk c)) = Some NDir -> inodes_ok (disk c) ->
  output_at (disk c) (parse_path output) q0 names -> no_outside_names (disk c) (q0 ++ names) ->
  unpack_cli V input output verbose p c = (o, c') ->
  (forall x, at_place (disk c') x <> at_place (disk c) x ->
     inside (q0 ++ names) x
     \/ (resolve false (disk c) (temp_path (ce_pick V) (disk c)) = Some x /\ at_place (disk c) x = None)
     \/ (on_the_way q0 names x /\ at_place (disk c) x = None /\ at_place (disk c') x = Some SDir))
  /\ (no_faults (disk c) ->
      (forall r, resolve false (disk c) (temp_path (ce_pick V) (disk c)) = Some r -> ~ inside (q0 ++ names) r) ->
      o = Ok tt -> temp_wiped (disk c) (disk c') (temp_path (ce_pick V) (disk c))).
Proof. exact unpack_cli_confined. Qed.
Print Assumptions C81_unpack_confined.

Example C81_case :
  let '(o, c) := unpack_run (params "k" Force)
                   (zhome [("../in", "attack"); ("/home/k", "attack"); ("a", "new a")]%string []) in
  (o, at_place (disk c) ["home"; "k"]%string, at_place (disk c) ["home"; "out"; "a"]%string,
   at_place (disk c) ["tmp"; "tmpname"]%string, at_place (disk c) ["home"; "in"]%string)
  = (Ok tt, Some (SFile 1 pw), Some (SFile 2 (B "new a")), None,
     at_place (disk (zhome [("../in", "attack"); ("/home/k", "attack"); ("a", "new a")]%string [])) ["home"; "in"]%string).
Proof. vm_compute. reflexivity. Qed.
