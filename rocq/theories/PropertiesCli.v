(** Properties C51 to C53, C57, C58, C60 to C70 and C94: the command line program
    (crates/volaris-cli).  Vocabulary: CliSpec.v; the concrete command lines and
    file systems are in CliCases.v. *)
From Coq Require Import List Arith NArith ZArith Ascii String Bool.
From Verif Require Import Bytes Outcome IO Primitives Crypto Header Stream KeyModel EncDec.
From Verif Require Import Overwrite Hash FS Erase Archive Cli.
From Verif Require Import ToyEnv Fixtures FileCases EraseCases FileSpec FSSpec FSFacts ArchiveSpec ArchiveCases CliSpec CliProofs CliPack CliSafety CliResults CliCases NoPanic.
Import ListNotations.
Local Open Scope nat_scope.
Local Open Scope list_scope.

(** C51: no source yields an empty key; a password typed for encrypting is typed
    twice the same, after pairs that are not accepted; without failures every source
    that has a key yields it. *)
Theorem C51_secret_never_empty : forall V k st c o c', get_secret V k st c = (o, c') ->
  o <> Diverge
  /\ (forall l, o = Ok l -> l <> [] /\ yields V c k st l (c_tty c')
       /\ (k = User -> st = Validate -> exists before rest,
             c_tty c = before ++ Some l :: Some l :: rest /\ rejected before))
  /\ (no_faults (disk c) -> forall l t, yields V c k st l t -> o = Ok l /\ c_tty c' = t).
Proof. exact secrets_hold. Qed.
Print Assumptions C51_secret_never_empty.

Example C51_case :
  map (fun '(k, st, i, t) => fst (get_secret V0 k st (start i t)))
    [(User, Validate, [], [Some (B "a"); Some (B "b"); Some []; Some []; Some (B "pw"); Some (B "pw")]);
     (User, Validate, [], [Some (B "a"); Some (B "b"); None]);
     (User, Direct, [], [Some (B "pw")]); (User, Direct, [], [Some []]);
     (Keyfile "-", Direct, B "x", []); (Keyfile "-", Direct, [], []); (Keyfile "k", Validate, [], []);
     (Keyfile "nothing", Direct, [], []); (Env, Direct, [], []); (Generate 0, Direct, [], [])]%string
  = [Ok (B "pw"); Err CPassword; Ok (B "pw"); Err CEmptyKey; Ok (B "x"); Err CEmptyStdin; Ok (B "key");
     Err CKeyfile; Err CEnvironment; Err CEmptyKey].
Proof. vm_compute. reflexivity. Qed.

(** C52 is false: [autogenerate] has a default value, so a passphrase is generated
    although nobody asked for it, and what is typed is not read. *)
Theorem C52_key_source_refuted : exists V g c c' s, matches_ok (mkMatches (args_of CmdEncrypt) g)
  /\ not_given g "autogenerate" /\ not_given g "keyfile" /\ ce_key V = None /\ c_tty c = typed
  /\ run_command V CmdEncrypt g c = (Ok tt, c') /\ c_tty c' = typed /\ In (NPhrase s) (c_out c').
Proof. exact generated_unasked. Qed.
Print Assumptions C52_key_source_refuted.

(** What does hold: the source is the one [key_source] says, unless a debug build
    panics; encrypt and pack never ask for a password. *)
Theorem C52_key_source_partial : forall V cmd g c, In cmd [CmdEncrypt; CmdDecrypt; CmdPack; CmdUnpack] ->
  let r := key_init V (mkMatches (args_of cmd) g) key_params_default "keyfile" c in
  exists k, key_source V cmd g k /\ (forall k', key_source V cmd g k' -> k' = k)
    /\ c_a (snd r) = c_a c /\ c_stdin (snd r) = c_stdin c /\ c_tty (snd r) = c_tty c
    /\ (fst r = Ok k \/ (fst r = Panic /\ k = User /\ ce_debug V = true))
    /\ (In cmd [CmdEncrypt; CmdPack] -> k <> User).
Proof. exact precedence_holds. Qed.
Print Assumptions C52_key_source_partial.

Example C52_case :
  map (fun '(key, cmd, l) => fst (key_init (V key 1%N no_alias) (mkMatches (args_of cmd) (args l))
                                          key_params_default "keyfile" (start [] [])))
    [(Some (B "e"), CmdEncrypt, [("keyfile", ["k"])]); (Some (B "e"), CmdEncrypt, [("autogenerate", ["3"])]);
     (None, CmdPack, [("autogenerate", ["+12"])]); (None, CmdPack, [("autogenerate", ["many"])]);
     (None, CmdEncrypt, []); (None, CmdDecrypt, []); (Some [], CmdDecrypt, [])]%string
  = [Ok (Keyfile "k"); Ok Env; Ok (Generate 12); Ok (Generate 7); Ok (Generate 7); Ok User; Ok Env].
Proof. vm_compute. reflexivity. Qed.

(** C53 is false: [erase] has a default value. *)
Theorem C53_erase_on_request_refuted : exists V g c c', matches_ok (mkMatches (args_of CmdEncrypt) g)
  /\ no_faults (disk c) /\ not_given g "erase" /\ given g "input" "a"
  /\ at_place (disk c) ["home"; "a"]%string = Some (SFile 0 (B "secret"))
  /\ run_command V CmdEncrypt g c = (Ok tt, c')
  /\ at_place (disk c') ["home"; "a"]%string = None.
Proof. exact erased_unasked. Qed.
Print Assumptions C53_erase_on_request_refuted.

(** Every run of encrypt or decrypt that ends without an error has erased its input. *)
Theorem C53_always_erased_refuted : forall V cmd g c c' input output, In cmd [CmdEncrypt; CmdDecrypt] ->
  given g "input" input -> given g "output" output ->
  run_command V cmd g c = (Ok tt, c') ->
  (exists i, stat (disk c) (os_path input) = Some (NFile i)) /\ stat (disk c') (os_path input) = None.
Proof. exact always_erased. Qed.
Print Assumptions C53_always_erased_refuted.

(** For pack it holds: without [erase] everything that existed stays as it is, except
    the content of the output and the header file. *)
Theorem C53_pack_partial : forall V g c o c' inputs output, inodes_ok (disk c) ->
  g "input"%string = inputs -> inputs <> [] -> given g "output" output -> not_given g "erase" ->
  run_command V CmdPack g c = (o, c') ->
  spared_except (disk c) (write_targets g output) (disk c').
Proof. exact pack_not_erasing. Qed.
Print Assumptions C53_pack_partial.

Example C53_case :
  let '(o, c) := run_command V0 CmdPack (args [("input", ["d"]); ("output", ["out"]); ("force", [""])]%string) (start [] []) in
  (o, map (at_place (disk c)) [["home"; "a"]; ["home"; "d"; "x"]; ["home"; "d"]]%string,
   negb (is_nil (s_data (disk c) 2)))
  = (Ok tt, [Some (SFile 0 (B "secret")); Some (SFile 4 (B "inner")); Some SDir], true).
Proof. vm_compute. reflexivity. Qed.

(** C57 is false: the paths are compared as texts; [./a] and [a] are the same file,
    which is truncated before it is read (whatever happens with it afterwards). *)
Theorem C57_onto_itself_refuted : forall al, exists g c o c', matches_ok (mkMatches (args_of CmdEncrypt) g)
  /\ no_faults (disk c) /\ given g "input" "a" /\ given g "output" "./a"
  /\ stat (disk c) (os_path "a") = Some (NFile 0) /\ s_data (disk c) 0 = B "secret"
  /\ run_command (V None 1%N al) CmdEncrypt g c = (o, c') /\ In (FTrunc 0) (s_log (disk c')).
Proof. exact truncated_input. Qed.
Print Assumptions C57_onto_itself_refuted.

(** The header file is not compared at all. *)
Theorem C57_header_refuted : forall al, exists g c o c', matches_ok (mkMatches (args_of CmdEncrypt) g)
  /\ no_faults (disk c) /\ given g "input" "a" /\ given g "header" "a"
  /\ stat (disk c) (os_path "a") = Some (NFile 0) /\ s_data (disk c) 0 = B "secret"
  /\ run_command (V None 1%N al) CmdEncrypt g c = (o, c') /\ In (FTrunc 0) (s_log (disk c')).
Proof. exact truncated_input_header. Qed.
Print Assumptions C57_header_refuted.

(** What does hold: equal texts are an error, and nothing happens. *)
Theorem C57_same_text_partial : forall V cmd g c o c' input, In cmd [CmdEncrypt; CmdDecrypt] ->
  given g "input" input -> given g "output" input -> run_command V cmd g c = (o, c') ->
  o <> Ok tt /\ c_a c' = c_a c.
Proof. exact same_text. Qed.
Print Assumptions C57_same_text_partial.

(** If neither the output nor the header path denotes the input file, nothing happens
    to it before it is erased, which is done last and only if all went well before;
    whatever fails. *)
Theorem C57_spared_partial : forall V cmd g c o c' input output i, In cmd [CmdEncrypt; CmdDecrypt] ->
  given g "input" input -> given g "output" output -> inodes_ok (disk c) ->
  stat (disk c) (os_path input) = Some (NFile i) ->
  (forall t, In t (write_targets g output) -> stat (disk c) t <> Some (NFile i)) ->
  run_command V cmd g c = (o, c') ->
  exists s1, untouched (disk c) s1 i /\ stat s1 (os_path input) = Some (NFile i)
    /\ ((o <> Ok tt /\ same_disk s1 (disk c'))
        \/ (erase_stage s1 (os_path input) i (disk c')
            /\ ((o = Ok tt /\ stat (disk c') (os_path input) = None) \/ exists e, o = Err (CErase e)))).
Proof. exact input_spared. Qed.
Print Assumptions C57_spared_partial.

Example C57_case :
  let '(o, c) := run_command V0 CmdEncrypt (args [("input", ["a"]); ("output", ["a"])]%string) (start [] []) in
  (o, at_place (disk c) ["home"; "a"]%string, s_log (disk c))
  = (Err CSameName, Some (SFile 0 (B "secret")), []).
Proof. vm_compute. reflexivity. Qed.

(** C58: the answer is the one [dialogue] says: the default for an empty line, yes or
    no by the first letter in either case, asking again on anything else; an error at
    the end of the input or if a line is not text; [force] answers without asking. *)
Theorem C58_answers : forall prompt d force c ls, lines (c_stdin c) ls ->
  match force with
  | Force => get_answer prompt d force c = (Ok true, c)
  | Prompt => exists o n r c' ns, dialogue d ls o n r
      /\ get_answer prompt d force c
         = (match o with Some b => Ok b | None => Err CAnswer end, c')
      /\ lines (c_stdin c') r /\ c_a c' = c_a c /\ c_tty c' = c_tty c
      /\ c_out c' = c_out c ++ ns /\ count_asked ns = n
      /\ Forall (fun x => x = NAsk prompt \/ x = NWarn) ns
  end.
Proof. exact answers_hold. Qed.
Print Assumptions C58_answers.

Example C58_case :
  map (fun '(i, d) => let '(o, c) := get_answer "?" d Prompt (start (B i) []) in (o, c_stdin c, count_asked (c_out c)))
    [("y", false); ("No", true); (String "010" "rest", true); (String "013" (String "010" ""), false);
     (String.append "maybe" (String "010" "Yes"), false); (String.append "?" (String "010" ""), true); ("", true);
     (String "255" (String "010" "y"), true)]%string
  = [(Ok true, [], 1); (Ok false, [], 1); (Ok true, B "rest", 1); (Ok false, [], 1); (Ok true, [], 2);
     (Err CAnswer, [], 2); (Err CAnswer, [], 1); (Err CAnswer, B "y", 1)].
Proof. vm_compute. reflexivity. Qed.

(** C60: decrypting never panics, nor runs on for ever: for all files, keys, devices
    and block sizes. *)
Theorem C60_decrypt_never_panics : forall E bs detached pw v, env_ok E ->
  fst (decrypt_execute_bs E bs detached pw v) <> Panic
  /\ fst (decrypt_execute_bs E bs detached pw v) <> Diverge.
Proof. exact decrypt_never_panics. Qed.
Print Assumptions C60_decrypt_never_panics.

Example C60_case :
  forallb (fun n => match decrypt_execute toy false (B "pw")
       (mkWorld (mkDev (firstn n ([xde; x05; x0e; x01; x0c; x01] ++ repeat x41 600)) 0 [] []) (mkDev [] 0 [] []) (mkDev [] 0 [] []) noise []) with
     | (Err _, _) => true | _ => false end) [0; 1; 2; 5; 6; 30; 64; 415; 416; 417; 606]
  = true.
Proof. vm_compute. reflexivity. Qed.

(** C61: a file is erased after encrypting only if decrypting gives it back: without
    failures, and if the three paths are different files, encrypt leaves the input as
    it was, or has erased it and left files from which decrypt with the same key makes
    a file with its content.  ([kept_encrypted] says when not, with a header file.) *)
Theorem C61_encrypted_before_erased : forall V g c o c' input output i,
  env_ok (ce_E V) -> no_faults (disk c) -> inodes_ok (disk c) ->
  given g "input" input -> given g "output" output ->
  stat (disk c) (os_path input) = Some (NFile i) ->
  (forall t, In t (write_targets g output) -> stat (disk c) t <> Some (NFile i)) ->
  (forall h, given g "header" h -> different (disk c) (os_path output) (os_path h)) ->
  run_command V CmdEncrypt g c = (o, c') ->
  (o <> Ok tt -> stat (disk c') (os_path input) = Some (NFile i)
                 /\ s_data (disk c') i = s_data (disk c) i)
  /\ (o = Ok tt -> stat (disk c') (os_path input) = None
       /\ exists raw, key_taken V CmdEncrypt g Validate c output raw
            /\ kept_encrypted V g output (disk c) (disk c') raw (s_data (disk c) i)).
Proof. exact encrypt_keeps. Qed.
Print Assumptions C61_encrypted_before_erased.

(** [encrypted_home]: after encrypting [a] to [new]. *)
Example C61_case :
  exists c',
  run_command V0 CmdDecrypt (args (from_new "k" "out")) encrypted_home = (Ok tt, c')
  /\ at_place (disk encrypted_home) ["home"; "a"]%string = None
  /\ at_place (disk c') ["home"; "out"]%string = Some (SFile 2 (B "secret"))
  /\ at_place (disk c') ["home"; "new"]%string = None.
Proof. exact back_again. Qed.

(** C62: without failures, and if the output is another file, decrypt leaves its input
    as it was unless it ends without an error, which it does only if the key unlocks the
    header read. *)
Theorem C62_decrypt_keeps_input : forall V g c o c' input output i,
  env_ok (ce_E V) -> ce_debug V = false -> no_faults (disk c) -> inodes_ok (disk c) ->
  given g "input" input -> given g "output" output ->
  stat (disk c) (os_path input) = Some (NFile i) ->
  stat (disk c) (os_path output) <> Some (NFile i) ->
  (forall h j, given g "header" h -> stat (disk c) (os_path h) = Some (NFile j) ->
     stat (disk c) (os_path output) <> Some (NFile j)) ->
  run_command V CmdDecrypt g c = (o, c') ->
  (o <> Ok tt -> stat (disk c') (os_path input) = Some (NFile i)
                 /\ s_data (disk c') i = s_data (disk c) i)
  /\ (o = Ok tt -> stat (disk c') (os_path input) = None
       /\ exists raw, key_taken V CmdDecrypt g Direct c output raw
            /\ exists src h aad d mk,
                 (src = s_data (disk c) i
                  \/ exists hp j, given g "header" hp /\ stat (disk c) (os_path hp) = Some (NFile j)
                                  /\ src = s_data (disk c) j)
                 /\ deserialize (mkDev src 0 [] []) = (Ok (h, aad), d)
                 /\ unlocks (ce_E V) raw h mk).
Proof. exact decrypt_keeps. Qed.
Print Assumptions C62_decrypt_keeps_input.

(** A wrong key. *)
Example C62_case :
  let '(o, c) := run_command V0 CmdDecrypt (args (from_new "h" "newer")) encrypted_home in
  (match o with Err (CDecrypt _) => true | _ => false end,
   match at_place (disk c) ["home"; "new"]%string, at_place (disk encrypted_home) ["home"; "new"]%string with
   | Some (SFile i l), Some (SFile j m) => (i =? j) && bytes_eqb l m | _, _ => false end)
  = (true, true).
Proof. vm_compute. reflexivity. Qed.

(** C63 is false: unpack asks clap for a flag that is not one, and panics whatever the
    command line; nothing has happened by then. *)
Theorem C63_unpack_refuted : forall V g c, exists c', run_command V CmdUnpack g c = (Panic, c')
  /\ c_a c' = c_a c /\ c_stdin c' = c_stdin c /\ c_tty c' = c_tty c.
Proof. exact unpack_useless. Qed.
Print Assumptions C63_unpack_refuted.

(** With a command line that clap accepts. *)
Example C63_case :
  args_okb CmdUnpack [("input", ["out"]); ("output", ["to"]); ("keyfile", ["k"])]%string = true
  /\ fst (run_command V0 CmdUnpack (args [("input", ["out"]); ("output", ["to"]); ("keyfile", ["k"])]%string) (start [] [])) = Panic.
Proof. split; vm_compute; reflexivity. Qed.

(** C64 is false: the random index of a passphrase word may be past the end of the
    list ... *)
Theorem C64_phrase_refuted : exists V g c c', matches_ok (mkMatches (args_of CmdEncrypt) g)
  /\ no_faults (disk c) /\ ce_debug V = false /\ run_command V CmdEncrypt g c = (Panic, c').
Proof. exact phrase_panics. Qed.
Print Assumptions C64_phrase_refuted.

(** ... and debug builds panic on every decrypt, which asks clap for arguments that it
    does not have. *)
Theorem C64_debug_refuted : forall V g c input output, ce_debug V = true ->
  given g "input" input -> given g "output" output ->
  exists c', run_command V CmdDecrypt g c = (Panic, c') /\ c_a c' = c_a c.
Proof. exact debug_decrypt_useless. Qed.
Print Assumptions C64_debug_refuted.

(** These are the only panics of encrypt and decrypt, whatever the files contain and
    whatever fails. *)
Theorem C64_no_other_panic_partial : forall V cmd g c o c' input output,
  env_ok (ce_E V) -> alias_calm V -> In cmd [CmdEncrypt; CmdDecrypt] ->
  given g "input" input -> given g "output" output ->
  run_command V cmd g c = (o, c') ->
  o <> Diverge
  /\ (o = Panic -> (cmd = CmdDecrypt /\ ce_debug V = true)
        \/ exists n, key_source V cmd g (Generate n)
             /\ generate_passphrase (ce_words V) (ce_draw V) n = Panic).
Proof. exact encrypt_decrypt_no_panic. Qed.
Print Assumptions C64_no_other_panic_partial.

(** ... nor in the other commands that can be run. *)
Theorem C64_other_commands_partial : forall V cmd g c c',
  env_ok (ce_E V) -> alias_calm V -> In cmd [CmdErase; CmdHash; CmdPack] ->
  g "input"%string <> [] -> (cmd = CmdPack -> g "output"%string <> []) ->
  run_command V cmd g c = (Panic, c') ->
  exists n, key_source V cmd g (Generate n)
    /\ generate_passphrase (ce_words V) (ce_draw V) n = Panic.
Proof. exact commands_no_panic. Qed.
Print Assumptions C64_other_commands_partial.

Example C64_case :
  map (fun d => match fst (run_command (V None d no_alias) CmdEncrypt (args plain) (start [] [])) with
                Ok _ => 0 | Err _ => 1 | Panic => 2 | Diverge => 3 end) [0; 1; 2; 3]%N
  = [0; 0; 2; 0].
Proof. vm_compute. reflexivity. Qed.

(** C65: an existing output is not touched unless [force] is given or the answer is
    yes (an empty line is). *)
Theorem C65_output_consent : forall V cmd g c o c' output ls,
  In cmd [CmdEncrypt; CmdDecrypt; CmdPack] ->
  g "input"%string <> [] -> given g "output" output -> not_given g "force" ->
  exists_path (disk c) (os_path output) = true ->
  lines (c_stdin c) ls -> (forall n r, ~ dialogue true ls (Some true) n r) ->
  run_command V cmd g c = (o, c') ->
  o <> Ok tt /\ c_a c' = c_a c.
Proof. exact overwrite_declined. Qed.
Print Assumptions C65_output_consent.

(** C65 is false for the run as a whole: when the question about the header file comes,
    the output is empty already, and saying no leaves it so. *)
Theorem C65_declined_refuted : exists V g c c', matches_ok (mkMatches (args_of CmdEncrypt) g)
  /\ no_faults (disk c) /\ given g "output" "out"
  /\ at_place (disk c) ["home"; "out"]%string = Some (SFile 2 (B "old"))
  /\ run_command V CmdEncrypt g c = (Err CExit, c')
  /\ at_place (disk c') ["home"; "out"]%string = Some (SFile 2 []).
Proof. exact header_declined. Qed.
Print Assumptions C65_declined_refuted.

Example C65_case :
  map (fun i => let '(o, c) := run_command V0 CmdEncrypt
                    (args [("input", ["a"]); ("output", ["out"]); ("keyfile", ["k"])]%string) (start i []) in
                (o, bytes_eqb (s_data (disk c) 2) (B "old")))
      [[x6e]; []; B "what"; [x0a]]
  = [(Err CExit, true); (Err CAnswer, true); (Err CAnswer, true); (Ok tt, false)].
Proof. vm_compute. reflexivity. Qed.

(** C66 is false: the output is truncated before the key is tried, so that a wrong key
    costs the old output. *)
Theorem C66_old_output_refuted : exists V g c c' e, matches_ok (mkMatches (args_of CmdDecrypt) g)
  /\ no_faults (disk c) /\ ce_debug V = false
  /\ at_place (disk c) ["home"; "out"]%string = Some (SFile 2 (B "old"))
  /\ run_command V CmdDecrypt g c = (Err (CDecrypt e), c')
  /\ at_place (disk c') ["home"; "out"]%string = Some (SFile 2 []).
Proof. exact old_output_lost. Qed.
Print Assumptions C66_old_output_refuted.

(** What does hold, whatever fails: apart from erasing its input at the end, decrypt
    changes nothing but the file that the output path denotes. *)
Theorem C66_only_output_partial : forall V g c o c' input output, ce_debug V = false ->
  given g "input" input -> given g "output" output ->
  run_command V CmdDecrypt g c = (o, c') ->
  two_stages (disk c) [os_path output] (os_path input) o (disk c').
Proof. exact decrypt_writes_output. Qed.
Print Assumptions C66_only_output_partial.

(** Not an encrypted file at all. *)
Example C66_case :
  let '(o, c) := run_command V0 CmdDecrypt (args [("input", ["a"]); ("output", ["out"]); ("keyfile", ["k"]); ("force", [""])]%string) (start [] []) in
  (match o with Err (CDecrypt _) => true | _ => false end,
   map (at_place (disk c)) [["home"; "a"]; ["home"; "out"]; ["home"; "h"]]%string)
  = (true, [Some (SFile 0 (B "secret")); Some (SFile 2 []); Some (SFile 3 (B "oldh"))]).
Proof. vm_compute. reflexivity. Qed.

(** C67: erasing a directory takes [force] or the answer yes (an empty line is no). *)
Theorem C67_erase_directory_consent : forall V g c o c' input ls,
  given g "input" input -> not_given g "force" -> is_dir (disk c) (os_path input) = true ->
  lines (c_stdin c) ls -> (forall n r, ~ dialogue false ls (Some true) n r) ->
  run_command V CmdErase g c = (o, c') ->
  o <> Ok tt /\ same_disk (disk c) (disk c').
Proof. exact erase_dir_declined. Qed.
Print Assumptions C67_erase_directory_consent.

Example C67_case :
  map (fun i => let '(o, c) := run_command V0 CmdErase (args [("input", ["d"])]%string) (start i []) in
                (o, at_place (disk c) ["home"; "d"; "x"]%string))
      [[x0a]; [x6e; x0a]; []; [x59; x0a]]
  = [(Err CExit, Some (SFile 4 (B "inner"))); (Err CExit, Some (SFile 4 (B "inner")));
     (Err CAnswer, Some (SFile 4 (B "inner"))); (Ok tt, None)].
Proof. vm_compute. reflexivity. Qed.

(** C68: hash prints the BLAKE3 hash of each file, in the order given; it changes
    nothing. *)
Theorem C68_hash_prints : forall V g c o c', g "input"%string <> [] -> run_command V CmdHash g c = (o, c') ->
  same_disk (disk c) (disk c') /\ o <> Panic /\ o <> Diverge
  /\ (no_faults (disk c) ->
       forall is, Forall2 (fun f i => stat (disk c) (os_path f) = Some (NFile i)) (g "input"%string) is ->
       o = Ok tt
       /\ c_out c' = c_out c ++ map (fun fi => NHash (fst fi) (hex_encode (ce_blake3 V (s_data (disk c) (snd fi)))))
                                  (combine (g "input"%string) is)).
Proof. exact hash_prints. Qed.
Print Assumptions C68_hash_prints.

(** Here the hash of a file is its first four bytes. *)
Example C68_case :
  c_out (snd (run_command V0 CmdHash (args [("input", ["d/x"; "a"; "./a"])]%string) (start [] [])))
  = [NHash "d/x" "696e6e65"; NHash "a" "73656372"; NHash "./a" "73656372"]%string.
Proof. vm_compute. reflexivity. Qed.

(** C69 is false: pack puts its output into the directory it packs, and erases both. *)
Theorem C69_pack_erase_refuted : exists V g c c', matches_ok (mkMatches (args_of CmdPack) g)
  /\ no_faults (disk c) /\ tree_ok (disk c) /\ given g "input" "d" /\ given g "output" "d/new"
  /\ at_place (disk c) ["home"; "d"; "x"]%string = Some (SFile 4 (B "inner"))
  /\ run_command V CmdPack g c = (Ok tt, c')
  /\ forall r, inside ["home"; "d"]%string r -> at_place (disk c') r = None.
Proof. exact archive_lost. Qed.
Print Assumptions C69_pack_erase_refuted.

(** C70 is false: a key on standard input loses its first line to the question about
    the output file; the same input does not decrypt what it has encrypted. *)
Theorem C70_stdin_key_refuted : exists V g c c' c'' e, matches_ok (mkMatches (args_of CmdEncrypt) g)
  /\ no_faults (disk c) /\ given g "keyfile" "-" /\ c_stdin c = x0a :: B "key"
  /\ run_command V CmdEncrypt g c = (Ok tt, c')
  /\ run_command V CmdDecrypt (args [("input", ["out"]); ("output", ["new"]); ("keyfile", ["-"])]%string)
       (mkCli (c_a c') (c_stdin c) [] []) = (Err (CDecrypt e), c'').
Proof. exact key_cut. Qed.
Print Assumptions C70_stdin_key_refuted.

(** What does hold: if the output does not exist, the key is all of standard input. *)
Theorem C70_stdin_key_partial : forall V g c c' input output i,
  env_ok (ce_E V) -> no_faults (disk c) -> inodes_ok (disk c) ->
  given g "input" input -> given g "output" output -> given g "keyfile" "-" ->
  stat (disk c) (os_path input) = Some (NFile i) ->
  (forall t, In t (write_targets g output) -> stat (disk c) t <> Some (NFile i)) ->
  (forall h, given g "header" h -> different (disk c) (os_path output) (os_path h)) ->
  exists_path (disk c) (os_path output) = false ->
  run_command V CmdEncrypt g c = (Ok tt, c') ->
  kept_encrypted V g output (disk c) (disk c') (c_stdin c) (s_data (disk c) i).
Proof. exact stdin_key. Qed.
Print Assumptions C70_stdin_key_partial.

Example C70_case :
  let '(o, c) := run_command V0 CmdEncrypt (args (from_stdin "new")) (start (x0a :: B "key") []) in
  let '(o', c') := run_command V0 CmdDecrypt (args [("input", ["new"]); ("output", ["back"]); ("keyfile", ["-"])]%string)
                     (mkCli (c_a c) (x0a :: B "key") [] []) in
  (o, o', at_place (disk c') ["home"; "back"]%string) = (Ok tt, Ok tt, Some (SFile 11 (B "secret"))).
Proof. vm_compute. reflexivity. Qed.

(** C94: encrypt and decrypt refuse an output that is the same text as the input ... *)
Theorem C94_same_text : forall V cmd g c o c' input, In cmd [CmdEncrypt; CmdDecrypt] ->
  given g "input" input -> given g "output" input ->
  (cmd = CmdDecrypt -> ce_debug V = false) -> run_command V cmd g c = (o, c') ->
  o = Err CSameName /\ c_a c' = c_a c /\ c_stdin c' = c_stdin c /\ c_tty c' = c_tty c.
Proof. exact refused_same. Qed.
Print Assumptions C94_same_text.

(** ... and pack that, and any input that is a file, wherever it stands in the list;
    before anything is asked or written. *)
Theorem C94_pack : forall V g c o c' output, given g "output" output -> g "input"%string <> [] ->
  run_command V CmdPack g c = (o, c') ->
  (In output (g "input"%string) -> o = Err CSameName
     /\ c_a c' = c_a c /\ c_stdin c' = c_stdin c /\ c_tty c' = c_tty c)
  /\ (~ In output (g "input"%string) ->
      (exists f i, In f (g "input"%string) /\ stat (disk c) (os_path f) = Some (NFile i)) ->
      o = Err CInputIsFile /\ c_a c' = c_a c /\ c_stdin c' = c_stdin c /\ c_tty c' = c_tty c).
Proof. exact refused_pack. Qed.
Print Assumptions C94_pack.

Example C94_case :
  map (fun l => let '(o, c) := run_command V0 CmdPack (args l) (start (B "y") [Some (B "pw")]) in
                (o, s_log (disk c), c_stdin c, c_tty c))
    [[("input", ["d"; "a"]); ("output", ["out"])]; [("input", ["d"; "out"; "a"]); ("output", ["out"])]]%string
  = [(Err CInputIsFile, [], B "y", [Some (B "pw")]); (Err CSameName, [], B "y", [Some (B "pw")])].
Proof. vm_compute. reflexivity. Qed.
