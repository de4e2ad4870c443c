(** crates/volaris-cli: subcommands/{header,key,unpack}.rs, the functions behind
    the subcommands [header], [key] and [unpack].  The first two are not defined in
    cli.rs, and [unpack] panics before it calls its function (Cli.v), so the program
    does not reach them; they are modelled as functions of their arguments. *)
From Coq Require Import List Arith NArith ZArith Ascii String Bool DecimalString.
From Verif Require Import Bytes Outcome IO Primitives Crypto Header Stream KeyModel EncDec KeyOps HeaderOps.
From Verif Require Import Overwrite Hash FS Erase Archive Cli.
Import ListNotations.
Local Open Scope nat_scope.
Local Open Scope list_scope.

Inductive tool_error :=
| TCli (e : cli_error)
| TOpen                                  (* the file cannot be opened *)
| TNoHeader                              (* header.rs lines 20-24 *)
| THeader (e : hdr_error)                (* [Header::deserialize] *)
| TOldVersion                            (* key.rs lines 25-29, 69-73, 113-117, 148-152 *)
| TRewind
| TKey (e : key_error) | THop (e : hop_error) | TUnpack (e : unpack_error).

Definition up {A} (m : M cli cli_error A) : M cli tool_error A := map_err TCli m.

(** [OpenOptions] with read and write (std): links are followed, nothing is created
    or truncated; a directory cannot be opened for writing. *)
Definition open_rw (p : path) : M sys tool_error handle :=
  call_or TOpen (fun s =>
    match stat s p with
    | Some (NFile i) => let '(plan, s1) := next_plan s in (Ok (mkHandle p i 0 plan), s1)
    | _ => (Err TOpen, s)
    end).
(** [File::open] (std).  A directory can be opened but not read; here the error
    comes at once, and is not told apart. *)
Definition open_ro (p : path) : M sys tool_error handle := open_rw p.

(** Run device code on one open file. *)
Definition run_one {E A} (m : M world E A) (h : handle) (a : asys)
  : (outcome E A * handle) * asys :=
  let s := fst a in
  let '(o, w) := m (mkWorld (handle_dev s h) no_dev no_dev (s_rng s) (snd a)) in
  ((o, move_handle (w_in w) h), (with_rng (w_rng w) (put_handle (w_in w) h s), w_tr w)).
Definition on_handle {E A} (m : M world E A) (h : handle) : M cli E (A * handle) :=
  on_a (fun a => let '((o, h'), a') := run_one m h a in
                 (match o with
                  | Ok x => Ok (x, h') | Err e => Err e | Panic => Panic | Diverge => Diverge end, a')).
(** ... on two.  They may be the same file: the code run so reads the first only
    before it uses the second. *)
Definition on_handles {E A} (m : M world E A) (hi ho : handle) : M cli E A :=
  on_a (fun a => let '((o, _), a') := run_world m hi ho None a in (o, a')).

(** ** subcommands/header.rs *)

(** volaris-crypto header.rs lines 60-70, 116-123; primitives.rs lines 35-59 *)
Definition show_version (v : header_version) : string :=
  match v with V1 => "V1" | V2 => "V2" | V3 => "V3" | V4 => "V4" | V5 => "V5" end.
Definition show_number (z : Z) : string := NilZero.string_of_int (Z.to_int z).
Definition show_hashing (h : hashing_algorithm) : string :=
  match h with
  | Argon2id i => "Argon2id (param v" ++ show_number i ++ ")"
  | Blake3Balloon i => "BLAKE3-Balloon (param v" ++ show_number i ++ ")"
  end.
Definition show_algorithm (a : algorithm) : string :=
  match a with
  | Aes256Gcm => "AES-256-GCM" | XChaCha20Poly1305 => "XChaCha20-Poly1305"
  | DeoxysII256 => "Deoxys-II-256" end.
Definition show_mode (m : mode) : string :=
  match m with MemoryMode => "Memory Mode" | StreamMode => "Stream Mode" end.

(** header.rs lines 49-57 *)
Definition slot_lines (i : nat) (k : keyslot) : list string :=
  ["Keyslot " ++ show_number (Z.of_nat i) ++ ":";
   "  Hashing Algorithm: " ++ show_hashing (ks_hash k);
   "  Salt: " ++ hex_encode (ks_salt k) ++ " (hex)";
   "  Master Key: " ++ hex_encode (ks_enc k) ++ " (hex, encrypted)";
   "  Master Key Nonce: " ++ hex_encode (ks_nonce k) ++ " (hex)"]%string.
Fixpoint slots_lines (i : nat) (l : list keyslot) : list string :=
  match l with [] => [] | k :: r => slot_lines i k ++ slots_lines (S i) r end.

(** header.rs lines 28-58; [None]: [unwrap] panics *)
Definition detail_lines (h : header) (aad : bytes) : option (list string) :=
  let first :=
    ["Header version: " ++ show_version (ht_version (h_type h));
     "Encryption algorithm: " ++ show_algorithm (ht_algorithm (h_type h));
     "Encryption mode: " ++ show_mode (ht_mode (h_type h));
     "Encryption nonce: " ++ hex_encode (h_nonce h) ++ " (hex)";
     "AAD: " ++ hex_encode aad ++ " (hex)"]%string in
  let old (i : Z) :=
    match h_salt h with
    | Some salt => Some (first ++ ["Salt: " ++ hex_encode salt ++ " (hex)";
                                   "Hashing Algorithm: " ++ show_hashing (Argon2id i)]%string)
    | None => None
    end in
  match ht_version (h_type h) with
  | V1 => old 1%Z
  | V2 => old 2%Z
  | V3 => old 3%Z
  | V4 | V5 => match h_keyslots h with
               | Some l => Some (first ++ slots_lines 0 l)
               | None => None
               end
  end.

Fixpoint say_lines (l : list string) : M cli cli_error unit :=
  match l with [] => ret tt | s :: r => say (NLine s) ;; say_lines r end.

(** header.rs lines 14-62.  The lines printed before an [unwrap] panics are left
    out; it does not panic (proved). *)
Definition details (input : string) : M cli tool_error unit :=
  h <- on_fs (open_ro (os_path input)) ;;
  r <- on_handle (map_err (fun _ => TNoHeader) (on_in deserialize)) h ;;
  match detail_lines (fst (fst r)) (snd (fst r)) with
  | None => panic
  | Some l => up (say_lines l)
  end.

(** header.rs lines 67-89 *)
Definition dump (input output : string) (force : force_mode) : M cli tool_error unit :=
  fi <- up (storage (read_file (os_path input))) ;;
  up (check_or_exit output force) ;;
  fo <- up (storage (create_or_write (os_path output))) ;;
  hi <- up (try_handle fi) ;;
  ho <- up (try_handle fo) ;;
  on_handles (map_err THop header_dump) hi ho ;;
  up (storage (flush_file fo)).

(** header.rs lines 96-117 *)
Definition restore (input output : string) : M cli tool_error unit :=
  fi <- up (storage (read_file (os_path input))) ;;
  ho <- on_fs (open_rw (os_path output)) ;;
  hi <- up (try_handle fi) ;;
  on_handles (map_err THop header_restore) hi ho.

(** header.rs lines 123-139 *)
Definition strip (input : string) : M cli tool_error unit :=
  h <- on_fs (open_rw (os_path input)) ;;
  on_handle (map_err THop header_strip) h ;;
  ret tt.

(** ** subcommands/key.rs *)

(** parameters.rs lines 185-215: the old key, the new key, the algorithm *)
Definition key_manipulation_params (V : cenv) (m : matches)
  : M cli cli_error (key * key * hashing_algorithm) :=
  old <- key_init V m (mkKeyParams true false false true) "keyfile-old" ;;
  new <- key_init V m (mkKeyParams true false true true) "keyfile-new" ;;
  ha <- hashing_algorithm_of V m ;;
  ret (old, new, ha).

(** key.rs lines 15-34, 59-78, 103-122, 139-157: open, parse, check, rewind *)
Definition open_v5 (input : string) : M cli tool_error handle :=
  h <- on_fs (open_rw (os_path input)) ;;
  r <- on_handle (map_err THeader (on_in deserialize)) h ;;
  if below_v5 (ht_version (h_type (fst (fst r)))) then err TOldVersion
  else
    r2 <- on_handle (map_err (fun _ => TRewind) (on_in dev_rewind)) (snd r) ;;
    ret (snd r2).

Definition info_if_user (k : key) : M cli cli_error unit :=
  match k with User => say NInfo | _ => ret tt end.

(** key.rs lines 14-56 *)
Definition add (V : cenv) (input : string) (p : key * key * hashing_algorithm)
  : M cli tool_error unit :=
  let '(key_old, key_new, ha) := p in
  h <- open_v5 input ;;
  up (info_if_user key_old) ;;
  old <- up (get_secret V key_old Direct) ;;
  up (info_if_user key_new) ;;
  new <- up (get_secret V key_new Validate) ;;
  on_handle (map_err TKey (key_add (ce_E V) old new ha)) h ;;
  ret tt.
(** key.rs lines 58-100 *)
Definition change (V : cenv) (input : string) (p : key * key * hashing_algorithm)
  : M cli tool_error unit :=
  let '(key_old, key_new, ha) := p in
  h <- open_v5 input ;;
  up (info_if_user key_old) ;;
  old <- up (get_secret V key_old Direct) ;;
  up (info_if_user key_new) ;;
  new <- up (get_secret V key_new Validate) ;;
  on_handle (map_err TKey (key_change (ce_E V) old new ha)) h ;;
  ret tt.
(** key.rs lines 102-136 *)
Definition delete (V : cenv) (input : string) (k : key) : M cli tool_error unit :=
  h <- open_v5 input ;;
  up (info_if_user k) ;;
  old <- up (get_secret V k Direct) ;;
  on_handle (map_err TKey (key_delete (ce_E V) old)) h ;;
  ret tt.
(** key.rs lines 138-171: opened for reading only, which makes no difference to
    code that does not write *)
Definition verify (V : cenv) (input : string) (k : key) : M cli tool_error unit :=
  h <- open_v5 input ;;
  up (info_if_user k) ;;
  raw_key <- up (get_secret V k Direct) ;;
  on_handle (map_err TKey (key_verify (ce_E V) raw_key)) h ;;
  ret tt.

(** ** subcommands/unpack.rs *)

(** [Path::file_name] (std) *)
Definition file_name (p : path) : option string :=
  match rev (filter (fun c => match c with Cur => false | _ => true end) (p_comps p)) with
  | Nm n :: _ => Some n
  | _ => None
  end.

(** unpack.rs lines 55-60 *)
Definition expect_answer (prompt : string) (force : force_mode) : M cli cli_error bool := fun c =>
  match get_answer prompt true force c with
  | (Err _, c') => (Panic, c')
  | x => x
  end.
(** unpack.rs lines 46-72 for each of the paths; [expect] panics.  [s]: the file
    system at that time.  Names are text, so [to_str] does not fail. *)
Fixpoint zip_questions (s : sys) (force : force_mode) (verbose : bool) (ps : list path)
  : M cli cli_error (list bool) :=
  match ps with
  | [] => ret []
  | p :: r =>
      match file_name p with
      | None => panic
      | Some name =>
          b <- (if exists_path s p then expect_answer (exists_prompt name) force else ret true) ;;
          (if b then (if verbose then say NInfo else ret tt) else say NWarn) ;;
          bs <- zip_questions s force verbose r ;;
          ret (b :: bs)
      end
  end.

(** The callback, with what is read and printed left out of the state: the
    questions are asked after the temporary file has been created and before
    anything else changes the names in the file system. *)
Definition ask_user (V : cenv) (force : force_mode) (verbose : bool) (c : cli) (ps : list path)
  : option (list bool) :=
  match fst (zip_questions (snd (create_temp_file (ce_pick V) (fst (c_a c)))) force verbose ps c) with
  | Ok l => Some l
  | _ => None
  end.

(** unpack.rs lines 20-81.  Nothing reads standard input after the questions.  An
    empty output denotes the current directory. *)
Definition unpack_cli (V : cenv) (input output : string) (verbose : bool) (p : crypto_params)
  : M cli tool_error unit :=
  fi <- up (storage (read_file (os_path input))) ;;
  fh <- up (read_header p) ;;
  raw_key <- up (get_secret V (cp_key p) Direct) ;;
  hi <- up (try_handle fi) ;;
  (fun c =>
     on_a (map_err TUnpack
             (unpack_execute (ce_E V) (ce_Z V) (ce_pick V) (ce_sched V)
                (mkUnpackReq hi (ok_handle fh) raw_key (parse_path output)
                   (ask_user V (cp_force p) verbose c)))) c) ;;
  (if cp_hash p then up (hash_files V [input]) else ret tt).

(** ** subcommands.rs lines 96-156

    [m]: the matches of the subcommand's subcommand.  [None] for them
    ([subcommand_matches] and [unwrap]) does not occur, since main.rs calls the
    functions only for the subcommand found. *)

(** subcommands.rs lines 96-105 *)
Definition header_dump_cmd (V : cenv) (m : matches) : M cli tool_error unit :=
  force <- up (forcemode V m) ;;
  input <- up (get_param V "input" m) ;;
  output <- up (get_param V "output" m) ;;
  dump input output force.
(** subcommands.rs lines 107-114 *)
Definition header_restore_cmd (V : cenv) (m : matches) : M cli tool_error unit :=
  input <- up (get_param V "input" m) ;;
  output <- up (get_param V "output" m) ;;
  restore input output.
(** subcommands.rs lines 116-120 *)
Definition header_strip_cmd (V : cenv) (m : matches) : M cli tool_error unit :=
  input <- up (get_param V "input" m) ;; strip input.
(** subcommands.rs lines 122-126 *)
Definition header_details_cmd (V : cenv) (m : matches) : M cli tool_error unit :=
  input <- up (get_param V "input" m) ;; details input.
(** subcommands.rs lines 128-134 *)
Definition key_change_cmd (V : cenv) (m : matches) : M cli tool_error unit :=
  p <- up (key_manipulation_params V m) ;;
  input <- up (get_param V "input" m) ;;
  change V input p.
(** subcommands.rs lines 136-142 *)
Definition key_add_cmd (V : cenv) (m : matches) : M cli tool_error unit :=
  p <- up (key_manipulation_params V m) ;;
  input <- up (get_param V "input" m) ;;
  add V input p.
(** subcommands.rs lines 144-149 *)
Definition key_del_cmd (V : cenv) (m : matches) : M cli tool_error unit :=
  k <- up (key_init V m key_params_default "keyfile") ;;
  input <- up (get_param V "input" m) ;;
  delete V input k.
(** subcommands.rs lines 151-156 *)
Definition key_verify_cmd (V : cenv) (m : matches) : M cli tool_error unit :=
  k <- up (key_init V m key_params_default "keyfile") ;;
  input <- up (get_param V "input" m) ;;
  verify V input k.
