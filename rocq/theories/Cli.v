(** crates/volaris-cli: argument handling, key sources, prompts, and the
    subcommands.

    The arguments are those clap (4.5) hands to the program: for every argument
    of the subcommand the values given on the command line.  How clap reads a
    command line is not modelled; what it guarantees is [matches_ok].  Standard
    output is a list of what is printed; printing does not fail.  Standard input
    is the list of bytes still to come. *)
From Coq Require Import List Arith NArith ZArith Ascii String Bool.
From Verif Require Import Bytes Outcome IO Primitives Crypto Header Stream KeyModel EncDec.
From Verif Require Import Overwrite Hash FS Erase Archive.
Import ListNotations.
Local Open Scope nat_scope.
Local Open Scope list_scope.

(** ** Arguments *)

(** An argument's definition: name, default value, required, several values,
    conflicts. *)
Record arg := mkArg {
  a_id : string; a_default : option string; a_required : bool; a_many : bool;
  a_conflicts : list string
}.
Definition required (id : string) : arg := mkArg id None true false [].
Definition optional (id : string) : arg := mkArg id None false false [].
Definition defaulted (id v : string) (c : list string) : arg := mkArg id (Some v) false false c.

Inductive command := CmdEncrypt | CmdDecrypt | CmdErase | CmdHash | CmdPack | CmdUnpack.

(** cli.rs lines 7-309: no argument has an action, so all take a value
    ([ArgAction::Set]), also those meant as flags.  There are no subcommands
    [header] and [key], so lines 34-66 of main.rs are not reached; CliTools.v has
    the functions they would call. *)
Definition args_of (c : command) : list arg :=
  match c with
  | CmdEncrypt =>     (* cli.rs lines 8-72 *)
      [required "input"; required "output"; optional "keyfile";
       defaulted "erase" "1" []; optional "hash"; optional "argon";
       defaulted "autogenerate" "7" ["keyfile"]; optional "header"; optional "force";
       optional "aes"]%string
  | CmdDecrypt =>     (* cli.rs lines 74-121 *)
      [required "input"; required "output"; optional "keyfile"; optional "header";
       defaulted "erase" "1" []; optional "hash"; optional "force"]%string
  | CmdErase =>       (* cli.rs lines 131-154 *)
      [required "input"; optional "force"; defaulted "passes" "1" []]%string
  | CmdHash =>        (* cli.rs lines 155-165 *)
      [mkArg "input" None true true []]%string
  | CmdPack =>        (* cli.rs lines 166-248 *)
      [mkArg "input" None true true []; required "output"; optional "erase";
       optional "argon"; optional "verbose"; defaulted "autogenerate" "7" ["keyfile"];
       optional "header"; optional "zstd"; optional "recursive"; optional "keyfile";
       optional "hash"; optional "force"; optional "aes"]%string
  | CmdUnpack =>      (* cli.rs lines 249-306 *)
      [required "input"; required "output"; optional "keyfile"; optional "header";
       defaulted "erase" "1" []; optional "verbose"; optional "hash"; optional "force"]%string
  end.

(** The values given. *)
Record matches := mkMatches { m_args : list arg; m_given : string -> list string }.

Definition find_arg (m : matches) (id : string) : option arg :=
  find (fun a => String.eqb (a_id a) id) (m_args m).

(** What clap guarantees when it returns. *)
Definition matches_ok (m : matches) : Prop :=
  (forall id, m_given m id <> [] -> find_arg m id <> None)
  /\ forall a, In a (m_args m) ->
       (a_required a = true -> m_given m (a_id a) <> [])
       /\ (a_many a = false -> List.length (m_given m (a_id a)) <= 1)
       /\ forall c, In c (a_conflicts a) -> m_given m (a_id a) = [] \/ m_given m c = [].

(** ** The machine *)

(** What is printed. *)
Inductive note :=
| NAsk (prompt : string)                 (* a question *)
| NWarn | NInfo
| NPhrase (s : string)                   (* the generated passphrase *)
| NHash (file hash : string)
| NLine (s : string).                     (* a line of header details *)

Record cli := mkCli {
  c_a : asys;                            (* the file system *)
  c_stdin : bytes;
  c_tty : list (option bytes);           (* what is typed at the next password
                                            prompts; [None]: reading fails *)
  c_out : list note
}.

(** The rest of the environment.  [ce_debug]: built with debug assertions;
    [ce_key]: the variable VOLARIS_KEY, if it is set to text; [ce_words]: the word
    list; [ce_draw]: the random draws for a passphrase; [ce_sched]: the order of the
    threads' steps.  [ce_alias]: what encrypting or decrypting does to the files
    written when one of them is open under another handle as well; this is left
    open. *)
Record alias_result := mkAlias {
  al_outcome : outcome unit unit;
  al_data : nat -> bytes; al_writes : list (nat * (nat * bytes));
  al_rng : rng; al_trace : trace
}.
Record cenv := mkCenv {
  ce_E : env; ce_Z : zip_env; ce_blake3 : bytes -> bytes;
  ce_debug : bool; ce_key : option bytes;
  ce_words : list string; ce_draw : nat -> N;
  ce_pick : rng -> string * rng; ce_sched : list nat;
  ce_alias : asys -> alias_result
}.

Inductive cli_error :=
| CExit                                  (* [exit(0)] *)
| CSameName | CInputIsFile
| CStorage (e : st_error)
| CEncrypt (e : enc_error) | CDecrypt (e : dec_error)
| CPack (e : pack_error) | CUnpack (e : unpack_error)
| CErase (e : erase_error) | CEraseDir (e : erase_dir_error)
| CAlias
| CAnswer                                (* prompt.rs lines 28-35 *)
| CPassword                              (* prompt.rs lines 65-71 *)
| CKeyfile | CEmptyStdin | CEmptyKeyfile | CEmptyKey | CEnvironment | CNoKeySource
| CMissing                               (* an argument without a value *)
| CHashOpen | CHash (e : hash_error).

Definition on_a {E A} (m : M asys E A) : M cli E A :=
  zoom c_a (fun a c => mkCli a (c_stdin c) (c_tty c) (c_out c)) m.
Definition on_fs {E A} (m : M sys E A) : M cli E A := on_a (on_sys m).
Definition say (n : note) : M cli cli_error unit := fun c =>
  (Ok tt, mkCli (c_a c) (c_stdin c) (c_tty c) (c_out c ++ [n])).

(** A path given as text.  The empty text denotes nothing (std, Unix), here a path
    below a name that does not exist. *)
Definition os_path (s : string) : path :=
  if String.eqb s "" then mkPath false [Nm ""; Nm ""]%string else parse_path s.

(** [ArgMatches::contains_id] (clap): given or defaulted; asking for an unknown
    name panics in debug builds. *)
Definition contains_id (V : cenv) (m : matches) (id : string) : M cli cli_error bool :=
  match find_arg m id with
  | Some a => ret (match m_given m id with [] => match a_default a with Some _ => true | None => false end
                                         | _ => true end)
  | None => if ce_debug V then panic else ret false
  end.
(** [ArgMatches::get_one::<String>] (clap) *)
Definition get_one (V : cenv) (m : matches) (id : string) : M cli cli_error (option string) :=
  match find_arg m id with
  | Some a => ret (match m_given m id with [] => a_default a | v :: _ => Some v end)
  | None => if ce_debug V then panic else ret None
  end.
(** [ArgMatches::get_many::<String>] (clap) *)
Definition get_many (V : cenv) (m : matches) (id : string)
  : M cli cli_error (option (list string)) :=
  match find_arg m id with
  | Some a => ret (match m_given m id with
                   | [] => match a_default a with Some v => Some [v] | None => None end
                   | l => Some l end)
  | None => if ce_debug V then panic else ret None
  end.
(** [ArgMatches::get_flag] (clap): panics unless the argument is a flag
    ([ArgAction::SetTrue] or [SetFalse]); no argument is. *)
Definition get_flag (V : cenv) (m : matches) (id : string) : M cli cli_error bool := panic.

(** parameters.rs lines 13-20 *)
Definition get_params (V : cenv) (name : string) (m : matches) : M cli cli_error (list string) :=
  v <- get_many V m name ;; lift_opt CMissing v.
(** parameters.rs lines 22-28 *)
Definition get_param (V : cenv) (name : string) (m : matches) : M cli cli_error string :=
  v <- get_one V m name ;; lift_opt CMissing v.

(** [str::parse::<i32>] (std): a sign, then digits; out of range is an error. *)
Fixpoint digits (s : string) (acc : Z) : option Z :=
  match s with
  | EmptyString => Some acc
  | String c s' =>
      let n := Z.of_N (N_of_ascii c) in
      if ((48 <=? n) && (n <=? 57))%Z then digits s' (acc * 10 + (n - 48))%Z else None
  end.
Definition parse_i32 (s : string) : option Z :=
  let in_range (z : Z) := if ((-2147483648 <=? z) && (z <=? 2147483647))%Z then Some z else None in
  match s with
  | EmptyString => None
  | String c s' =>
      if (Ascii.eqb c "-" || Ascii.eqb c "+")%char then
        match s' with
        | EmptyString => None
        | _ => match digits s' 0 with
               | Some z => in_range (if Ascii.eqb c "-" then - z else z)%Z
               | None => None
               end
        end
      else match digits s 0 with Some z => in_range z | None => None end
  end.

(** ** Key sources (global/states.rs) *)

(** states.rs lines 55-61 *)
Inductive key := Keyfile (path : string) | Env | Generate (n : Z) | User.
(** states.rs lines 160-166 *)
Record key_params := mkKeyParams {
  kp_user : bool; kp_env : bool; kp_autogenerate : bool; kp_keyfile : bool
}.
(** states.rs lines 169-176 *)
Definition key_params_default : key_params := mkKeyParams true true true true.

(** states.rs lines 123-157 *)
Definition key_init (V : cenv) (m : matches) (params : key_params) (descriptor : string)
  : M cli cli_error key :=
  k <- contains_id V m descriptor ;;
  if (k && kp_keyfile params)%bool then
    v <- get_one V m descriptor ;; s <- lift_opt CMissing v ;; ret (Keyfile s)
  else if ((match ce_key V with Some _ => true | None => false end) && kp_env params)%bool then
    ret Env
  else
    g <- contains_id V m "autogenerate" ;;
    if (g && kp_autogenerate params)%bool then
      v <- get_one V m "autogenerate" ;; s <- lift_opt CMissing v ;;
      match parse_i32 s with
      | Some n => ret (Generate n)
      | None => say NWarn ;; ret (Generate 7)
      end
    else if kp_user params then ret User
    else err CNoKeySource.

(** states.rs lines 63-67 *)
Inductive password_state := Validate | Direct.

(** [rpassword::prompt_password] *)
Definition prompt_password : M cli cli_error bytes := fun c =>
  match c_tty c with
  | Some l :: r => (Ok l, mkCli (c_a c) (c_stdin c) r (c_out c))
  | None :: r => (Err CPassword, mkCli (c_a c) (c_stdin c) r (c_out c))
  | [] => (Err CPassword, c)
  end.

Fixpoint bytes_eqb (a b : bytes) : bool :=
  match a, b with
  | [], [] => true
  | x :: a', y :: b' => Byte.eqb x y && bytes_eqb a' b'
  | _, _ => false
  end.
Definition is_nil (l : bytes) : bool := match l with [] => true | _ => false end.

(** prompt.rs lines 63-82.  Every round takes two inputs, so the loop ends
    within one round more than there are inputs (proved). *)
Fixpoint password_loop (fuel : nat) (st : password_state) : M cli cli_error bytes :=
  match fuel with
  | O => diverge
  | S fuel' =>
      input <- prompt_password ;;
      match st with
      | Direct => ret input
      | Validate =>
          again <- prompt_password ;;
          if (bytes_eqb input again && negb (is_nil input))%bool then ret input
          else say NWarn ;; password_loop fuel' st
      end
  end.
Definition get_password (st : password_state) : M cli cli_error bytes := fun c =>
  password_loop (S (List.length (c_tty c))) st c.

(** states.rs lines 69-75: everything from standard input *)
Definition read_stdin : M cli cli_error bytes := fun c =>
  (Ok (c_stdin c), mkCli (c_a c) [] (c_tty c) (c_out c)).
(** [File::open] (std) and states.rs lines 69-75.  A directory can be opened but
    not read. *)
Definition read_keyfile (p : path) : M sys cli_error bytes :=
  call_or CKeyfile (fun s =>
    match stat s p with
    | Some (NFile i) =>
        let '(plan, s1) := next_plan s in
        match dev_read_to_end (mkDev (s_data s i) 0 plan []) with
        | (Ok l, _) => (Ok l, s1)
        | (Err _, _) => (Err CKeyfile, s1)
        | (Panic, _) => (Panic, s1)
        | (Diverge, _) => (Diverge, s1)
        end
    | _ => (Err CKeyfile, s)
    end).

(** states.rs lines 82-121 *)
Definition get_secret (V : cenv) (k : key) (st : password_state) : M cli cli_error bytes :=
  secret <-
    match k with
    | Keyfile path =>
        if String.eqb path "-" then
          secret <- read_stdin ;;
          if is_nil secret then err CEmptyStdin else ret secret
        else
          secret <- on_fs (read_keyfile (os_path path)) ;;
          if is_nil secret then err CEmptyKeyfile else ret secret
    | Env => lift_opt CEnvironment (ce_key V)
    | User => get_password st
    | Generate i =>
        passphrase <- lift (match generate_passphrase (ce_words V) (ce_draw V) i with
                            | Ok s => Ok s | Err _ => Panic (* no errors *)
                            | Panic => Panic | Diverge => Diverge end) ;;
        say (NPhrase passphrase) ;;
        ret (list_byte_of_string passphrase)
    end ;;
  if is_nil secret then err CEmptyKey else ret secret.

(** ** Prompts (cli/prompt.rs) *)

(** states.rs lines 49-53 *)
Inductive force_mode := Force | Prompt.

Definition newline : byte := x0a.
Definition carriage : byte := x0d.

(** [Stdin::read_line] (std): up to and with the next newline, or to the end. *)
Fixpoint read_line (l : bytes) : bytes * bytes :=
  match l with
  | [] => ([], [])
  | b :: r => if Byte.eqb b newline then ([b], r)
              else let '(x, y) := read_line r in (b :: x, y)
  end.

(** [str::from_utf8] (std): well-formed UTF-8 (Unicode, table 3-7). *)
Definition between (lo hi : N) (b : byte) : bool :=
  ((lo <=? Byte.to_N b) && (Byte.to_N b <=? hi))%N.
Definition tail_byte := between 128 191.
Fixpoint utf8 (l : bytes) : bool :=
  match l with
  | [] => true
  | a :: r =>
      if between 0 127 a then utf8 r else
      match r with
      | [] => false
      | b :: r1 =>
          if between 194 223 a then tail_byte b && utf8 r1 else
          match r1 with
          | [] => false
          | c :: r2 =>
              if between 224 239 a then
                (if between 224 224 a then between 160 191 b
                 else if between 237 237 a then between 128 159 b else tail_byte b)
                && tail_byte c && utf8 r2
              else
              match r2 with
              | [] => false
              | d :: r3 =>
                  between 240 244 a
                  && (if between 240 240 a then between 144 191 b
                      else if between 244 244 a then between 128 143 b else tail_byte b)
                  && tail_byte c && tail_byte d && utf8 r3
              end
          end
      end
  end.

(** prompt.rs lines 31-45: the first character in lower case.  No character other
    than [Y] and [N] becomes one of the four characters recognised (Unicode). *)
Definition read_answer (default : bool) (line : bytes) : option bool :=
  match line with
  | [] => None
  | b :: _ =>
      if (Byte.eqb b newline || Byte.eqb b carriage)%bool then Some default
      else if (Byte.eqb b "y" || Byte.eqb b "Y")%bool then Some true
      else if (Byte.eqb b "n" || Byte.eqb b "N")%bool then Some false
      else None
  end.

(** prompt.rs lines 20-46.  Every round takes a byte from standard input, or ends
    in an error. *)
Fixpoint answer_loop (fuel : nat) (prompt : string) (default : bool) : M cli cli_error bool :=
  match fuel with
  | O => diverge
  | S fuel' =>
      say (NAsk prompt) ;;
      line <- (fun c => let '(x, y) := read_line (c_stdin c) in
                        (Ok x, mkCli (c_a c) y (c_tty c) (c_out c))) ;;
      if negb (utf8 line) then err CAnswer else
      if is_nil line then err CAnswer else
      match read_answer default line with
      | Some b => ret b
      | None => say NWarn ;; answer_loop fuel' prompt default
      end
  end.

(** prompt.rs lines 15-47 *)
Definition get_answer (prompt : string) (default : bool) (force : force_mode)
  : M cli cli_error bool :=
  match force with
  | Force => ret true
  | Prompt => fun c => answer_loop (S (List.length (c_stdin c))) prompt default c
  end.

Definition exists_prompt (name : string) : string :=
  String.append name " already exists, would you like to overwrite?".

(** prompt.rs lines 53-61 *)
Definition overwrite_check (name : string) (force : force_mode) : M cli cli_error bool := fun c =>
  if exists_path (fst (c_a c)) (os_path name)
  then get_answer (exists_prompt name) true force c
  else (Ok true, c).

(** The callers: [if !overwrite_check(..)? { exit(0); }] *)
Definition check_or_exit (name : string) (force : force_mode) : M cli cli_error unit :=
  b <- overwrite_check name force ;; if b then ret tt else err CExit.

(** ** Parameters (global/parameters.rs) *)

(** structs.rs lines 9-16; [cp_erase]: [EraseFile] with the passes, or
    [IgnoreFile]; [cp_header]: detached at this path. *)
Record crypto_params := mkCryptoParams {
  cp_hash : bool; cp_force : force_mode; cp_erase : option Z; cp_key : key;
  cp_header : option string; cp_hashing : hashing_algorithm
}.
(** structs.rs lines 18-23, without the print mode and the directory mode, which
    pack does not use *)
Record pack_params := mkPackParams { pp_erase : bool; pp_compression : compression }.

(** parameters.rs lines 75-81; header.rs (volaris-crypto) lines 40-41 *)
Definition hashing_algorithm_of (V : cenv) (m : matches) : M cli cli_error hashing_algorithm :=
  b <- contains_id V m "argon" ;; ret (if b then Argon2id 3 else Blake3Balloon 5).
(** parameters.rs lines 83-89 *)
Definition algorithm_of (V : cenv) (m : matches) : M cli cli_error algorithm :=
  b <- contains_id V m "aes" ;; ret (if b then Aes256Gcm else XChaCha20Poly1305).
(** parameters.rs lines 177-183 *)
Definition forcemode (V : cenv) (m : matches) : M cli cli_error force_mode :=
  b <- contains_id V m "force" ;; ret (if b then Force else Prompt).

(** parameters.rs lines 30-73 *)
Definition parameter_handler (V : cenv) (m : matches) : M cli cli_error crypto_params :=
  k <- key_init V m key_params_default "keyfile" ;;
  hash <- contains_id V m "hash" ;;
  force <- forcemode V m ;;
  e <- contains_id V m "erase" ;;
  erase <- (if e : bool then
              v <- get_one V m "erase" ;; s <- lift_opt CMissing v ;;
              match parse_i32 s with
              | Some n => ret (Some n)
              | None => say NWarn ;; ret (Some 1%Z)
              end
            else ret None) ;;
  header <- get_one V m "header" ;;
  ha <- hashing_algorithm_of V m ;;
  ret (mkCryptoParams hash force erase k header ha).

(** parameters.rs lines 91-111 *)
Definition erase_params (V : cenv) (m : matches) : M cli cli_error (Z * force_mode) :=
  p <- contains_id V m "passes" ;;
  passes <- (if p : bool then
               v <- get_one V m "passes" ;; s <- lift_opt CMissing v ;;
               match parse_i32 s with
               | Some n => ret n
               | None => say NWarn ;; ret 1%Z
               end
             else say NWarn ;; ret 1%Z) ;;
  force <- forcemode V m ;;
  ret (passes, force).

(** parameters.rs lines 113-175 *)
Definition pack_params_of (V : cenv) (m : matches) : M cli cli_error (crypto_params * pack_params) :=
  k <- key_init V m key_params_default "keyfile" ;;
  hash <- contains_id V m "hash" ;;
  force <- forcemode V m ;;
  header <- get_one V m "header" ;;
  ha <- hashing_algorithm_of V m ;;
  verbose <- contains_id V m "verbose" ;;
  recursive <- contains_id V m "recursive" ;;
  e <- contains_id V m "erase" ;;
  z <- contains_id V m "zstd" ;;
  ret (mkCryptoParams hash force None k header ha, mkPackParams e (if z then Zstd else Stored)).

(** ** Subcommands *)

Definition storage {A} (m : M sys st_error A) : M cli cli_error A := on_fs (map_err CStorage m).

(** [stor.create_file(p).or_else(|_| stor.write_file(p))] *)
Definition create_or_write (p : path) : M sys st_error entry :=
  or_else (create_file p) (fun _ => write_file p).

(** storage.rs lines 441-458 ([try_reader], [try_writer]) *)
Definition try_handle (e : entry) : M cli cli_error handle :=
  match e with EFile h => ret h | EDir _ => err (CStorage StFileAccess) end.
Definition ok_handle (e : option entry) : option handle :=
  match e with Some (EFile h) => Some h | _ => None end.

(** subcommands/hashing.rs lines 10-26 *)
Definition hash_file (V : cenv) (p : path) : M sys cli_error string :=
  call_or CHashOpen (fun s =>
    match stat s p with
    | Some (NFile i) =>
        let '(plan, s1) := next_plan s in
        match hash_execute (Blake3Hasher (ce_blake3 V)) [] (mkDev (s_data s i) 0 plan []) with
        | (Ok h, _) => (Ok h, s1)
        | (Err e, _) => (Err (CHash e), s1)
        | (Panic, _) => (Panic, s1)
        | (Diverge, _) => (Diverge, s1)
        end
    | Some NDir => (Err (CHash HashReadData), s)   (* opened, but not read *)
    | _ => (Err CHashOpen, s)
    end).
Fixpoint hash_files (V : cenv) (files : list string) : M cli cli_error unit :=
  match files with
  | [] => ret tt
  | f :: r => h <- on_fs (hash_file V (os_path f)) ;; say (NHash f h) ;; hash_files V r
  end.

Definition erase_dir_prompt : string :=
  "This is a directory, would you like to erase all files within it?".

(** subcommands/erase.rs lines 13-47 *)
Definition secure_erase (V : cenv) (input : string) (passes : Z) (force : force_mode)
  : M cli cli_error unit :=
  file <- storage (read_file (os_path input)) ;;
  if entry_is_dir file then
    b <- get_answer erase_dir_prompt false force ;;
    if (b : bool) then on_fs (map_err CEraseDir (erase_dir_execute (ce_sched V) file passes))
    else err CExit
  else on_fs (map_err CErase (run (erase_execute (os_path input) passes))).

Definition same_file (a b : handle) : bool := h_ino a =? h_ino b.
Definition same_opt (a : handle) (b : option handle) : bool :=
  match b with Some h => same_file a h | None => false end.
Definition is_some {A} (o : option A) : bool := match o with Some _ => true | None => false end.

(** The files written are [ws]. *)
Definition alias (V : cenv) (ws : list nat) : M asys cli_error unit := fun a =>
  let r := ce_alias V a in
  let s := fst a in
  let among (j : nat) := existsb (Nat.eqb j) ws in
  (match al_outcome r with
   | Ok x => Ok x | Err _ => Err CAlias | Panic => Panic | Diverge => Diverge end,
   (mkSys (s_nodes s) (fun j => if among j then al_data r j else s_data s j) (s_next s)
          (s_cwd s) (s_tmp s) (s_faults s) (s_plans s) (al_rng r)
          (s_log s ++ map (fun w => FWrite (fst w) (fst (snd w)) (snd (snd w)))
                          (filter (fun w => among (fst w)) (al_writes r))),
    al_trace r)).
Definition written (ho : handle) (hh : option handle) : list nat :=
  h_ino ho :: match hh with Some h => [h_ino h] | None => [] end.

(** [tools::encrypt::execute] on open files *)
Definition encrypt_files (V : cenv) (req : enc_request) (hi ho : handle) (hh : option handle)
  : M asys cli_error unit :=
  if (same_file ho hi || same_opt ho hh || same_opt hi hh)%bool then alias V (written ho hh) else
  map_err CEncrypt (fun a =>
    let '((o, _), a1) := run_world (encrypt_execute (ce_E V) req) hi ho hh a in (o, a1)).
(** [tools::decrypt::execute] on open files *)
Definition decrypt_files (V : cenv) (raw_key : bytes) (hi ho : handle) (hh : option handle)
  : M asys cli_error unit :=
  if (same_file ho hi || same_opt ho hh)%bool then alias V [h_ino ho] else
  map_err CDecrypt (fun a =>
    let '((o, _), a1) :=
      run_world (decrypt_execute (ce_E V) (is_some hh) raw_key) hi ho hh a in (o, a1)).

(** The header file for writing (encrypt.rs lines 41-50, pack.rs lines 64-73) *)
Definition open_header (p : crypto_params) : M cli cli_error (option entry) :=
  match cp_header p with
  | None => ret None
  | Some path =>
      check_or_exit path (cp_force p) ;;
      h <- storage (create_or_write (os_path path)) ;; ret (Some h)
  end.
(** ... and for reading (decrypt.rs lines 35-38, unpack.rs lines 30-33) *)
Definition read_header (p : crypto_params) : M cli cli_error (option entry) :=
  match cp_header p with
  | None => ret None
  | Some path => h <- storage (read_file (os_path path)) ;; ret (Some h)
  end.
Definition flush_opt (h : option entry) : M cli cli_error unit :=
  match h with Some e => storage (flush_file e) | None => ret tt end.

(** subcommands/encrypt.rs lines 15-82 *)
Definition encrypt_stream (V : cenv) (input output : string) (p : crypto_params) (a : algorithm)
  : M cli cli_error unit :=
  if String.eqb input output then err CSameName else
  check_or_exit output (cp_force p) ;;
  fi <- storage (read_file (os_path input)) ;;
  raw_key <- get_secret V (cp_key p) Validate ;;
  fo <- storage (create_or_write (os_path output)) ;;
  fh <- open_header p ;;
  hi <- try_handle fi ;;
  ho <- try_handle fo ;;
  on_a (encrypt_files V (mkEncReq (is_some (ok_handle fh)) raw_key (mkHT V5 a StreamMode) (cp_hashing p))
                      hi ho (ok_handle fh)) ;;
  flush_opt fh ;;
  storage (flush_file fo) ;;
  (if cp_hash p then hash_files V [output] else ret tt) ;;
  match cp_erase p with
  | Some passes => secure_erase V input passes (cp_force p)
  | None => ret tt
  end.

(** subcommands/decrypt.rs lines 17-64 *)
Definition decrypt_stream (V : cenv) (input output : string) (p : crypto_params)
  : M cli cli_error unit :=
  if String.eqb input output then err CSameName else
  check_or_exit output (cp_force p) ;;
  fi <- storage (read_file (os_path input)) ;;
  fh <- read_header p ;;
  raw_key <- get_secret V (cp_key p) Direct ;;
  fo <- storage (create_or_write (os_path output)) ;;
  hi <- try_handle fi ;;
  ho <- try_handle fo ;;
  on_a (decrypt_files V raw_key hi ho (ok_handle fh)) ;;
  storage (flush_file fo) ;;
  (if cp_hash p then hash_files V [input] else ret tt) ;;
  match cp_erase p with
  | Some passes => secure_erase V input passes (cp_force p)
  | None => ret tt
  end.

(** [Path::is_file] (std) *)
Definition is_file (s : sys) (p : path) : bool :=
  match stat s p with Some (NFile _) => true | _ => false end.

Fixpoint each {A B} (f : A -> M cli cli_error B) (l : list A) : M cli cli_error (list B) :=
  match l with
  | [] => ret []
  | x :: r => y <- f x ;; ys <- each f r ;; ret (y :: ys)
  end.
Fixpoint each_ {A} (f : A -> M cli cli_error unit) (l : list A) : M cli cli_error unit :=
  match l with [] => ret tt | x :: r => f x ;; each_ f r end.

(** subcommands/pack.rs lines 34-129.  If the output and the header are one file,
    the temporary file is left out. *)
Definition pack_cli (V : cenv) (inputs : list string) (output : string) (p : crypto_params)
  (pp : pack_params) (a : algorithm) : M cli cli_error unit :=
  if existsb (fun f => String.eqb f output) inputs then err CSameName else
  (fun c => if existsb (fun f => is_file (fst (c_a c)) (os_path f)) inputs
            then (Err CInputIsFile, c) else (Ok tt, c)) ;;
  check_or_exit output (cp_force p) ;;
  input_files <- each (fun f => storage (read_file (os_path f))) inputs ;;
  raw_key <- get_secret V (cp_key p) Validate ;;
  fo <- storage (create_or_write (os_path output)) ;;
  fh <- open_header p ;;
  lists <- each (fun f => if entry_is_dir f then storage (read_dir f) else ret [f]) input_files ;;
  ho <- try_handle fo ;;
  on_a (if same_opt ho (ok_handle fh) then alias V [h_ino ho] else
        map_err CPack
          (pack_execute (ce_E V) (ce_Z V) (ce_pick V)
             (mkPackReq ho (ok_handle fh) (List.concat lists) (pp_compression pp) raw_key
                        (mkHT V5 a StreamMode) (cp_hashing p)))) ;;
  flush_opt fh ;;
  storage (flush_file fo) ;;
  (if cp_hash p then hash_files V [output] else ret tt) ;;
  (if pp_erase pp then each_ (fun f => secure_erase V f 1%Z (cp_force p)) inputs else ret tt).

(** subcommands/erase.rs through subcommands.rs lines 48-52 *)
Definition erase_cmd (V : cenv) (m : matches) : M cli cli_error unit :=
  pf <- erase_params V m ;;
  input <- get_param V "input" m ;;
  secure_erase V input (fst pf) (snd pf).
(** subcommands.rs lines 24-35 *)
Definition encrypt_cmd (V : cenv) (m : matches) : M cli cli_error unit :=
  p <- parameter_handler V m ;;
  a <- algorithm_of V m ;;
  input <- get_param V "input" m ;;
  output <- get_param V "output" m ;;
  encrypt_stream V input output p a.
(** subcommands.rs lines 37-46 *)
Definition decrypt_cmd (V : cenv) (m : matches) : M cli cli_error unit :=
  p <- parameter_handler V m ;;
  input <- get_param V "input" m ;;
  output <- get_param V "output" m ;;
  decrypt_stream V input output p.
(** subcommands.rs lines 54-65 *)
Definition pack_cmd (V : cenv) (m : matches) : M cli cli_error unit :=
  pp <- pack_params_of V m ;;
  a <- algorithm_of V m ;;
  inputs <- get_params V "input" m ;;
  output <- get_param V "output" m ;;
  pack_cli V inputs output (fst pp) (snd pp) a.
(** subcommands.rs lines 67-84.  Line 72 always panics, so
    subcommands/unpack.rs is not reached; CliTools.v has its function. *)
Definition unpack_cmd (V : cenv) (m : matches) : M cli cli_error unit :=
  p <- parameter_handler V m ;;
  v <- get_flag V m "verbose" ;;
  panic.
(** subcommands.rs lines 86-94 *)
Definition hash_cmd (V : cenv) (m : matches) : M cli cli_error unit :=
  l <- get_many V m "input" ;;
  hash_files V (match l with Some fs => fs | None => [] end).

(** main.rs lines 14-69 *)
Definition run_command (V : cenv) (c : command) (given : string -> list string)
  : M cli cli_error unit :=
  let m := mkMatches (args_of c) given in
  match c with
  | CmdEncrypt => encrypt_cmd V m
  | CmdDecrypt => decrypt_cmd V m
  | CmdErase => erase_cmd V m
  | CmdHash => hash_cmd V m
  | CmdPack => pack_cmd V m
  | CmdUnpack => unpack_cmd V m
  end.
