(** A process may have only so many files open (RLIMIT_NOFILE, usually 1024): pack and
    erase with that limit.  The other models leave it out.
    Only the files opened by [read_dir] (storage.rs lines 161-174), which are all open at
    once, and those open at the same time are counted; not those of the threads of
    erase_dir.rs, of reading a key file and of hashing. *)
From Coq Require Import List Arith NArith ZArith Ascii String Bool.
From Verif Require Import Bytes Outcome IO Primitives Crypto Header Stream KeyModel EncDec.
From Verif Require Import Overwrite Hash FS Erase Archive Cli.
Import ListNotations.
Local Open Scope nat_scope.
Local Open Scope list_scope.

(** How many files may be open besides the three standard ones, and how many the
    [WalkDir] (walkdir) has open itself when it comes to a path: the directories on the
    way, and at most ten ([max_open]). *)
Record limits := mkLimits { l_open : nat; l_walk : path -> nat }.

(** storage.rs lines 166-173 for one path: [WalkDir] opens a directory to go on, and
    [read_file] (lines 99-110) opens a file.  [used] are open already. *)
Definition read_next (L : limits) (used : nat) (p : path) : M sys st_error entry := fun s =>
  if is_dir s p then
    if used + l_walk L p <=? l_open L then read_file p s else (Err StDirEntries, s)
  else
    if S (used + l_walk L p) <=? l_open L then read_file p s else (Err StOpenRead, s).
Definition opens (e : entry) : nat := match e with EFile _ => 1 | EDir _ => 0 end.
Fixpoint read_all_l (L : limits) (used : nat) (ps : list path) : M sys st_error (list entry) :=
  match ps with
  | [] => ret []
  | p :: ps' =>
      (e <- read_next L used p ;;
       es <- read_all_l L (opens e + used) ps' ;; ret (e :: es))%m
  end.
Definition opened_now (es : list entry) : nat := List.length (filter (fun e => negb (entry_is_dir e)) es).
(** storage.rs lines 161-174 *)
Definition read_dir_l (L : limits) (used : nat) (e : entry) : M sys st_error (list entry) :=
  match e with
  | EFile _ => err StFileAccess
  | EDir p => call_or StDirEntries (fun s => read_all_l L used (listing s p) s)
  end.

(** erase_dir.rs lines 39-75 *)
Definition erase_dir_execute_l (L : limits) (used : nat) (sched : list nat) (e : entry) (passes : Z)
  : M sys erase_dir_error unit :=
  if negb (entry_is_dir e) then err EdInvalidFileType else
  (files <- map_err (fun _ => EdReadDirEntries) (read_dir_l L used e) ;;
   ts <- (fun s => let '(ts, s') := run_sched sched (erase_threads passes files) s in
                   (Ok ts, s')) ;;
   lift (join_all ts) ;;
   map_err (fun _ => EdRemoveDir) (remove_dir_all e))%m.
(** subcommands/erase.rs lines 13-47 *)
Definition secure_erase_l (L : limits) (used : nat) (V : cenv) (input : string) (passes : Z) (force : force_mode)
  : M cli cli_error unit :=
  file <- storage (read_file (os_path input)) ;;
  if entry_is_dir file then
    b <- get_answer erase_dir_prompt false force ;;
    if (b : bool) then on_fs (map_err CEraseDir (erase_dir_execute_l L used (ce_sched V) file passes))
    else err CExit
  else on_fs (map_err CErase (run (erase_execute (os_path input) passes))).

(** subcommands/pack.rs lines 73-90: one directory after the other *)
Fixpoint list_all (L : limits) (used : nat) (fs : list entry) : M cli cli_error (list (list entry)) :=
  match fs with
  | [] => ret []
  | f :: r =>
      es <- (if entry_is_dir f then storage (read_dir_l L used f) else ret [f]) ;;
      ls <- list_all L (used + opened_now es) r ;;
      ret (es :: ls)
  end.

(** subcommands/pack.rs lines 34-129, as [pack_cli].  The output and the header are
    open when the directories are read, and all files when the temporary file (pack.rs
    line 64) is made; the output still is when they are erased.  No input is a file. *)
Definition pack_cli_l (L : limits) (V : cenv) (inputs : list string) (output : string)
  (p : crypto_params) (pp : pack_params) (a : algorithm) : M cli cli_error unit :=
  if existsb (fun f => String.eqb f output) inputs then err CSameName else
  (fun c => if existsb (fun f => is_file (fst (c_a c)) (os_path f)) inputs
            then (Err CInputIsFile, c) else (Ok tt, c)) ;;
  check_or_exit output (cp_force p) ;;
  input_files <- each (fun f => storage (read_file (os_path f))) inputs ;;
  raw_key <- get_secret V (cp_key p) Validate ;;
  fo <- storage (create_or_write (os_path output)) ;;
  fh <- open_header p ;;
  let used := S (match fh with Some _ => 1 | None => 0 end) in
  lists <- list_all L used input_files ;;
  ho <- try_handle fo ;;
  on_a (if same_opt ho (ok_handle fh) then alias V [h_ino ho] else
        map_err CPack
          (if used + opened_now (List.concat lists) <? l_open L then
             pack_execute (ce_E V) (ce_Z V) (ce_pick V)
               (mkPackReq ho (ok_handle fh) (List.concat lists) (pp_compression pp) raw_key
                          (mkHT V5 a StreamMode) (cp_hashing p))
           else err PkCreateArchive)) ;;
  flush_opt fh ;;
  storage (flush_file fo) ;;
  (if cp_hash p then hash_files V [output] else ret tt) ;;
  (if pp_erase pp then each_ (fun f => secure_erase_l L 1 V f 1%Z (cp_force p)) inputs else ret tt).
(** subcommands.rs lines 48-65 and main.rs lines 14-69; the other commands open at most
    four files at a time *)
Definition pack_cmd_l (L : limits) (V : cenv) (m : matches) : M cli cli_error unit :=
  pp <- pack_params_of V m ;;
  a <- algorithm_of V m ;;
  inputs <- get_params V "input" m ;;
  output <- get_param V "output" m ;;
  pack_cli_l L V inputs output (fst pp) (snd pp) a.
Definition erase_cmd_l (L : limits) (V : cenv) (m : matches) : M cli cli_error unit :=
  pf <- erase_params V m ;;
  input <- get_param V "input" m ;;
  secure_erase_l L 0 V input (fst pf) (snd pf).
Definition run_command_l (L : limits) (V : cenv) (c : command) (given : string -> list string)
  : M cli cli_error unit :=
  match c with
  | CmdPack => pack_cmd_l L V (mkMatches (args_of c) given)
  | CmdErase => erase_cmd_l L V (mkMatches (args_of c) given)
  | _ => run_command V c given
  end.
