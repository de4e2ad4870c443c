(** Encrypt, decrypt and pack while other programs use the same file system.
    The other models have the file system to themselves.  Here others may do anything
    with it at two moments: when the key has been asked for, before the output is opened,
    and when the output is complete, before the input is erased.  What they do in between
    (while the library runs, or between asking about the header file and opening it) and
    within erasing is not modelled. *)
From Coq Require Import List Arith NArith ZArith Ascii String Bool.
From Verif Require Import Bytes Outcome IO Primitives Crypto Header Stream KeyModel EncDec.
From Verif Require Import Overwrite Hash FS Erase Archive Cli.
Import ListNotations.
Local Open Scope nat_scope.
Local Open Scope list_scope.

Record others := mkOthers { o_asking : sys -> sys; o_erasing : sys -> sys }.
Definition meanwhile (f : sys -> sys) : M cli cli_error unit := fun c =>
  (Ok tt, mkCli (f (fst (c_a c)), snd (c_a c)) (c_stdin c) (c_tty c) (c_out c)).

(** subcommands/encrypt.rs lines 15-82, as [encrypt_stream]: up to line 74 ... *)
Definition encrypt_part (O : others) (V : cenv) (input output : string) (p : crypto_params) (a : algorithm)
  : M cli cli_error unit :=
  if String.eqb input output then err CSameName else
  check_or_exit output (cp_force p) ;;
  fi <- storage (read_file (os_path input)) ;;
  raw_key <- get_secret V (cp_key p) Validate ;;
  meanwhile (o_asking O) ;;
  fo <- storage (create_or_write (os_path output)) ;;
  fh <- open_header p ;;
  hi <- try_handle fi ;;
  ho <- try_handle fo ;;
  on_a (encrypt_files V (mkEncReq (is_some (ok_handle fh)) raw_key (mkHT V5 a StreamMode) (cp_hashing p))
                      hi ho (ok_handle fh)) ;;
  flush_opt fh ;;
  storage (flush_file fo) ;;
  (if cp_hash p then hash_files V [output] else ret tt).
(** ... and lines 76-79. *)
Definition erase_part (O : others) (V : cenv) (input : string) (p : crypto_params) : M cli cli_error unit :=
  meanwhile (o_erasing O) ;;
  match cp_erase p with
  | Some passes => secure_erase V input passes (cp_force p)
  | None => ret tt
  end.
Definition encrypt_stream_o (O : others) (V : cenv) (input output : string) (p : crypto_params) (a : algorithm)
  : M cli cli_error unit :=
  encrypt_part O V input output p a ;; erase_part O V input p.

(** subcommands/decrypt.rs lines 17-64, as [decrypt_stream] *)
Definition decrypt_part (O : others) (V : cenv) (input output : string) (p : crypto_params)
  : M cli cli_error unit :=
  if String.eqb input output then err CSameName else
  check_or_exit output (cp_force p) ;;
  fi <- storage (read_file (os_path input)) ;;
  fh <- read_header p ;;
  raw_key <- get_secret V (cp_key p) Direct ;;
  meanwhile (o_asking O) ;;
  fo <- storage (create_or_write (os_path output)) ;;
  hi <- try_handle fi ;;
  ho <- try_handle fo ;;
  on_a (decrypt_files V raw_key hi ho (ok_handle fh)) ;;
  storage (flush_file fo) ;;
  (if cp_hash p then hash_files V [input] else ret tt).
Definition decrypt_stream_o (O : others) (V : cenv) (input output : string) (p : crypto_params)
  : M cli cli_error unit :=
  decrypt_part O V input output p ;; erase_part O V input p.

(** subcommands/pack.rs lines 34-129, as [pack_cli] *)
Definition pack_cli_o (O : others) (V : cenv) (inputs : list string) (output : string) (p : crypto_params)
  (pp : pack_params) (a : algorithm) : M cli cli_error unit :=
  if existsb (fun f => String.eqb f output) inputs then err CSameName else
  (fun c => if existsb (fun f => is_file (fst (c_a c)) (os_path f)) inputs
            then (Err CInputIsFile, c) else (Ok tt, c)) ;;
  check_or_exit output (cp_force p) ;;
  input_files <- each (fun f => storage (read_file (os_path f))) inputs ;;
  raw_key <- get_secret V (cp_key p) Validate ;;
  meanwhile (o_asking O) ;;
  fo <- storage (create_or_write (os_path output)) ;;
  fh <- open_header p ;;
  lists <- each (fun f => if entry_is_dir f then storage (read_dir f) else ret [f]) input_files ;;
  ho <- try_handle fo ;;
  on_a (if same_opt ho (ok_handle fh) then alias V [h_ino ho] else
        map_err CPack
          (pack_execute (ce_E V) (ce_Z V) (ce_pick V)
             (mkPackReq ho (ok_handle fh) (List.concat lists) (pp_compression pp) raw_key
                        (mkHT V5 a StreamMode) (cp_hashing p)))) ;;
  flush_opt fh ;;
  storage (flush_file fo) ;;
  (if cp_hash p then hash_files V [output] else ret tt) ;;
  meanwhile (o_erasing O) ;;
  (if pp_erase pp then each_ (fun f => secure_erase V f 1%Z (cp_force p)) inputs else ret tt).

(** subcommands.rs lines 24-35, up to erasing *)
Definition encrypt_so_far (O : others) (V : cenv) (given : string -> list string) : M cli cli_error unit :=
  let m := mkMatches (args_of CmdEncrypt) given in
  p <- parameter_handler V m ;;
  a <- algorithm_of V m ;;
  input <- get_param V "input" m ;;
  output <- get_param V "output" m ;;
  encrypt_part O V input output p a.

(** subcommands.rs lines 37-46, up to erasing *)
Definition decrypt_so_far (O : others) (V : cenv) (given : string -> list string) : M cli cli_error unit :=
  let m := mkMatches (args_of CmdDecrypt) given in
  p <- parameter_handler V m ;;
  input <- get_param V "input" m ;;
  output <- get_param V "output" m ;;
  decrypt_part O V input output p.

(** subcommands.rs lines 24-65 and main.rs lines 14-69 *)
Definition run_command_o (O : others) (V : cenv) (c : command) (given : string -> list string)
  : M cli cli_error unit :=
  let m := mkMatches (args_of c) given in
  match c with
  | CmdEncrypt =>
      p <- parameter_handler V m ;;
      a <- algorithm_of V m ;;
      input <- get_param V "input" m ;;
      output <- get_param V "output" m ;;
      encrypt_stream_o O V input output p a
  | CmdDecrypt =>
      p <- parameter_handler V m ;;
      input <- get_param V "input" m ;;
      output <- get_param V "output" m ;;
      decrypt_stream_o O V input output p
  | CmdPack =>
      pp <- pack_params_of V m ;;
      a <- algorithm_of V m ;;
      inputs <- get_params V "input" m ;;
      output <- get_param V "output" m ;;
      pack_cli_o O V inputs output (fst pp) (snd pp) a
  | _ => run_command V c given
  end.
