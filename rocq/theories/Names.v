(** File names that are not UTF-8: pack with the check of pack.rs line 80
    ([f.path().to_str().ok_or(Error::ReadData)?]), which Archive.v leaves out. *)
From Coq Require Import List Arith NArith ZArith Ascii String Bool.
From Verif Require Import Bytes Outcome IO Primitives Crypto Header Stream KeyModel EncDec.
From Verif Require Import Overwrite Hash FS Erase Archive Cli.
Import ListNotations.
Local Open Scope nat_scope.
Local Open Scope list_scope.

(** [Path::to_str] (std) gives a text *)
Definition to_str (p : path) : option string :=
  if utf8 (list_byte_of_string (render p)) then Some (render p) else None.

(** pack.rs lines 79-104 *)
Fixpoint pack_add_t (bs : nat) (es : list entry) (acc : list zent) (s : sys)
  : (outcome pack_error unit * list zent) * sys :=
  match es with
  | [] => ((Ok tt, acc), s)
  | e :: es' =>
      match to_str (entry_path e) with
      | None => ((Err PkReadData, acc), s)
      | Some n =>
          match e with
          | EDir _ =>
              if has_name (dir_name n) acc then ((Err PkAddDirToArchive, acc), s)
              else pack_add_t bs es' (acc ++ [mkZent (dir_name n) []]) s
          | EFile h =>
              if has_name n acc then ((Err PkAddFileToArchive, acc), s)
              else
                let d := handle_dev s h in
                let '((o, data), d') := pack_read (S (List.length (d_data d))) bs [] d in
                let acc' := acc ++ [mkZent n data] in
                match o with
                | Ok _ => pack_add_t bs es' acc' s
                | Err e => ((Err e, acc'), s)
                | Panic => ((Panic, acc'), s)
                | Diverge => ((Diverge, acc'), s)
                end
          end
      end
  end.

(** pack.rs lines 64-108 *)
Definition pack_archive_t (Z : zip_env) (bs : nat) (req : pack_request) (h : handle) (s : sys)
  : (outcome pack_error unit * handle) * sys :=
  let '((o, zs), s1) := pack_add_t bs (pr_files req) [] s in
  let '((w, h'), s2) := put_archive (z_encode Z (pr_compression req) zs) h s1 in
  (((match o with
     | Ok _ => match w with
               | Ok _ => Ok tt
               | Err _ => Err PkFinishArchive
               | Panic => Panic
               | Diverge => Diverge
               end
     | e => e
     end), h'), s2).

(** pack.rs lines 59-134 *)
Definition pack_execute_t_bs (E : env) (Z : zip_env) (pick : rng -> string * rng) (bs : nat)
  (req : pack_request) : M asys pack_error unit :=
  tmp <- map_err (fun _ => PkCreateArchive) (on_sys (create_temp_file pick)) ;;
  match tmp with
  | EDir _ => err PkCreateArchive
  | EFile h0 =>
      r1 <- (fun a => lift_h (pack_archive_t Z bs req h0 (fst a)) (snd a)) ;;
      let h1 := snd r1 in
      cap <- map_err (fun _ => PkFinishArchive) (on_sys (file_len (EFile h1))) ;;
      fun a =>
        let '((o, (h2, _)), a1) :=
          run_world (encrypt_execute_bs E bs
                       (mkEncReq (match pr_hdr req with Some _ => true | None => false end)
                                 (pr_raw_key req) (pr_header_type req)
                                 (pr_hashing_algorithm req)))
                    h1 (pr_out req) (pr_hdr req) a in
        match o with
        | Panic => (Panic, a1)
        | Diverge => (Diverge, a1)
        | _ =>
            (on_sys (map_err (fun _ => PkFinishArchive) (wipe_temp h2 cap 2)) ;;
             map_err PkEncrypt (lift o)) a1
        end
  end.
Definition pack_execute_t (E : env) (Z : zip_env) (pick : rng -> string * rng) :=
  pack_execute_t_bs E Z pick BLOCK_SIZE.

(** subcommands/pack.rs lines 34-129, as [pack_cli] *)
Definition pack_cli_t (V : cenv) (inputs : list string) (output : string) (p : crypto_params)
  (pp : pack_params) (a : algorithm) : M cli cli_error unit :=
  if existsb (fun f => String.eqb f output) inputs then err CSameName else
  (fun c => if existsb (fun f => is_file (fst (c_a c)) (os_path f)) inputs
            then (Err CInputIsFile, c) else (Ok tt, c)) ;;
  check_or_exit output (cp_force p) ;;
  input_files <- each (fun f => storage (read_file (os_path f))) inputs ;;
  raw_key <- get_secret V (cp_key p) Validate ;;
  fo <- storage (create_or_write (os_path output)) ;;
  fh <- open_header p ;;
  lists <- each (fun f => if entry_is_dir f then storage (read_dir f) else ret [f]) input_files ;;
  ho <- try_handle fo ;;
  on_a (if same_opt ho (ok_handle fh) then alias V [h_ino ho] else
        map_err CPack
          (pack_execute_t (ce_E V) (ce_Z V) (ce_pick V)
             (mkPackReq ho (ok_handle fh) (List.concat lists) (pp_compression pp) raw_key
                        (mkHT V5 a StreamMode) (cp_hashing p)))) ;;
  flush_opt fh ;;
  storage (flush_file fo) ;;
  (if cp_hash p then hash_files V [output] else ret tt) ;;
  (if pp_erase pp then each_ (fun f => secure_erase V f 1%Z (cp_force p)) inputs else ret tt).
(** subcommands.rs lines 54-65 *)
Definition pack_cmd_t (V : cenv) (m : matches) : M cli cli_error unit :=
  pp <- pack_params_of V m ;;
  a <- algorithm_of V m ;;
  inputs <- get_params V "input" m ;;
  output <- get_param V "output" m ;;
  pack_cli_t V inputs output (fst pp) (snd pp) a.
(** main.rs lines 14-69 *)
Definition run_command_t (V : cenv) (c : command) (given : string -> list string)
  : M cli cli_error unit :=
  match c with
  | CmdPack => pack_cmd_t V (mkMatches (args_of c) given)
  | _ => run_command V c given
  end.
