(** The commands (volaris-cli/src/subcommands.rs and below, volaris-tools/src/pack.rs)
    with the buffers that hold keys and content; as Wipe.v and WipeCli.v.  Proved to
    do what [run_command] of Cli.v does (C99).

    Simplified: [bs] is [BLOCK_SIZE]; the buffers of a run whose input and output are
    one file ([alias]) are followed for the secret only; hashing and erasing at the
    end of encrypt, decrypt and pack read ciphertext, or overwrite, and are not
    followed; nor are the buffers of the zip crate. *)
From Coq Require Import List Arith NArith ZArith String Bool.
From Verif Require Import Bytes Outcome IO Primitives Crypto Header KeyModel Stream EncDec KeyOps Hash.
From Verif Require Import Overwrite FS Erase Archive Cli Wipe WipeCli.
Import ListNotations.
Local Open Scope nat_scope.
Local Open Scope list_scope.

(** As [on_a] and [on_sys] *)
Definition on_a_m {E A} (m : M (asys * memory) E A) : M (cli * memory) E A := fun s =>
  let c := fst s in
  let '(o, (a, k)) := m (c_a c, snd s) in
  (o, (mkCli a (c_stdin c) (c_tty c) (c_out c), k)).
Definition on_sys_m {E A} (m : M (sys * memory) E A) : M (asys * memory) E A := fun s =>
  let '(o, (s', k)) := m (fst (fst s), snd s) in (o, ((s', snd (fst s)), k)).

(** As [run_world] *)
Definition run_world_m {E A} (m : M (world * memory) E A) (hi ho : handle) (hh : option handle)
  (ak : asys * memory) : (outcome E A * (handle * handle)) * (asys * memory) :=
  let s := fst (fst ak) in
  let '(o, (w, k)) := m (mkWorld (handle_dev s hi) (handle_dev s ho) (opt_dev s hh)
                                 (s_rng s) (snd (fst ak)), snd ak) in
  ((o, (move_handle (w_in w) hi, move_handle (w_out w) ho)),
   ((with_rng (w_rng w)
       (put_opt (w_hdr w) hh (put_handle (w_out w) ho (put_handle (w_in w) hi s))),
     w_tr w), k)).

(** The end of a scope that owns the secret in buffer [i].  [process::exit], which is
    [CExit], runs no destructors (std). *)
Definition owning_or_exit {S A} (i : nat) (m : M (S * memory) cli_error A)
  : M (S * memory) cli_error A := fun s =>
  match m s with
  | (Err CExit, s') => (Err CExit, s')
  | (o, (s', k)) => (o, (s', update i dead_protected k))
  end.

(** ** volaris-tools/src/pack.rs *)

(** pack.rs lines 92-100; the read buffer is [i] *)
Fixpoint pack_read_m (fuel bs i : nat) (acc : bytes) (d : dev) (k : memory)
  : ((outcome pack_error unit * bytes) * dev) * memory :=
  match fuel with
  | O => (((Diverge, acc), d), k)
  | S fuel' =>
      match dev_read bs d with
      | (Ok got, d') =>
          let k' := update i (filled got) k in
          if List.length got =? bs then pack_read_m fuel' bs i (acc ++ got) d' k'
          else (((Ok tt, acc ++ got), d'), k')
      | (Err _, d') => (((Err PkReadData, acc), d'), k)
      | (Panic, d') => (((Panic, acc), d'), k)
      | (Diverge, d') => (((Diverge, acc), d'), k)
      end
  end.

(** pack.rs lines 79-104; a read buffer for each file (line 91), not wiped *)
Fixpoint pack_add_m (bs : nat) (es : list entry) (acc : list zent) (s : sys) (k : memory)
  : ((outcome pack_error unit * list zent) * sys) * memory :=
  match es with
  | [] => (((Ok tt, acc), s), k)
  | EDir p :: es' =>
      let n := dir_name (render p) in
      if has_name n acc then (((Err PkAddDirToArchive, acc), s), k)
      else pack_add_m bs es' (acc ++ [mkZent n []]) s k
  | EFile h :: es' =>
      let n := render (h_path h) in
      if has_name n acc then (((Err PkAddFileToArchive, acc), s), k)
      else
        let d := handle_dev s h in
        let '(((o, data), d'), k1) :=
          pack_read_m (S (List.length (d_data d))) bs (List.length k) [] d
                      (k ++ [mkCell Plain (zeros bs) true]) in
        let k2 := update (List.length k) dead k1 in
        let acc' := acc ++ [mkZent n data] in
        match o with
        | Ok _ => pack_add_m bs es' acc' s k2
        | Err e => (((Err e, acc'), s), k2)
        | Panic => (((Panic, acc'), s), k2)
        | Diverge => (((Diverge, acc'), s), k2)
        end
  end.

(** pack.rs lines 64-108 *)
Definition pack_archive_m (Z : zip_env) (bs : nat) (req : pack_request) (h : handle) (s : sys)
  (k : memory) : ((outcome pack_error unit * handle) * sys) * memory :=
  let '(((o, zs), s1), k1) := pack_add_m bs (pr_files req) [] s k in
  let '((w, h'), s2) := put_archive (z_encode Z (pr_compression req) zs) h s1 in
  ((((match o with
      | Ok _ => match w with
                | Ok _ => Ok tt
                | Err _ => Err PkFinishArchive
                | Panic => Panic
                | Diverge => Diverge
                end
      | e => e
      end), h'), s2), k1).

(** pack.rs lines 59-134; the secret is in buffer [i] *)
Definition pack_execute_at (E : env) (Z : zip_env) (pick : rng -> string * rng) (bs i : nat)
  (req : pack_request) : M (asys * memory) pack_error unit :=
  owning_protected i
  (tmp <- thru (map_err (fun _ => PkCreateArchive) (on_sys (create_temp_file pick))) ;;
   match tmp with
   | EDir _ => err PkCreateArchive
   | EFile h0 =>
       r1 <- (fun a =>
                let '(x, k) := pack_archive_m Z bs req h0 (fst (fst a)) (snd a) in
                let '(o, a') := lift_h x (snd (fst a)) in (o, (a', k))) ;;
       let h1 := snd r1 in
       cap <- thru (map_err (fun _ => PkFinishArchive) (on_sys (file_len (EFile h1)))) ;;
       fun a =>
         let '((o, (h2, _)), a1) :=
           run_world_m (encrypt_execute_at E bs i
                          (mkEncReq (match pr_hdr req with Some _ => true | None => false end)
                                    (pr_raw_key req) (pr_header_type req)
                                    (pr_hashing_algorithm req)))
                       h1 (pr_out req) (pr_hdr req) a in
         match o with
         | Panic => (Panic, a1)
         | Diverge => (Diverge, a1)
         | _ =>
             thru (on_sys (map_err (fun _ => PkFinishArchive) (wipe_temp h2 cap 2)) ;;
                   map_err PkEncrypt (lift o)) a1
         end
   end).

(** ** volaris-cli/src/subcommands *)

(** [tools::encrypt::execute] and [tools::decrypt::execute] on open files *)
Definition encrypt_files_m (V : cenv) (bs i : nat) (req : enc_request) (hi ho : handle)
  (hh : option handle) : M (asys * memory) cli_error unit :=
  owning_protected i
  (if (same_file ho hi || same_opt ho hh || same_opt hi hh)%bool then thru (alias V (written ho hh))
   else
     map_err CEncrypt (fun a =>
       let '((o, _), a1) := run_world_m (encrypt_execute_at (ce_E V) bs i req) hi ho hh a in (o, a1))).
Definition decrypt_files_m (V : cenv) (bs i : nat) (raw_key : bytes) (hi ho : handle)
  (hh : option handle) : M (asys * memory) cli_error unit :=
  owning_protected i
  (if (same_file ho hi || same_opt ho hh)%bool then thru (alias V [h_ino ho])
   else
     map_err CDecrypt (fun a =>
       let '((o, _), a1) :=
         run_world_m (decrypt_execute_at (ce_E V) bs i (is_some hh) raw_key) hi ho hh a in (o, a1))).

(** subcommands/encrypt.rs lines 15-82 *)
Definition encrypt_stream_m (V : cenv) (bs : nat) (input output : string) (p : crypto_params)
  (a : algorithm) : M (cli * memory) cli_error unit :=
  if String.eqb input output then err CSameName else
  thru (check_or_exit output (cp_force p)) ;;
  fi <- thru (storage (read_file (os_path input))) ;;
  secret <- get_secret_m V (cp_key p) Validate ;;
  let raw_key := fst secret in
  let i := snd secret in
  owning_or_exit i
  (fo <- thru (storage (create_or_write (os_path output))) ;;
   fh <- thru (open_header p) ;;
   hi <- thru (try_handle fi) ;;
   ho <- thru (try_handle fo) ;;
   on_a_m (encrypt_files_m V bs i
             (mkEncReq (is_some (ok_handle fh)) raw_key (mkHT V5 a StreamMode) (cp_hashing p))
             hi ho (ok_handle fh)) ;;
   thru (flush_opt fh) ;;
   thru (storage (flush_file fo)) ;;
   thru (if cp_hash p then hash_files V [output] else ret tt) ;;
   thru (match cp_erase p with
         | Some passes => secure_erase V input passes (cp_force p)
         | None => ret tt
         end)).

(** subcommands/decrypt.rs lines 17-64 *)
Definition decrypt_stream_m (V : cenv) (bs : nat) (input output : string) (p : crypto_params)
  : M (cli * memory) cli_error unit :=
  if String.eqb input output then err CSameName else
  thru (check_or_exit output (cp_force p)) ;;
  fi <- thru (storage (read_file (os_path input))) ;;
  fh <- thru (read_header p) ;;
  secret <- get_secret_m V (cp_key p) Direct ;;
  let raw_key := fst secret in
  let i := snd secret in
  owning_or_exit i
  (fo <- thru (storage (create_or_write (os_path output))) ;;
   hi <- thru (try_handle fi) ;;
   ho <- thru (try_handle fo) ;;
   on_a_m (decrypt_files_m V bs i raw_key hi ho (ok_handle fh)) ;;
   thru (storage (flush_file fo)) ;;
   thru (if cp_hash p then hash_files V [input] else ret tt) ;;
   thru (match cp_erase p with
         | Some passes => secure_erase V input passes (cp_force p)
         | None => ret tt
         end)).

(** subcommands/pack.rs lines 34-129 *)
Definition pack_cli_m (V : cenv) (bs : nat) (inputs : list string) (output : string)
  (p : crypto_params) (pp : pack_params) (a : algorithm) : M (cli * memory) cli_error unit :=
  if existsb (fun f => String.eqb f output) inputs then err CSameName else
  thru (fun c => if existsb (fun f => is_file (fst (c_a c)) (os_path f)) inputs
                 then (Err CInputIsFile, c) else (Ok tt, c)) ;;
  thru (check_or_exit output (cp_force p)) ;;
  input_files <- thru (each (fun f => storage (read_file (os_path f))) inputs) ;;
  secret <- get_secret_m V (cp_key p) Validate ;;
  let raw_key := fst secret in
  let i := snd secret in
  owning_or_exit i
  (fo <- thru (storage (create_or_write (os_path output))) ;;
   fh <- thru (open_header p) ;;
   lists <- thru (each (fun f => if entry_is_dir f then storage (read_dir f) else ret [f]) input_files) ;;
   ho <- thru (try_handle fo) ;;
   on_a_m (owning_protected i
             (if same_opt ho (ok_handle fh) then thru (alias V [h_ino ho]) else
              map_err CPack
                (pack_execute_at (ce_E V) (ce_Z V) (ce_pick V) bs i
                   (mkPackReq ho (ok_handle fh) (List.concat lists) (pp_compression pp) raw_key
                              (mkHT V5 a StreamMode) (cp_hashing p))))) ;;
   thru (flush_opt fh) ;;
   thru (storage (flush_file fo)) ;;
   thru (if cp_hash p then hash_files V [output] else ret tt) ;;
   thru (if pp_erase pp then each_ (fun f => secure_erase V f 1%Z (cp_force p)) inputs else ret tt)).

(** subcommands/hashing.rs lines 10-26 *)
Definition hash_file_m (V : cenv) (bs : nat) (p : path) : M (sys * memory) cli_error string :=
  fun sk =>
    let '(b, s) := next_fault (fst sk) in
    let k := snd sk in
    if b then (Err CHashOpen, (s, k)) else
    match stat s p with
    | Some (NFile i) =>
        let '(plan, s1) := next_plan s in
        match hash_execute_m (Blake3Hasher (ce_blake3 V)) bs [] (mkDev (s_data s i) 0 plan [], k) with
        | (Ok h, (_, k')) => (Ok h, (s1, k'))
        | (Err e, (_, k')) => (Err (CHash e), (s1, k'))
        | (Panic, (_, k')) => (Panic, (s1, k'))
        | (Diverge, (_, k')) => (Diverge, (s1, k'))
        end
    | Some NDir => (Err (CHash HashReadData), (s, k))
    | _ => (Err CHashOpen, (s, k))
    end.
Fixpoint hash_files_m (V : cenv) (bs : nat) (files : list string) : M (cli * memory) cli_error unit :=
  match files with
  | [] => ret tt
  | f :: r =>
      h <- on_a_m (on_sys_m (hash_file_m V bs (os_path f))) ;;
      thru (say (NHash f h)) ;;
      hash_files_m V bs r
  end.

(** subcommands.rs lines 24-94 and main.rs lines 14-69 *)
Definition run_command_m (V : cenv) (bs : nat) (c : command) (given : string -> list string)
  : M (cli * memory) cli_error unit :=
  let m := mkMatches (args_of c) given in
  match c with
  | CmdEncrypt =>
      p <- thru (parameter_handler V m) ;;
      a <- thru (algorithm_of V m) ;;
      input <- thru (get_param V "input" m) ;;
      output <- thru (get_param V "output" m) ;;
      encrypt_stream_m V bs input output p a
  | CmdDecrypt =>
      p <- thru (parameter_handler V m) ;;
      input <- thru (get_param V "input" m) ;;
      output <- thru (get_param V "output" m) ;;
      decrypt_stream_m V bs input output p
  | CmdPack =>
      pp <- thru (pack_params_of V m) ;;
      a <- thru (algorithm_of V m) ;;
      inputs <- thru (get_params V "input" m) ;;
      output <- thru (get_param V "output" m) ;;
      pack_cli_m V bs inputs output (fst pp) (snd pp) a
  | CmdHash =>
      l <- thru (get_many V m "input") ;;
      hash_files_m V bs (match l with Some fs => fs | None => [] end)
  | CmdErase => thru (erase_cmd V m)
  | CmdUnpack => thru (unpack_cmd V m)
  end.
