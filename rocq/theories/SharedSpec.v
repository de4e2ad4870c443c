(** One file under two handles: what is meant. *)
From Coq Require Import List Arith NArith ZArith Bool.
From Coq Require Import String.
From Verif Require Import Bytes Outcome IO Primitives Crypto Header EncDec FS Archive Cli Shared.
Import ListNotations.
Local Open Scope nat_scope.

(** Different files. *)
Definition apart (hi ho : handle) (hh : option handle) : Prop :=
  h_ino hi <> h_ino ho
  /\ (forall h, hh = Some h -> h_ino h <> h_ino hi /\ h_ino h <> h_ino ho).

(** Do two states hold the same, up to the order in which writes to different
    files were made? *)
Definition on_file (i : nat) (e : fsev) : bool :=
  match e with FTrunc j | FWrite j _ _ => Nat.eqb j i | _ => false end.
Definition same_state (a b : asys) : Prop :=
  let s := fst a in let t := fst b in
  s_nodes s = s_nodes t /\ (forall i, s_data s i = s_data t i) /\ s_next s = s_next t
  /\ s_cwd s = s_cwd t /\ s_tmp s = s_tmp t /\ s_faults s = s_faults t /\ s_plans s = s_plans t
  /\ s_rng s = s_rng t
  /\ (forall i, filter (on_file i) (s_log s) = filter (on_file i) (s_log t))
  /\ snd a = snd b.

(** Nothing written. *)
Definition disk_kept (s t : sys) : Prop :=
  s_nodes s = s_nodes t /\ (forall i, s_data s i = s_data t i) /\ s_next s = s_next t
  /\ s_cwd s = s_cwd t /\ s_tmp s = s_tmp t /\ s_faults s = s_faults t /\ s_plans s = s_plans t
  /\ s_rng s = s_rng t /\ s_log s = s_log t.

(** What encrypting [text] leaves in an empty output and an empty header file, all
    three on well-behaved files of their own. *)
Definition encrypted (E : env) (req : enc_request) (g : rng) (tr : trace) (text : bytes)
  : outcome enc_error unit * (bytes * bytes) :=
  let '(o, w) := encrypt_execute E req
                   (mkWorld (dev_of text) (dev_of []) (dev_of []) g tr) in
  (o, (d_data (w_out w), d_data (w_hdr w))).

(** A handle fresh from [open], on a file on which no call fails. *)
Definition fresh (h : handle) : Prop := h_pos h = 0 /\ h_plan h = [].

Definition v5_request (req : enc_request) : Prop := ht_version (er_header_type req) = V5.
(** The file the header goes to. *)
Definition target (req : enc_request) (ho : handle) (hh : option handle) : option nat :=
  if er_detached req then option_map h_ino hh else Some (h_ino ho).
(** The files written are empty. *)
Definition emptied (s : sys) (ho : handle) (hh : option handle) : Prop :=
  s_data s (h_ino ho) = [] /\ (forall g, hh = Some g -> s_data s (h_ino g) = []).

(** The commands, over any way of running the library on open files. *)
Definition encrypt_stream_by
  (lib : enc_request -> handle -> handle -> option handle -> M asys cli_error unit)
  (V : cenv) (input output : string) (p : crypto_params) (a : algorithm) : M cli cli_error unit :=
  if String.eqb input output then err CSameName else
  check_or_exit output (cp_force p) ;;
  fi <- storage (read_file (os_path input)) ;;
  raw_key <- get_secret V (cp_key p) Validate ;;
  fo <- storage (create_or_write (os_path output)) ;;
  fh <- open_header p ;;
  hi <- try_handle fi ;;
  ho <- try_handle fo ;;
  on_a (lib (mkEncReq (is_some (ok_handle fh)) raw_key (mkHT V5 a StreamMode) (cp_hashing p))
            hi ho (ok_handle fh)) ;;
  flush_opt fh ;;
  storage (flush_file fo) ;;
  (if cp_hash p then hash_files V [output] else ret tt) ;;
  match cp_erase p with
  | Some passes => secure_erase V input passes (cp_force p)
  | None => ret tt
  end.
Definition decrypt_stream_by
  (lib : bytes -> handle -> handle -> option handle -> M asys cli_error unit)
  (V : cenv) (input output : string) (p : crypto_params) : M cli cli_error unit :=
  if String.eqb input output then err CSameName else
  check_or_exit output (cp_force p) ;;
  fi <- storage (read_file (os_path input)) ;;
  fh <- read_header p ;;
  raw_key <- get_secret V (cp_key p) Direct ;;
  fo <- storage (create_or_write (os_path output)) ;;
  hi <- try_handle fi ;;
  ho <- try_handle fo ;;
  on_a (lib raw_key hi ho (ok_handle fh)) ;;
  storage (flush_file fo) ;;
  (if cp_hash p then hash_files V [input] else ret tt) ;;
  match cp_erase p with
  | Some passes => secure_erase V input passes (cp_force p)
  | None => ret tt
  end.
(** What the commands see of an error there. *)
Definition as_alias {E} (o : outcome E unit) : outcome cli_error unit :=
  match o with Ok u => Ok u | Err _ => Err CAlias | Panic => Panic | Diverge => Diverge end.
(** The library over shared files, as the commands call it. *)
Definition encrypt_lib (E : env) (req : enc_request) (hi ho : handle) (hh : option handle)
  : M asys cli_error unit :=
  map_err CEncrypt (fun a =>
    let '((o, _), a1) := run_shared (encrypt_shared E req) hi ho hh a in (o, a1)).
Definition decrypt_lib (E : env) (raw : bytes) (hi ho : handle) (hh : option handle)
  : M asys cli_error unit :=
  map_err CDecrypt (fun a =>
    let '((o, _), a1) := run_shared (decrypt_shared E (is_some hh) raw) hi ho hh a in (o, a1)).
