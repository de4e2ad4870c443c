(** crates/volaris-tools/src/{pack,unpack}.rs over [FileStorage].

    The zip container (crate zip 2.2.0, zstd) is abstract: [zip_env].  All that
    is transcribed from it is how names are treated. *)
From Coq Require Import List Arith NArith ZArith Ascii String Bool.
From Verif Require Import Bytes Outcome IO Primitives Crypto Header Stream KeyModel EncDec.
From Verif Require Import Overwrite FS.
Import ListNotations.
Local Open Scope nat_scope.
Local Open Scope list_scope.

(** ** Paths as strings *)

Definition comp_string (c : comp) : string :=
  match c with Cur => "." | Up => ".." | Nm n => n end.

(** [Path::to_str] (std) of a path written without superfluous slashes.  Paths
    that are not UTF-8 (pack.rs line 80) are left to Names.v. *)
Definition render (p : path) : string :=
  String.append (if p_abs p then "/" else "") (String.concat "/" (map comp_string (p_comps p))).

Definition slash : ascii := "/"%char.

(** The pieces between slashes. *)
Fixpoint split_slash (s : string) : list string :=
  match s with
  | EmptyString => [EmptyString]
  | String c s' =>
      if Ascii.eqb c slash then EmptyString :: split_slash s'
      else match split_slash s' with
           | [] => [String c EmptyString]
           | x :: l => String c x :: l
           end
  end.

Definition piece_comp (x : string) : list comp :=
  if String.eqb x "" then [] else
  if String.eqb x "." then [Cur] else
  if String.eqb x ".." then [Up] else [Nm x].

(** [PathBuf::from] (std, Unix) *)
Definition parse_path (s : string) : path :=
  mkPath (match s with String c _ => Ascii.eqb c slash | EmptyString => false end)
         (flat_map piece_comp (split_slash s)).

Fixpoint last_char (s : string) : option ascii :=
  match s with
  | EmptyString => None
  | String c EmptyString => Some c
  | String _ s' => last_char s'
  end.

(** ** The zip crate *)

(** zip 2.2.0 [ZipFile::is_dir] *)
Definition zip_is_dir (name : string) : bool :=
  match last_char name with
  | Some c => Ascii.eqb c slash || Ascii.eqb c "\"%char
  | None => false
  end.

(** zip 2.2.0 [ZipWriter::add_directory]: a slash is appended unless there is one *)
Definition dir_name (name : string) : string :=
  if zip_is_dir name then name else String.append name "/".

Fixpoint has_nul (s : string) : bool :=
  match s with
  | EmptyString => false
  | String c s' => Ascii.eqb c zero || has_nul s'
  end.

(** Never above the starting point. *)
Fixpoint depth_ok (d : nat) (cs : list comp) : bool :=
  match cs with
  | [] => true
  | Cur :: r => depth_ok d r
  | Nm _ :: r => depth_ok (S d) r
  | Up :: r => match d with O => false | S d' => depth_ok d' r end
  end.

(** zip 2.2.0 [ZipFile::enclosed_name]: the path as it stands, if it is relative
    and never leads above the starting point. *)
Definition enclosed_name (name : string) : option path :=
  if has_nul name then None else
  let p := parse_path name in
  if p_abs p then None else
  if depth_ok 0 (p_comps p) then Some p else None.

Inductive compression := Stored | Zstd.

(** An entry as written. *)
Record zent := mkZent { ze_name : string; ze_data : bytes }.

(** An entry as read: whether [by_index] succeeds, the bytes its reader
    yields, and whether it then ends without error (checksum, decompression). *)
Record zread := mkZread {
  zr_name : string; zr_open : bool; zr_data : bytes; zr_ok : bool
}.

(** The container format. *)
Record zip_env := mkZipEnv {
  z_encode : compression -> list zent -> bytes;
  z_decode : bytes -> option (list zread)
}.

(** ** State: the file system and the ghost trace of AEAD calls *)

Definition asys : Type := sys * trace.
Definition on_sys {E A} (m : M sys E A) : M asys E A :=
  zoom fst (fun s a => (s, snd a)) m.

Definition no_dev : dev := mkDev [] 0 [] [].
Definition opt_dev (s : sys) (h : option handle) : dev :=
  match h with Some x => handle_dev s x | None => no_dev end.
Definition put_opt (d : dev) (h : option handle) (s : sys) : sys :=
  match h with Some x => put_handle d x s | None => s end.

(** Run code over [world] on open files, taken to be distinct.  The writes of
    the three files appear in the log one file after the other. *)
Definition run_world {E A} (m : M world E A) (hi ho : handle) (hh : option handle)
  (a : asys) : (outcome E A * (handle * handle)) * asys :=
  let s := fst a in
  let '(o, w) := m (mkWorld (handle_dev s hi) (handle_dev s ho) (opt_dev s hh)
                            (s_rng s) (snd a)) in
  ((o, (move_handle (w_in w) hi, move_handle (w_out w) ho)),
   (with_rng (w_rng w)
      (put_opt (w_hdr w) hh (put_handle (w_out w) ho (put_handle (w_in w) hi s))),
    w_tr w)).

(** ** pack.rs *)

(** pack.rs lines 19-27 *)
Inductive pack_error :=
| PkCreateArchive | PkAddDirToArchive | PkAddFileToArchive | PkFinishArchive
| PkReadData | PkWriteData | PkEncrypt (e : enc_error).

(** pack.rs lines 45-57.  [pr_out], [pr_hdr]: the writers. *)
Record pack_request := mkPackReq {
  pr_out : handle;
  pr_hdr : option handle;
  pr_files : list entry;
  pr_compression : compression;
  pr_raw_key : bytes;
  pr_header_type : header_type;
  pr_hashing_algorithm : hashing_algorithm
}.

(** pack.rs lines 92-100, the reading side: what was read before the loop ended
    or failed. *)
Fixpoint pack_read (fuel bs : nat) (acc : bytes) (d : dev)
  : (outcome pack_error unit * bytes) * dev :=
  match fuel with
  | O => ((Diverge, acc), d)
  | S fuel' =>
      match dev_read bs d with
      | (Ok got, d') =>
          if List.length got =? bs then pack_read fuel' bs (acc ++ got) d'
          else ((Ok tt, acc ++ got), d')
      | (Err _, d') => ((Err PkReadData, acc), d')
      | (Panic, d') => ((Panic, acc), d')
      | (Diverge, d') => ((Diverge, acc), d')
      end
  end.

Definition has_name (n : string) (l : list zent) : bool :=
  existsb (fun e => String.eqb (ze_name e) n) l.

(** pack.rs lines 79-104: the entries added to the archive.  A name used before
    is refused (zip). *)
Fixpoint pack_add (bs : nat) (es : list entry) (acc : list zent) (s : sys)
  : (outcome pack_error unit * list zent) * sys :=
  match es with
  | [] => ((Ok tt, acc), s)
  | EDir p :: es' =>
      let n := dir_name (render p) in
      if has_name n acc then ((Err PkAddDirToArchive, acc), s)
      else pack_add bs es' (acc ++ [mkZent n []]) s
  | EFile h :: es' =>
      let n := render (h_path h) in
      if has_name n acc then ((Err PkAddFileToArchive, acc), s)
      else
        let d := handle_dev s h in
        let '((o, data), d') := pack_read (S (List.length (d_data d))) bs [] d in
        let acc' := acc ++ [mkZent n data] in
        match o with
        | Ok _ => pack_add bs es' acc' s
        | Err e => ((Err e, acc'), s)
        | Panic => ((Panic, acc'), s)
        | Diverge => ((Diverge, acc'), s)
        end
  end.

(** Write the archive.  The real writer emits it piece by piece, so a failing
    write may be reported by an earlier call as another error; in any case the
    function returns at that point. *)
Definition put_archive (l : bytes) (h : handle) (s : sys)
  : (outcome io_error unit * handle) * sys :=
  run_handle (ow_dev (dev_write_all l)) h s.

(** pack.rs lines 64-108: on an error dropping the [ZipWriter] completes the
    archive with what was added (zip, [Drop]). *)
Definition pack_archive (Z : zip_env) (bs : nat) (req : pack_request) (h : handle) (s : sys)
  : (outcome pack_error unit * handle) * sys :=
  let '((o, zs), s1) := pack_add bs (pr_files req) [] s in
  let '((w, h'), s2) := put_archive (z_encode Z (pr_compression req) zs) h s1 in
  (((match o with
     | Ok _ => match w with
               | Ok _ => Ok tt
               | Err _ => Err PkFinishArchive
               | Panic => Panic
               | Diverge => Diverge
               end
     | e => e
     end), h'), s2).

Definition lift_h {E A} (x : (outcome E A * handle) * sys) (tr : trace)
  : outcome E (A * handle) * asys :=
  let '((o, h), s) := x in
  (match o with
   | Ok a => Ok (a, h) | Err e => Err e | Panic => Panic | Diverge => Diverge
   end, (s, tr)).

(** [Result::ok] on an erasing step: errors are dropped, panics are not. *)
Definition quiet {E A} (m : M sys E A) : M sys E unit := fun s =>
  match m s with
  | (Panic, s') => (Panic, s')
  | (Diverge, s') => (Diverge, s')
  | (_, s') => (Ok tt, s')
  end.

(** pack.rs lines 124-131 (and unpack.rs lines 156-165) *)
Definition wipe_temp (h : handle) (cap : nat) (passes : Z) : M sys st_error unit := fun s =>
  let '((o, h'), s1) := run_handle (overwrite_execute cap passes) h s in
  match o with
  | Panic => (Panic, s1)
  | Diverge => (Diverge, s1)
  | _ => quiet (run (remove_file (EFile h'))) s1
  end.

(** pack.rs lines 59-134 *)
Definition pack_execute_bs (E : env) (Z : zip_env) (pick : rng -> string * rng) (bs : nat)
  (req : pack_request) : M asys pack_error unit :=
  tmp <- map_err (fun _ => PkCreateArchive) (on_sys (create_temp_file pick)) ;;
  match tmp with
  | EDir _ => err PkCreateArchive     (* [try_writer], line 67; not reached *)
  | EFile h0 =>
      r1 <- (fun a => lift_h (pack_archive Z bs req h0 (fst a)) (snd a)) ;;
      let h1 := snd r1 in
      cap <- map_err (fun _ => PkFinishArchive) (on_sys (file_len (EFile h1))) ;;
      fun a =>
        let '((o, (h2, _)), a1) :=
          run_world (encrypt_execute_bs E bs
                       (mkEncReq (match pr_hdr req with Some _ => true | None => false end)
                                 (pr_raw_key req) (pr_header_type req)
                                 (pr_hashing_algorithm req)))
                    h1 (pr_out req) (pr_hdr req) a in
        match o with
        | Panic => (Panic, a1)
        | Diverge => (Diverge, a1)
        | _ =>
            (on_sys (map_err (fun _ => PkFinishArchive) (wipe_temp h2 cap 2)) ;;
             map_err PkEncrypt (lift o)) a1
        end
  end.
Definition pack_execute (E : env) (Z : zip_env) (pick : rng -> string * rng) :=
  pack_execute_bs E Z pick BLOCK_SIZE.

(** ** unpack.rs *)

(** unpack.rs lines 15-22 *)
Inductive unpack_error :=
| UnWriteData | UnOpenArchive | UnOpenArchivedFile | UnResetCursorPosition
| UnStorage (e : st_error) | UnDecrypt (e : dec_error).

(** unpack.rs lines 42-53, without [on_decrypted_header] and [on_archive_info],
    which only observe.  [ur_ask] stands for [on_zip_file]: given the paths asked
    about, in order, its answers; [None]: it panics. *)
Record unpack_request := mkUnpackReq {
  ur_in : handle;
  ur_hdr : option handle;
  ur_raw_key : bytes;
  ur_out : path;
  ur_ask : list path -> option (list bool)
}.

(** unpack.rs lines 90-103: full path and entry *)
Definition entity : Type := path * zread.
Definition entities (o : path) (zs : list zread) : list entity :=
  flat_map (fun z =>
    if zr_open z then
      match enclosed_name (zr_name z) with
      | Some p => [(path_push o p, z)]
      | None => []
      end
    else []) zs.

Definition ent_is_dir (e : entity) : bool := zip_is_dir (zr_name (snd e)).

(** unpack.rs lines 104-111; a missing answer cannot occur and counts as no *)
Definition accepted (es : list entity) (answers : list bool) : list entity :=
  map fst (filter (fun x => snd x) (combine es answers)).

(** unpack.rs lines 119-130 *)
Definition mkdir_threads (o : path) (es : list entity) : list (R unpack_error unit) :=
  map (fun p => rmap_err UnStorage (create_dir_all p))
      (map fst (filter ent_is_dir es) ++ [o]).

(** unpack.rs lines 140-151; [io::copy] (std) writes what it reads *)
Definition extract (e : entity) : M sys unpack_error unit :=
  (if zr_open (snd e) then ret tt else err UnOpenArchivedFile) ;;
  f <- map_err UnStorage (or_else (create_file (fst e)) (fun _ => write_file (fst e))) ;;
  match f with
  | EDir _ => err (UnStorage StFileAccess)
  | EFile h =>
      map_err (fun _ => UnWriteData)
        (fun s => let '((o, _), s') := put_archive (zr_data (snd e)) h s in (o, s')) ;;
      if zr_ok (snd e) then ret tt else err UnWriteData
  end.

Fixpoint extract_all (es : list entity) : M sys unpack_error unit :=
  match es with
  | [] => ret tt
  | e :: es' => extract e ;; extract_all es'
  end.

(** unpack.rs lines 83-152 *)
Definition unpack_archive (Z : zip_env) (sched : list nat) (req : unpack_request)
  (h : handle) : M sys unpack_error handle := fun s =>
  let '((o, h1), s1) := run_handle (ow_dev dev_rewind) h s in
  match o with
  | Ok _ =>
      match z_decode Z (s_data s1 (h_ino h)) with
      | None => (Err UnOpenArchive, s1)
      | Some zs =>
          let es := entities (ur_out req) zs in
          match ur_ask req (map fst es) with
          | None => (Panic, s1)
          | Some answers =>
              let acc := accepted es answers in
              (ts <- (fun s => let '(ts, s') := run_sched sched (mkdir_threads (ur_out req) acc) s in
                               (Ok ts, s')) ;;
               lift (join_all ts) ;;
               extract_all (filter (fun e => negb (ent_is_dir e)) acc) ;;
               ret h1) s1
          end
      end
  | Err _ => (Err UnResetCursorPosition, s1)
  | Panic => (Panic, s1)
  | Diverge => (Diverge, s1)
  end.

(** unpack.rs lines 55-168 *)
Definition unpack_execute_bs (E : env) (Z : zip_env) (pick : rng -> string * rng) (bs : nat)
  (sched : list nat) (req : unpack_request) : M asys unpack_error unit :=
  tmp <- map_err UnStorage (on_sys (create_temp_file pick)) ;;
  match tmp with
  | EDir _ => panic                   (* [expect], line 68; not reached *)
  | EFile h0 =>
      r <- (fun a =>
        let '((o, (_, h1)), a1) :=
          run_world (decrypt_execute_bs E bs
                       (match ur_hdr req with Some _ => true | None => false end)
                       (ur_raw_key req))
                    (ur_in req) h0 (ur_hdr req) a in
        (match o with
         | Ok _ => Ok h1
         | Err e => Err (UnDecrypt e)
         | Panic => Panic
         | Diverge => Diverge
         end, a1)) ;;
      cap <- map_err UnStorage (on_sys (file_len (EFile r))) ;;
      h2 <- on_sys (unpack_archive Z sched req r) ;;
      on_sys (map_err UnStorage (wipe_temp h2 cap 1))
  end.
Definition unpack_execute (E : env) (Z : zip_env) (pick : rng -> string * rng) :=
  unpack_execute_bs E Z pick BLOCK_SIZE.
