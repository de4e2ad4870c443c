(** crates/volaris-tools/src/storage.rs lines 177-408: [InMemoryStorage], the
    storage that the unit tests of erase.rs, erase_dir.rs and pack.rs run on, and
    the trait [Storage] of lines 57-76 as a record, so that one program text runs
    on either storage.

    Simplified: [RwLock<HashMap<..>>] is a list without repeated keys (the lock is
    never held across calls, and its order of iteration is arbitrary); the field
    [len] of [InMemoryFile] (line 391) is left out because no method reads it. *)
From Coq Require Import List Arith ZArith Ascii String Bool.
From Verif Require Import Bytes Outcome IO Primitives Overwrite FS Erase.
Import ListNotations.
Local Open Scope nat_scope.
Local Open Scope list_scope.

(** storage.rs lines 396-399 *)
Inductive im_file := IMFile (buf : bytes) | IMDir.

(** storage.rs lines 179-181; the generator is [rand::thread_rng()] *)
Record mem := mkMem { m_files : list (path * im_file); m_rng : rng }.

(** [PathBuf: Eq] and [Path::starts_with] (std) compare [components]. *)
Definition comp_eqb (a b : comp) : bool :=
  match a, b with
  | Cur, Cur | Up, Up => true
  | Nm x, Nm y => String.eqb x y
  | _, _ => false
  end.
Fixpoint comps_start (l k : list comp) : bool :=
  match l, k with
  | _, [] => true
  | x :: l', y :: k' => comp_eqb x y && comps_start l' k'
  | [], _ :: _ => false
  end.
Fixpoint comps_eqb (l k : list comp) : bool :=
  match l, k with
  | [], [] => true
  | x :: l', y :: k' => comp_eqb x y && comps_eqb l' k'
  | _, _ => false
  end.
Definition path_eqb (p q : path) : bool :=
  Bool.eqb (p_abs p) (p_abs q) && comps_eqb (components p) (components q).
Definition starts_with (p q : path) : bool :=
  Bool.eqb (p_abs p) (p_abs q) && comps_start (components p) (components q).

(** [HashMap::{get, insert, remove}] (std): [insert] keeps the key that is there. *)
Fixpoint hm_get (p : path) (l : list (path * im_file)) : option im_file :=
  match l with
  | [] => None
  | (k, f) :: l' => if path_eqb k p then Some f else hm_get p l'
  end.
Fixpoint hm_insert (p : path) (f : im_file) (l : list (path * im_file))
  : list (path * im_file) :=
  match l with
  | [] => [(p, f)]
  | (k, g) :: l' => if path_eqb k p then (k, f) :: l' else (k, g) :: hm_insert p f l'
  end.
Definition hm_remove (p : path) (l : list (path * im_file)) : list (path * im_file) :=
  filter (fun e => negb (path_eqb (fst e) p)) l.

(** storage.rs lines 196-198 *)
Definition save_file (p : path) (f : im_file) (m : mem) : mem :=
  mkMem (hm_insert p f (m_files m)) (m_rng m).

(** storage.rs lines 411-425 with [io::Cursor<Vec<u8>>]: the cursor owns its
    bytes.  A cursor never fails and never cuts a transfer short (std). *)
Inductive mentry := MFile (p : path) (c : dev) | MDir (p : path).
Definition cursor (l : bytes) : dev := mkDev l 0 [] [].
(** storage.rs lines 431-439 *)
Definition mentry_path (e : mentry) : path := match e with MFile p _ | MDir p => p end.
Definition mentry_is_dir (e : mentry) : bool :=
  match e with MDir _ => true | MFile _ _ => false end.

(** storage.rs lines 247-249: [todo!()] *)
Definition mem_create_dir_all (p : path) : M mem st_error unit := panic.

(** storage.rs lines 251-268 *)
Definition mem_create_file (p : path) : M mem st_error mentry := fun m =>
  match hm_get p (m_files m) with
  | Some _ => (Err StCreateFile, m)
  | None => (Ok (MFile p (cursor [])), save_file p (IMFile []) m)
  end.

(** storage.rs lines 270-289 *)
Definition mem_read_file (p : path) : M mem st_error mentry := fun m =>
  match hm_get p (m_files m) with
  | None => (Err StOpenRead, m)
  | Some IMDir => (Ok (MDir p), m)
  | Some (IMFile buf) => (Ok (MFile p (cursor buf)), m)
  end.

(** storage.rs lines 291-309 *)
Definition mem_write_file (p : path) : M mem st_error mentry := fun m =>
  match hm_get p (m_files m) with
  | None => (Err StOpenWrite, m)
  | Some IMDir => (Err StFileAccess, m)
  | Some (IMFile buf) => (Ok (MFile p (cursor buf)), m)
  end.

(** storage.rs lines 311-327 *)
Definition mem_flush_file (e : mentry) : M mem st_error unit := fun m =>
  match e with
  | MDir _ => (Err StFileAccess, m)
  | MFile p c => (Ok tt, save_file p (IMFile (d_data c)) m)
  end.

(** storage.rs lines 329-336 *)
Definition mem_file_len (e : mentry) : M mem st_error nat :=
  match e with
  | MFile _ c => ret (List.length (d_data c))
  | MDir _ => err StFileAccess
  end.

(** storage.rs lines 338-343 *)
Definition mem_remove_file (e : mentry) : M mem st_error unit := fun m =>
  match hm_get (mentry_path e) (m_files m) with
  | None => (Err StRemoveFile, m)
  | Some _ => (Ok tt, mkMem (hm_remove (mentry_path e) (m_files m)) (m_rng m))
  end.

(** storage.rs lines 361-367: the keys one after another *)
Fixpoint mem_remove_all (ks : list path) : M mem st_error unit :=
  match ks with
  | [] => ret tt
  | k :: ks' => fun m =>
      match hm_get k (m_files m) with
      | None => (Err StRemoveDir, m)
      | Some _ => mem_remove_all ks' (mkMem (hm_remove k (m_files m)) (m_rng m))
      end
  end.

(** storage.rs lines 345-367 *)
Definition mem_remove_dir_all (e : mentry) : M mem st_error unit :=
  match e with
  | MFile _ _ => err StFileAccess
  | MDir p => fun m =>
      mem_remove_all (filter (fun k => starts_with k p) (map fst (m_files m))) m
  end.

(** storage.rs line 384: every key is opened *)
Fixpoint mem_read_all (ks : list path) : M mem st_error (list mentry) :=
  match ks with
  | [] => ret []
  | k :: ks' => (e <- mem_read_file k ;; es <- mem_read_all ks' ;; ret (e :: es))%m
  end.

(** storage.rs lines 369-386 *)
Definition mem_read_dir (e : mentry) : M mem st_error (list mentry) :=
  match e with
  | MFile _ _ => err StFileAccess
  | MDir p => fun m =>
      mem_read_all (filter (fun k => starts_with k p) (map fst (m_files m))) m
  end.

(** Using the stream of an entry ([try_reader], [try_writer], storage.rs lines
    441-453; callers look at [is_dir] first). *)
Definition mem_use {E A} (d : M ow_state E A) (e : mentry) (m : mem)
  : (outcome E A * mentry) * mem :=
  match e with
  | MDir _ => ((Panic, e), m)
  | MFile p c => let '(o, (c', g)) := d (c, m_rng m) in
                 ((o, MFile p c'), mkMem (m_files m) g)
  end.

(** ** The trait *)

(** storage.rs lines 57-76, and [Entry] as its users see it *)
Record storage (S H : Type) := mkStorage {
  st_create_file : path -> M S st_error H;
  st_read_file : path -> M S st_error H;
  st_write_file : path -> M S st_error H;
  st_flush_file : H -> M S st_error unit;
  st_file_len : H -> M S st_error nat;
  st_remove_file : H -> M S st_error unit;
  st_remove_dir_all : H -> M S st_error unit;
  st_read_dir : H -> M S st_error (list H);
  st_path : H -> path;
  st_is_dir : H -> bool;
  st_use : forall E A, M ow_state E A -> H -> S -> (outcome E A * H) * S
}.
Arguments st_create_file {S H}.   Arguments st_read_file {S H}.
Arguments st_write_file {S H}.    Arguments st_flush_file {S H}.
Arguments st_file_len {S H}.      Arguments st_remove_file {S H}.
Arguments st_remove_dir_all {S H}. Arguments st_read_dir {S H}.
Arguments st_path {S H}.          Arguments st_is_dir {S H}.
Arguments st_use {S H} s {E A}.

(** storage.rs lines 246-387 *)
Definition InMemoryStorage : storage mem mentry :=
  mkStorage mem mentry mem_create_file mem_read_file mem_write_file mem_flush_file
    mem_file_len mem_remove_file mem_remove_dir_all mem_read_dir mentry_path
    mentry_is_dir (@mem_use).

Definition file_use {E A} (d : M ow_state E A) (e : entry) (s : sys)
  : (outcome E A * entry) * sys :=
  match e with
  | EDir _ => ((Panic, e), s)
  | EFile h => let '((o, h'), s') := run_handle d h s in ((o, EFile h'), s')
  end.

(** storage.rs lines 80-175 *)
Definition FileStorage : storage sys entry :=
  mkStorage sys entry create_file read_file write_file flush_file file_len
    (fun e => run (remove_file e)) remove_dir_all read_dir entry_path entry_is_dir
    (@file_use).

(** ** The code that is generic in the storage *)

Section Generic.
Context {S H : Type} (stor : storage S H).

(** erase.rs lines 35-55 *)
Definition erase_on (p : path) (passes : Z) : M S erase_error unit :=
  (file <- map_err (fun _ => EraOpenFile) (st_write_file stor p) ;;
   buf_capacity <- map_err (fun _ => EraOpenFile) (st_file_len stor file) ;;
   if st_is_dir stor file then panic else
   file' <- (fun s =>
     let '((o, f), s') := st_use stor (overwrite_execute buf_capacity passes) file s in
     match o with
     | Ok _ => (Ok f, s')
     | Err x => (Err (EraOverwrite x), s')
     | Panic => (Panic, s')
     | Diverge => (Diverge, s')
     end) ;;
   map_err (fun _ => EraRemoveFile) (st_remove_file stor file'))%m.

(** erase_dir.rs lines 52-70, the threads one after another (the order in which
    they make their steps matters only to other processes, C43) *)
Fixpoint erase_each (passes : Z) (files : list H) : M S erase_dir_error unit :=
  match files with
  | [] => ret tt
  | f :: files' =>
      if st_is_dir stor f then erase_each passes files'
      else (map_err EdEraseFile (erase_on (st_path stor f) passes) ;;
            erase_each passes files')%m
  end.

(** erase_dir.rs lines 39-75 *)
Definition erase_dir_on (e : H) (passes : Z) : M S erase_dir_error unit :=
  if negb (st_is_dir stor e) then err EdInvalidFileType else
  (files <- map_err (fun _ => EdReadDirEntries) (st_read_dir stor e) ;;
   erase_each passes files ;;
   map_err (fun _ => EdRemoveDir) (st_remove_dir_all stor e))%m.

End Generic.
