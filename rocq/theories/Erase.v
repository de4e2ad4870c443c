(** crates/volaris-tools/src/{erase,erase_dir}.rs over [FileStorage] *)
From Coq Require Import List Arith ZArith.
From Verif Require Import Bytes Outcome IO Primitives Overwrite FS.
Local Open Scope nat_scope.

(** erase.rs lines 12-16 *)
Inductive erase_error := EraOpenFile | EraOverwrite (e : ow_error) | EraRemoveFile.

(** erase.rs lines 43-50.  With a file that transfers what it is asked to, the
    only call with an effect is the final write of zeros, so the whole is one
    step. *)
Definition overwrite_file (e : entry) (cap : nat) (passes : Z) : R erase_error entry :=
  match e with
  | EDir _ => Done Panic      (* [expect], line 46; not reached *)
  | EFile h =>
      r <~ act (run_handle (overwrite_execute cap passes) h) ;;
      match r with
      | (Ok _, h') => rret (EFile h')
      | (Err x, _) => rerr (EraOverwrite x)
      | (Panic, _) => Done Panic
      | (Diverge, _) => Done Diverge
      end
  end.

(** erase.rs lines 35-55 *)
Definition erase_execute (p : path) (passes : Z) : R erase_error unit :=
  file <~ rmap_err (fun _ => EraOpenFile) (atom (write_file p)) ;;
  buf_capacity <~ rmap_err (fun _ => EraOpenFile) (atom (file_len file)) ;;
  file' <~ overwrite_file file buf_capacity passes ;;
  rmap_err (fun _ => EraRemoveFile) (remove_file file').

(** erase_dir.rs lines 11-16 *)
Inductive erase_dir_error :=
| EdInvalidFileType | EdEraseFile (e : erase_error) | EdReadDirEntries | EdRemoveDir.

(** erase_dir.rs lines 52-70: one thread per entry that is not a directory *)
Definition erase_threads (passes : Z) (files : list entry)
  : list (R erase_dir_error unit) :=
  map (fun f => rmap_err EdEraseFile (erase_execute (entry_path f) passes))
      (filter (fun f => negb (entry_is_dir f)) files).

(** erase_dir.rs lines 39-75.  [sched] is the order in which the threads make
    their steps. *)
Definition erase_dir_execute (sched : list nat) (e : entry) (passes : Z)
  : M sys erase_dir_error unit :=
  if negb (entry_is_dir e) then err EdInvalidFileType else
  (files <- map_err (fun _ => EdReadDirEntries) (read_dir e) ;;
   ts <- (fun s => let '(ts, s') := run_sched sched (erase_threads passes files) s in
                   (Ok ts, s')) ;;
   lift (join_all ts) ;;
   map_err (fun _ => EdRemoveDir) (remove_dir_all e))%m.
