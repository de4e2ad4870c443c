(** crates/volaris-tools/src/header/{dump,strip,restore}.rs *)
From Coq Require Import List Arith NArith ZArith.
From Verif Require Import Bytes Outcome IO Primitives Crypto Header.
Local Open Scope nat_scope.

(** crates/volaris-tools/src/header.rs [Error] ([HeaderSizeParse] cannot occur:
    the size is one of three constants) *)
Inductive hop_error :=
| HopUnsupportedRestore | HopInvalidFile | HopWrite | HopRead | HopRewind.

(** dump.rs lines 18-31: [w_in] is [reader], [w_out] is [writer] *)
Definition header_dump : M world hop_error unit :=
  ha <- map_err (fun _ => HopInvalidFile) (on_in deserialize) ;;
  map_err (fun _ => HopWrite) (on_out (header_write (fst ha))).

(** strip.rs lines 16-42: [w_in] is [handle] *)
Definition header_strip : M world hop_error unit :=
  ha <- map_err (fun _ => HopInvalidFile) (on_in deserialize) ;;
  map_err (fun _ => HopRewind) (on_in dev_rewind) ;;
  map_err (fun _ => HopWrite)
    (on_in (dev_write_all (zeros (get_size (ht_version (h_type (fst ha))))))).

(** restore.rs lines 18-52: [w_in] is [reader] (the dumped header), [w_out] is
    [writer] (the target, also read).  One [read] into a zeroed buffer; the
    number of bytes read is ignored. *)
Definition header_restore : M world hop_error unit :=
  ha <- map_err (fun _ => HopInvalidFile) (on_in deserialize) ;;
  got <- map_err (fun _ => HopRead)
           (on_out (dev_read (get_size (ht_version (h_type (fst ha)))))) ;;
  if negb (all_zero got) then err HopUnsupportedRestore
  else
    map_err (fun _ => HopRewind) (on_out dev_rewind) ;;
    map_err (fun _ => HopWrite) (on_out (header_write (fst ha))).
