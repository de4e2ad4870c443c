(** What the in-memory storage of the tests must have in common with the file
    storage: small programs over either storage, what each storage holds, and the
    calls on which the two may be expected to agree. *)
From Coq Require Import List Arith ZArith Bool String Permutation.
From Verif Require Import Bytes Outcome IO Primitives Overwrite FS FSSpec Erase ArchiveSpec MemStore.
Import ListNotations.
Local Open Scope nat_scope.
Local Open Scope list_scope.

(** A relative path of plain names. *)
Definition rel (n : list string) : path := mkPath false (map Nm n).

(** ** What tests do with a storage *)

Inductive call :=
| Put (n : list string) (l : bytes)      (* create, write, flush *)
| Get (n : list string)                  (* open for reading, read everything *)
| Len (n : list string)                  (* open for reading, ask for the length *)
| WLen (n : list string)                 (* open for writing, ask for the length *)
| Update (n : list string) (l : bytes)   (* open for writing, write, flush *)
| Del (n : list string)                  (* open for reading, remove *)
| RmDir (n : list string)                (* open for reading, remove as directory *)
| Entries (n : list string)              (* open for reading, list *)
| Erase (n : list string) (passes : Z)   (* [erase::execute] *)
| EraseDir (n : list string) (passes : Z).  (* open for reading, [erase_dir::execute] *)

Inductive call_error :=
| CeStore (e : st_error) | CeIo (e : io_error)
| CeErase (e : erase_error) | CeEraseDir (e : erase_dir_error).

Inductive answer :=
| ADone | AContent (l : bytes) | ALen (k : nat) | AEntries (l : list (path * bool)).

Section On.
Context {S H : Type} (stor : storage S H).

Definition sto {A} (m : M S st_error A) : M S call_error A := map_err CeStore m.

(** Use the stream of an entry; a directory has none. *)
Definition streaming {A} (d : M dev io_error A) (e : H) : M S call_error (A * H) := fun s =>
  if st_is_dir stor e then (Err (CeStore StFileAccess), s) else
  let '((o, e'), s') := st_use stor (ow_dev d) e s in
  match o with
  | Ok a => (Ok (a, e'), s')
  | Err x => (Err (CeIo x), s')
  | Panic => (Panic, s')
  | Diverge => (Diverge, s')
  end.

Definition perform (c : call) : M S call_error answer :=
  (match c with
   | Put n l =>
       e <- sto (st_create_file stor (rel n)) ;;
       r <- streaming (dev_write_all l) e ;;
       sto (st_flush_file stor (snd r)) ;; ret ADone
   | Get n =>
       e <- sto (st_read_file stor (rel n)) ;;
       r <- streaming dev_read_to_end e ;; ret (AContent (fst r))
   | Len n =>
       e <- sto (st_read_file stor (rel n)) ;;
       k <- sto (st_file_len stor e) ;; ret (ALen k)
   | WLen n =>
       e <- sto (st_write_file stor (rel n)) ;;
       k <- sto (st_file_len stor e) ;; ret (ALen k)
   | Update n l =>
       e <- sto (st_write_file stor (rel n)) ;;
       r <- streaming (dev_write_all l) e ;;
       sto (st_flush_file stor (snd r)) ;; ret ADone
   | Del n =>
       e <- sto (st_read_file stor (rel n)) ;;
       sto (st_remove_file stor e) ;; ret ADone
   | RmDir n =>
       e <- sto (st_read_file stor (rel n)) ;;
       sto (st_remove_dir_all stor e) ;; ret ADone
   | Entries n =>
       e <- sto (st_read_file stor (rel n)) ;;
       es <- sto (st_read_dir stor e) ;;
       ret (AEntries (map (fun x => (st_path stor x, st_is_dir stor x)) es))
   | Erase n passes => map_err CeErase (erase_on stor (rel n) passes) ;; ret ADone
   | EraseDir n passes =>
       e <- sto (st_read_file stor (rel n)) ;;
       map_err CeEraseDir (erase_dir_on stor e passes) ;; ret ADone
   end)%m.

(** Several calls; all their answers. *)
Fixpoint perform_all (cs : list call) (s : S) : list (outcome call_error answer) * S :=
  match cs with
  | [] => ([], s)
  | c :: cs' => let '(a, s1) := perform c s in
                let '(as_, s2) := perform_all cs' s1 in (a :: as_, s2)
  end.

End On.

(** ** What is stored *)

(** Nothing, a directory, or a file with its content. *)
Inductive kept := KNone | KDir | KFile (l : bytes).

Definition in_mem (m : mem) (n : list string) : kept :=
  match find (fun e => path_eqb (fst e) (rel n)) (m_files m) with
  | None => KNone
  | Some (_, IMDir) => KDir
  | Some (_, IMFile l) => KFile l
  end.

Definition on_disk (s : sys) (n : list string) : kept :=
  match at_place s (s_cwd s ++ n) with
  | Some SDir => KDir
  | Some (SFile _ l) => KFile l
  | _ => KNone
  end.

(** A map of relative names, none repeated. *)
Definition plain_map (m : mem) : Prop :=
  exists ns, map fst (m_files m) = map rel ns /\ NoDup ns /\ ~ In [] ns.

(** A disk that works, with ordinary files and directories below the current
    directory. *)
Record plain_disk (s : sys) : Prop := {
  pd_tree : tree_ok s;
  pd_calm : no_faults s;
  pd_inodes : inodes_ok s;
  pd_here : lookup (s_nodes s) (s_cwd s) = Some NDir;
  pd_links : no_links_inside s (s_cwd s);
  pd_names : forall r, inside (s_cwd s) r -> only_name s r
}.

Record same_store (m : mem) (s : sys) : Prop := {
  ss_map : plain_map m;
  ss_disk : plain_disk s;
  ss_same : forall n, n <> [] -> in_mem m n = on_disk s n
}.

(** ** Where agreement can be expected

    [K] says what is stored. *)
Definition permitted (K : list string -> kept) (c : call) : Prop :=
  match c with
  | Put n _ => n <> [] /\ (removelast n = [] \/ K (removelast n) = KDir)
  | Get n | Len n | Entries n | Erase n _ | EraseDir n _ => n <> []
  | WLen n => n <> [] /\ (K n = KNone \/ K n = KFile [])
  | Update n l => n <> [] /\ (K n = KNone
                              \/ exists l0, K n = KFile l0 /\ List.length l0 <= List.length l)
  | Del n => n <> [] /\ K n <> KDir
  | RmDir n => n <> [] /\ (K n = KNone \/ K n = KDir)
  end.

(** The name a call is about. *)
Definition target (c : call) : list string :=
  match c with
  | Put n _ | Get n | Len n | WLen n | Update n _ | Del n | RmDir n | Entries n
  | Erase n _ | EraseDir n _ => n
  end.

(** Every call is permitted when its turn comes, on the file storage. *)
Fixpoint all_permitted (cs : list call) (s : sys) : Prop :=
  match cs with
  | [] => True
  | c :: cs' => permitted (on_disk s) c /\ all_permitted cs' (snd (perform FileStorage c s))
  end.

(** The same answer; a listing may come in any order. *)
Definition agree (a b : outcome call_error answer) : Prop :=
  match a, b with
  | Ok (AEntries l), Ok (AEntries k) => Permutation l k
  | _, _ => a = b
  end.
