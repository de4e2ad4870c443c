(** A file system, and crates/volaris-tools/src/storage.rs on top of it
    ([FileStorage], the storage the program uses).

    Modelled: directories, regular files with inodes (so several names may
    denote one file), symbolic links, relative and absolute paths with [.] and
    [..], a current directory, the directory for temporary files, failures of
    any call, and the order of all changes made.  Not modelled: permissions,
    special files, mount points, other processes, and a trailing slash on a path
    of a non-directory. *)
From Coq Require Import List Arith NArith Ascii String Bool.
From Verif Require Import Bytes Outcome IO Primitives Overwrite.
Import ListNotations.
Local Open Scope nat_scope.
Local Open Scope list_scope.

(** ** Paths *)

(** The names on the way from the root: a place in the tree. *)
Definition cpath := list string.

(** A path as written: [std::path::Component] without [Prefix] (Windows). *)
Inductive comp := Cur | Up | Nm (n : string).
Record path := mkPath { p_abs : bool; p_comps : list comp }.

(** [PathBuf::push] (std): an absolute path replaces. *)
Definition path_push (a b : path) : path :=
  if p_abs b then b else mkPath (p_abs a) (p_comps a ++ p_comps b).

Definition is_cur (c : comp) : bool := match c with Cur => true | _ => false end.

(** [Path::components] (std) drops every [.] but a leading one. *)
Definition components (p : path) : list comp :=
  match p_comps p with
  | Cur :: l => if p_abs p then filter (fun c => negb (is_cur c)) l
                else Cur :: filter (fun c => negb (is_cur c)) l
  | l => filter (fun c => negb (is_cur c)) l
  end.

(** ** The tree *)

Inductive node := NDir | NFile (i : nat) | NLink (target : path).
Definition nodes := list (cpath * node).

Fixpoint cpath_eqb (a b : cpath) : bool :=
  match a, b with
  | [], [] => true
  | x :: a', y :: b' => String.eqb x y && cpath_eqb a' b'
  | _, _ => false
  end.

Fixpoint find_node (t : nodes) (p : cpath) : option node :=
  match t with
  | [] => None
  | (q, n) :: t' => if cpath_eqb p q then Some n else find_node t' p
  end.

(** The root always exists. *)
Definition lookup (t : nodes) (p : cpath) : option node :=
  match p with [] => Some NDir | _ => find_node t p end.

Definition remove_node (t : nodes) (p : cpath) : nodes :=
  filter (fun e => negb (cpath_eqb p (fst e))) t.

(** [strip_prefix p q] is the rest of [q] below [p]. *)
Fixpoint strip_prefix (p q : cpath) : option cpath :=
  match p, q with
  | [], _ => Some q
  | x :: p', y :: q' => if String.eqb x y then strip_prefix p' q' else None
  | _ :: _, [] => None
  end.
Definition below (p q : cpath) : bool :=
  match strip_prefix p q with Some _ => true | None => false end.

(** Name resolution (the operating system's).  The place a path denotes; the
    last component may be missing.  [follow] says whether a symbolic link as
    last component is followed; at most [links] links are. *)
Fixpoint walk (links : nat) (t : nodes) (follow : bool) (cur : cpath) (cs : list comp)
  {struct links} : option cpath :=
  (fix go (cur : cpath) (cs : list comp) {struct cs} : option cpath :=
     match cs with
     | [] => Some cur
     | Cur :: r => go cur r
     | Up :: r => go (removelast cur) r
     | Nm n :: r =>
         let p := cur ++ [n] in
         match lookup t p with
         | None | Some (NFile _) => match r with [] => Some p | _ => None end
         | Some NDir => go p r
         | Some (NLink target) =>
             match r, follow with
             | [], false => Some p
             | _, _ =>
                 match links with
                 | O => None
                 | S links' =>
                     walk links' t follow (if p_abs target then [] else cur)
                          (p_comps target ++ r)
                 end
             end
         end
     end) cur cs.

(** Linux follows at most 40 links. *)
Definition MAX_LINKS : nat := 40.

(** ** The state *)

(** Changes, in the order in which they are made. *)
Inductive fsev :=
| FCreate (p : cpath) (i : nat)             (* a new empty file *)
| FMkdir (p : cpath)
| FTrunc (i : nat)                          (* content dropped *)
| FWrite (i : nat) (off : nat) (l : bytes)
| FUnlink (p : cpath)
| FRmTree (p : cpath).                      (* a directory with all it contains *)

Record sys := mkSys {
  s_nodes : nodes;
  s_data : nat -> bytes;          (* contents of the files, by inode *)
  s_next : nat;                   (* next inode *)
  s_cwd : cpath;
  s_tmp : path;                   (* std::env::temp_dir() *)
  s_faults : list bool;           (* which of the next calls fail *)
  s_plans : list (list ev);       (* behaviour of the next files opened *)
  s_rng : rng;
  s_log : list fsev
}.

Definition set_data (f : nat -> bytes) (i : nat) (l : bytes) : nat -> bytes :=
  fun j => if j =? i then l else f j.

Definition with_nodes (t : nodes) (e : fsev) (s : sys) : sys :=
  mkSys t (s_data s) (s_next s) (s_cwd s) (s_tmp s) (s_faults s) (s_plans s)
        (s_rng s) (s_log s ++ [e]).
Definition with_data (i : nat) (l : bytes) (es : list fsev) (s : sys) : sys :=
  mkSys (s_nodes s) (set_data (s_data s) i l) (s_next s) (s_cwd s) (s_tmp s)
        (s_faults s) (s_plans s) (s_rng s) (s_log s ++ es).
Definition with_rng (g : rng) (s : sys) : sys :=
  mkSys (s_nodes s) (s_data s) (s_next s) (s_cwd s) (s_tmp s) (s_faults s)
        (s_plans s) g (s_log s).

(** Does the next call fail? *)
Definition next_fault (s : sys) : bool * sys :=
  match s_faults s with
  | [] => (false, s)
  | b :: l => (b, mkSys (s_nodes s) (s_data s) (s_next s) (s_cwd s) (s_tmp s) l
                        (s_plans s) (s_rng s) (s_log s))
  end.
Definition next_plan (s : sys) : list ev * sys :=
  match s_plans s with
  | [] => ([], s)
  | p :: l => (p, mkSys (s_nodes s) (s_data s) (s_next s) (s_cwd s) (s_tmp s)
                        (s_faults s) l (s_rng s) (s_log s))
  end.

Definition resolve (follow : bool) (s : sys) (p : path) : option cpath :=
  walk MAX_LINKS (s_nodes s) follow (if p_abs p then [] else s_cwd s) (p_comps p).

(** What a path denotes, links followed ([fs::metadata]). *)
Definition stat (s : sys) (p : path) : option node :=
  match resolve true s p with Some q => lookup (s_nodes s) q | None => None end.
(** [Path::is_dir] (std) *)
Definition is_dir (s : sys) (p : path) : bool :=
  match stat s p with Some NDir => true | _ => false end.
(** [fs::metadata(p).is_ok()] (std) *)
Definition exists_path (s : sys) (p : path) : bool :=
  match stat s p with Some _ => true | None => false end.

(** An atomic call that may fail before doing anything. *)
Definition call_or {E A} (e : E) (m : M sys E A) : M sys E A := fun s =>
  let '(b, s1) := next_fault s in if b then (Err e, s1) else m s1.

(** ** Open files *)

(** storage.rs lines 411-417 ([FileData]): the path and the open file. *)
Record handle := mkHandle {
  h_path : path; h_ino : nat; h_pos : nat; h_plan : list ev
}.

(** storage.rs lines 419-425 *)
Inductive entry := EFile (h : handle) | EDir (p : path).
(** storage.rs lines 431-435 *)
Definition entry_path (e : entry) : path :=
  match e with EFile h => h_path h | EDir p => p end.
(** storage.rs lines 437-439 *)
Definition entry_is_dir (e : entry) : bool :=
  match e with EDir _ => true | _ => false end.

Definition handle_dev (s : sys) (h : handle) : dev :=
  mkDev (s_data s (h_ino h)) (h_pos h) (h_plan h) [].

(** The state after an open file was used as a device and is now [d]. *)
Definition put_handle (d : dev) (h : handle) (s : sys) : sys :=
  with_data (h_ino h) (d_data d) (map (fun w => FWrite (h_ino h) (fst w) (snd w)) (d_log d)) s.
Definition move_handle (d : dev) (h : handle) : handle :=
  mkHandle (h_path h) (h_ino h) (d_pos d) (d_plan d).

(** Run device code on an open file. *)
Definition run_handle {E A} (m : M ow_state E A) (h : handle) (s : sys)
  : (outcome E A * handle) * sys :=
  let '(o, (d, g)) := m (handle_dev s h, s_rng s) in
  ((o, move_handle d h), with_rng g (put_handle d h s)).

(** ** Programs that other threads may interrupt

    [Step m k] is one atomic step followed by the rest. *)
Inductive R (E A : Type) : Type :=
| Done (o : outcome E A)
| Step (X : Type) (m : sys -> X * sys) (k : X -> R E A).
Arguments Done {E A} o.
Arguments Step {E A} X m k.

Definition rret {E A} (a : A) : R E A := Done (Ok a).
Definition rerr {E A} (e : E) : R E A := Done (Err e).
Definition atom {E A} (m : M sys E A) : R E A := Step (outcome E A) m Done.
Definition act {E X} (m : sys -> X * sys) : R E X := Step X m rret.

Fixpoint rbind {E A B} (r : R E A) (k : A -> R E B) : R E B :=
  match r with
  | Done (Ok a) => k a
  | Done (Err e) => Done (Err e)
  | Done Panic => Done Panic
  | Done Diverge => Done Diverge
  | Step X m c => Step X m (fun x => rbind (c x) k)
  end.

Fixpoint rmap_err {E E' A} (f : E -> E') (r : R E A) : R E' A :=
  match r with
  | Done (Ok a) => Done (Ok a)
  | Done (Err e) => Done (Err (f e))
  | Done Panic => Done Panic
  | Done Diverge => Done Diverge
  | Step X m c => Step X m (fun x => rmap_err f (c x))
  end.

Fixpoint ror_else {E E' A} (r : R E A) (h : E -> R E' A) : R E' A :=
  match r with
  | Done (Ok a) => Done (Ok a)
  | Done (Err e) => h e
  | Done Panic => Done Panic
  | Done Diverge => Done Diverge
  | Step X m c => Step X m (fun x => ror_else (c x) h)
  end.

Declare Scope r_scope.
Delimit Scope r_scope with r.
Notation "x <~ m ;; k" := (rbind m (fun x => k))
  (at level 61, m at next level, right associativity) : r_scope.
Notation "m ~;; k" := (rbind m (fun _ => k))
  (at level 61, right associativity) : r_scope.
Open Scope r_scope.

(** Run a program alone. *)
Fixpoint run {E A} (r : R E A) (s : sys) : outcome E A * sys :=
  match r with
  | Done o => (o, s)
  | Step X m k => let '(x, s') := m s in run (k x) s'
  end.

(** One step of one thread. *)
Definition tick {E A} (r : R E A) (s : sys) : R E A * sys :=
  match r with
  | Done o => (Done o, s)
  | Step X m k => let '(x, s') := m s in (k x, s')
  end.

Fixpoint step_nth {E A} (i : nat) (ts : list (R E A)) (s : sys) : list (R E A) * sys :=
  match ts, i with
  | [], _ => ([], s)
  | t :: ts', O => let '(t', s') := tick t s in (t' :: ts', s')
  | t :: ts', S i' => let '(ts2, s') := step_nth i' ts' s in (t :: ts2, s')
  end.

(** Threads under a schedule: which thread makes the next step. *)
Fixpoint run_sched {E A} (sched : list nat) (ts : list (R E A)) (s : sys)
  : list (R E A) * sys :=
  match sched with
  | [] => (ts, s)
  | i :: sched' => let '(ts1, s1) := step_nth i ts s in run_sched sched' ts1 s1
  end.

(** [handlers.into_iter().try_for_each(|h| h.join().unwrap())]: the first error
    in the order of the threads; a panicking thread makes [unwrap] panic.
    [Diverge]: a thread waited for has not finished under this schedule. *)
Fixpoint join_all {E} (ts : list (R E unit)) : outcome E unit :=
  match ts with
  | [] => Ok tt
  | Done (Ok _) :: ts' => join_all ts'
  | Done (Err e) :: _ => Err e
  | Done Panic :: _ => Panic
  | _ :: _ => Diverge
  end.

(** ** storage.rs *)

(** storage.rs lines 23-33 *)
Inductive st_error :=
| StCreateDir | StCreateFile | StOpenRead | StOpenWrite | StRemoveFile
| StRemoveDir | StDirEntries | StFlushFile | StFileAccess | StFileLen.

Definition new_handle (p : path) (i : nat) : M sys st_error entry := fun s =>
  let '(plan, s1) := next_plan s in (Ok (EFile (mkHandle p i 0 plan)), s1).

(** storage.rs lines 85-97: [create_new] fails if the name exists, even as a
    dangling link. *)
Definition create_file (p : path) : M sys st_error entry :=
  call_or StCreateFile (fun s =>
    match resolve false s p with
    | Some q =>
        match lookup (s_nodes s) q with
        | None =>
            new_handle p (s_next s)
              (mkSys (s_nodes s ++ [(q, NFile (s_next s))])
                     (set_data (s_data s) (s_next s) []) (S (s_next s)) (s_cwd s)
                     (s_tmp s) (s_faults s) (s_plans s) (s_rng s)
                     (s_log s ++ [FCreate q (s_next s)]))
        | Some _ => (Err StCreateFile, s)
        end
    | None => (Err StCreateFile, s)
    end).

(** storage.rs lines 99-110 *)
Definition read_file (p : path) : M sys st_error entry := fun s =>
  if is_dir s p then (Ok (EDir p), s)
  else call_or StOpenRead (fun s =>
         match stat s p with
         | Some (NFile i) => new_handle p i s
         | _ => (Err StOpenRead, s)
         end) s.

(** storage.rs lines 112-125: opening truncates *)
Definition write_file (p : path) : M sys st_error entry :=
  call_or StOpenWrite (fun s =>
    match stat s p with
    | Some (NFile i) => new_handle p i (with_data i [] [FTrunc i] s)
    | _ => (Err StOpenWrite, s)
    end).

(** storage.rs lines 134-141 *)
Definition file_len (e : entry) : M sys st_error nat :=
  match e with
  | EDir _ => err StFileAccess
  | EFile h => call_or StFileLen (fun s => (Ok (List.length (s_data s (h_ino h))), s))
  end.

(** [File::set_len(0)] *)
Definition truncate (h : handle) : M sys st_error unit :=
  call_or StRemoveFile (fun s => (Ok tt, with_data (h_ino h) [] [FTrunc (h_ino h)] s)).

(** [fs::remove_file] (std): unlinks a name that is not a directory; links are
    not followed. *)
Definition unlink (p : path) : M sys st_error unit :=
  call_or StRemoveFile (fun s =>
    match resolve false s p with
    | Some q =>
        match lookup (s_nodes s) q with
        | Some (NFile _) | Some (NLink _) =>
            (Ok tt, with_nodes (remove_node (s_nodes s) q) (FUnlink q) s)
        | _ => (Err StRemoveFile, s)
        end
    | None => (Err StRemoveFile, s)
    end).

(** storage.rs lines 127-132, 147: flushing a [File] *)
Definition flush : M sys st_error unit :=
  call_or StFlushFile (fun s => (Ok tt, s)).
Definition flush_file (e : entry) : M sys st_error unit :=
  match e with EDir _ => err StFileAccess | EFile _ => flush end.

(** storage.rs lines 143-151 *)
Definition remove_file (e : entry) : R st_error unit :=
  (match e with
   | EFile h => atom (truncate h) ~;; atom flush
   | EDir _ => rret tt
   end) ~;;
  atom (unlink (entry_path e)).

(** storage.rs lines 153-159; [fs::remove_dir_all] (std) removes a symbolic link
    itself, and otherwise everything below without following links; the root
    cannot be removed.  Taken as one step, done completely or not at all. *)
Definition remove_dir_all (e : entry) : M sys st_error unit :=
  match e with
  | EFile _ => err StRemoveDir
  | EDir p => call_or StRemoveDir (fun s =>
      match resolve false s p with
      | Some [] => (Err StRemoveDir, s)
      | Some q =>
          match lookup (s_nodes s) q with
          | Some NDir =>
              (Ok tt, with_nodes (filter (fun e => negb (below q (fst e))) (s_nodes s))
                                 (FRmTree q) s)
          | Some (NLink _) =>
              (Ok tt, with_nodes (remove_node (s_nodes s) q) (FUnlink q) s)
          | _ => (Err StRemoveDir, s)
          end
      | None => (Err StRemoveDir, s)
      end)
  end.

(** [WalkDir::new(p)] (walkdir): the directory itself and everything below, not
    following links; every path is [p] joined with the names below it.  The order
    is that of [s_nodes], which is arbitrary. *)
Definition listing (s : sys) (p : path) : list path :=
  match resolve true s p with
  | None => []
  | Some q =>
      p :: flat_map (fun e => match strip_prefix q (fst e) with
                              | Some (n :: r) =>
                                  [mkPath (p_abs p) (p_comps p ++ map Nm (n :: r))]
                              | _ => []
                              end) (s_nodes s)
  end.

(** storage.rs lines 172-173: every path is opened *)
Fixpoint read_all (ps : list path) : M sys st_error (list entry) :=
  match ps with
  | [] => ret []
  | p :: ps' => (e <- read_file p ;; es <- read_all ps' ;; ret (e :: es))%m
  end.

(** storage.rs lines 161-174 *)
Definition read_dir (e : entry) : M sys st_error (list entry) :=
  match e with
  | EFile _ => err StFileAccess
  | EDir p => call_or StDirEntries (fun s => read_all (listing s p) s)
  end.

(** [mkdir] (std [DirBuilder::mkdir]).  [None]: made; [Some true]: a component
    on the way is missing; [Some false]: another failure. *)
Definition mkdir (p : path) (s : sys) : option bool * sys :=
  let '(b, s1) := next_fault s in
  if b then (Some false, s1) else
  match resolve false s1 p with
  | None => (Some true, s1)
  | Some q =>
      match lookup (s_nodes s1) q with
      | Some _ => (Some false, s1)
      | None => (None, with_nodes (s_nodes s1 ++ [(q, NDir)]) (FMkdir q) s1)
      end
  end.

(** [fs::create_dir_all] (std [DirBuilder::create_dir_all]): make the directory;
    if something on the way is missing, make the parent first and try again; an
    existing directory is fine. *)
Definition mkdir_or_is_dir (p : path) : R st_error unit :=
  b <~ act (mkdir p) ;;
  match b with
  | None => rret tt
  | Some _ => d <~ act (fun s => (is_dir s p, s)) ;;
              if (d : bool) then rret tt else rerr StCreateDir
  end.

(** The same for a path given by its components, last one first. *)
Fixpoint create_parents (abs : bool) (rcs : list comp) : R st_error unit :=
  match rcs with
  | [] => if abs then mkdir_or_is_dir (mkPath true []) else rret tt
  | _ :: rcs' =>
      let p := mkPath abs (rev rcs) in
      b <~ act (mkdir p) ;;
      match b with
      | None => rret tt
      | Some false => d <~ act (fun s => (is_dir s p, s)) ;;
                      if (d : bool) then rret tt else rerr StCreateDir
      | Some true => create_parents abs rcs' ~;; mkdir_or_is_dir p
      end
  end.

(** storage.rs lines 81-83.  [Path::parent] works on the components. *)
Definition create_dir_all (p : path) : R st_error unit :=
  match p_abs p, p_comps p with
  | false, [] => rret tt
  | _, _ =>
      b <~ act (mkdir p) ;;
      match b with
      | None => rret tt
      | Some false => d <~ act (fun s => (is_dir s p, s)) ;;
                      if (d : bool) then rret tt else rerr StCreateDir
      | Some true =>
          match rev (components p) with
          | [] => rerr StCreateDir
          | _ :: rcs' => create_parents (p_abs p) rcs' ~;; mkdir_or_is_dir p
          end
      end
  end.

(** storage.rs lines 58-64: a file with a random name of 16 alphanumeric
    characters in the directory for temporary files.  How the characters are
    drawn is left to [pick_name]. *)
Definition create_temp_file (pick_name : rng -> string * rng) : M sys st_error entry :=
  fun s =>
    let '(n, g) := pick_name (s_rng s) in
    create_file (path_push (s_tmp s) (mkPath false [Nm n])) (with_rng g s).
