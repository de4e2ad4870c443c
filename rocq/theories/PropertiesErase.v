(** Properties C41-C43: erasing files and directories
    (crates/volaris-tools/src/{erase,erase_dir,storage}.rs).  Vocabulary:
    FSSpec.v; the concrete file systems are in EraseCases.v. *)
From Coq Require Import List Arith NArith ZArith Lia Bool Ascii String.
From Verif Require Import Bytes Outcome IO Primitives Overwrite FS Erase.
From Verif Require Import FSSpec EraseProofs EraseDirProofs EraseSched EraseCases.
Import ListNotations.
Local Open Scope nat_scope.
Local Open Scope list_scope.

(** C41 is false: opening the file for writing truncates it, so its old content
    is dropped, never overwritten. *)
Theorem C41_overwrite_before_remove_refuted : exists s p passes s' es i,
  tree_ok s /\ no_faults s /\ stat s p = Some (NFile i) /\ s_data s i <> []
  /\ run (erase_execute p passes) s = (Ok tt, s') /\ added s s' es
  /\ ~ overwritten_before_loss es i (List.length (s_data s i)).
Proof. exact erase_not_overwritten. Qed.
Print Assumptions C41_overwrite_before_remove_refuted.

(** In fact no execution, failing or not, with any number of passes, writes any
    byte of any file. *)
Theorem C41_nothing_overwritten : forall p passes s o s' es i off,
  run (erase_execute p passes) s = (o, s') -> added s s' es -> ~ overwritten es i off.
Proof. exact erase_never_overwrites. Qed.
Print Assumptions C41_nothing_overwritten.

(** What does hold: a successful erase drops the content, then the name. *)
Theorem C41_dropped_then_removed_partial : forall p passes s s' es,
  run (erase_execute p passes) s = (Ok tt, s') -> added s s' es ->
  exists i q, stat s p = Some (NFile i) /\ resolve false s p = Some q
    /\ es = [FTrunc i; FTrunc i; FUnlink q] /\ s_data s' i = [].
Proof. exact erase_drops_first. Qed.
Print Assumptions C41_dropped_then_removed_partial.

Example C41_case :
  let '(o, s') := run (erase_execute (rel ["d"; "sub"; "b"]%string) 2) plain in
  (o, s_log s', at_place s' ["home"; "d"; "sub"]%string, at_place s' ["home"; "d"; "sub"; "b"]%string)
  = (Ok tt, [FTrunc 1; FTrunc 1; FUnlink ["home"; "d"; "sub"; "b"]%string], Some SDir, None).
Proof. vm_compute. reflexivity. Qed.

(** C42 is false when the file has other names: through a symbolic link the
    file pointed to is emptied and keeps its name; a second hard link is left
    naming an empty file. *)
Theorem C42_exactly_target_refuted : exists s,
  tree_ok s /\ no_faults s
  /\ (exists p s' r, run (erase_execute p 1) s = (Ok tt, s')
        /\ resolve true s p = Some r /\ resolve false s p <> Some r
        /\ at_place s r = Some (SFile 0 (B "precious"))
        /\ at_place s' r = Some (SFile 0 []))
  /\ (exists p s' q r, run (erase_execute p 1) s = (Ok tt, s')
        /\ resolve true s p = Some q /\ resolve false s p = Some q /\ r <> q
        /\ at_place s r = Some (SFile 0 (B "precious"))
        /\ at_place s' r = Some (SFile 0 [])).
Proof. exact erase_touches_others. Qed.
Print Assumptions C42_exactly_target_refuted.

(** What does hold, for every file system and path and whatever fails:
    - a path that is not a file (missing, a directory) is an error and changes
      nothing;
    - after success the path denotes nothing, its name is gone, and every other
      place is unchanged except further names of the same file, which are left
      empty; so with a single name, everything else is unchanged;
    - on any outcome only that name and that file are affected;
    - without failing calls, erasing a file succeeds; no panic. *)
Theorem C42_exactly_target_partial : forall p passes s o s',
  run (erase_execute p passes) s = (o, s') ->
  ((forall i, stat s p <> Some (NFile i)) ->
     o = Err EraOpenFile /\ added s s' [] /\ forall r, at_place s' r = at_place s r)
  /\ (o = Ok tt -> exists i q, stat s p = Some (NFile i) /\ resolve false s p = Some q
        /\ stat s' p = None /\ at_place s' q = None
        /\ (forall r, r <> q -> lookup (s_nodes s) r <> Some (NFile i) ->
              at_place s' r = at_place s r)
        /\ (forall r, r <> q -> lookup (s_nodes s) r = Some (NFile i) ->
              at_place s' r = Some (SFile i []))
        /\ (resolve true s p = Some q -> only_name s q ->
              forall r, r <> q -> at_place s' r = at_place s r))
  /\ (forall i q, stat s p = Some (NFile i) -> resolve false s p = Some q ->
        forall r, place_after s s' i q r)
  /\ (forall i, no_faults s -> stat s p = Some (NFile i) -> o = Ok tt)
  /\ o <> Panic /\ o <> Diverge.
Proof. exact erase_holds. Qed.
Print Assumptions C42_exactly_target_partial.

(** A relative path with [..]; a directory; a missing name. *)
Example C42_case :
  map (fun p => let '(o, s') := run (erase_execute p 1) plain in
                (match o with Ok _ => true | _ => false end,
                 filter (fun e => match at_place s' (fst e) with None => true | _ => false end)
                        (s_nodes plain),
                 List.length (s_log s')))
      [mkPath false [Nm "d"; Up; Cur; Nm "d2"]%string; rel ["d"; "sub"]%string;
       rel ["d"; "nothing"]%string]
  = [(true, [(["home"; "d2"]%string, NFile 2)], 3); (false, [], 0); (false, [], 0)].
Proof. vm_compute. reflexivity. Qed.

(** C43 is false with symbolic links below the directory: a file outside is
    emptied; *)
Theorem C43_nothing_else_refuted : exists s s' r,
  tree_ok s /\ no_faults s
  /\ erase_dir_execute (all_turns 4) (EDir (rel ["d"%string])) 1 s = (Ok tt, s')
  /\ resolve true s (rel ["d"%string]) = Some ["home"; "d"]%string
  /\ ~ inside ["home"; "d"]%string r
  /\ at_place s r = Some (SFile 0 (B "precious")) /\ at_place s' r = Some (SFile 0 []).
Proof. exact erase_dir_leaves. Qed.
Print Assumptions C43_nothing_else_refuted.

(** and whether erasing succeeds depends on the order of the threads. *)
Theorem C43_schedule_independent_refuted : exists s sched1 sched2,
  tree_ok s /\ no_faults s
  /\ (forall k, k < 2 -> 6 <= turns sched1 k /\ 6 <= turns sched2 k)
  /\ fst (erase_dir_execute sched1 (EDir (rel ["d"%string])) 1 s)
     = Err (EdEraseFile EraOpenFile)
  /\ fst (erase_dir_execute sched2 (EDir (rel ["d"%string])) 1 s) = Ok tt.
Proof. exact erase_dir_order. Qed.
Print Assumptions C43_schedule_independent_refuted.

(** Without links below the directory and without outside names for the files
    in it, every schedule that lets the threads finish (six steps each) gives
    the same result: success, everything at or below the directory is gone,
    everything else unchanged.  A schedule that does not is one in which the
    program still waits. *)
Theorem C43_every_schedule_partial : forall s p q passes sched o s',
  tree_ok s -> no_faults s -> resolve true s p = Some q -> resolve false s p = Some q ->
  lookup (s_nodes s) q = Some NDir -> q <> [] -> no_links_inside s q -> no_outside_names s q ->
  erase_dir_execute sched (EDir p) passes s = (o, s') ->
  (o = Ok tt
   /\ (forall r, inside q r -> at_place s' r = None)
   /\ (forall r, ~ inside q r -> at_place s' r = at_place s r))
  \/ (o = Diverge /\ exists k, k < List.length (s_nodes s) /\ turns sched k < 6).
Proof. exact erase_dir_holds. Qed.
Print Assumptions C43_every_schedule_partial.

(** For every tree, with links and whatever fails, under every schedule: what
    changes lies inside the directory, is the link by which the directory was
    named, or is a file reachable through a name or link inside; after success
    nothing is left inside; no panic. *)
Theorem C43_scope : forall s p q, tree_ok s -> resolve true s p = Some q ->
  lookup (s_nodes s) q = Some NDir ->
  forall sched passes o s', erase_dir_execute sched (EDir p) passes s = (o, s') ->
  (forall r, at_place s' r <> at_place s r ->
     inside q r \/ resolve false s p = Some r
     \/ exists i, lookup (s_nodes s) r = Some (NFile i) /\ reached s p i)
  /\ (o = Ok tt -> resolve false s p = Some q -> forall r, inside q r -> at_place s' r = None)
  /\ o <> Panic.
Proof. exact erase_dir_scope. Qed.
Print Assumptions C43_scope.

(** Three files in two directories, under a sequential and two interleaved
    schedules, and one that is too short. *)
Example C43_case :
  map (fun sched =>
         let '(o, s') := erase_dir_execute sched (EDir (rel ["d"%string])) 1 plain in
         (match o with Ok _ => 0 | Err _ => 1 | _ => 2 end, everything s'))
      [all_turns 3; flat_map (fun _ => [2; 0; 1]) (seq 0 6);
       [1; 1; 0; 2; 2; 1; 0; 0; 0; 1; 1; 2; 2; 2; 0; 1; 0; 2]; [0; 1; 2]]
  = (let rest := [(["home"]%string, Some SDir);
                  (["home"; "d2"]%string, Some (SFile 2 (B "kept")));
                  (["tmp"]%string, Some SDir)] in
     [(0, rest); (0, rest); (0, rest);
      (2, [(["home"]%string, Some SDir); (["home"; "d"]%string, Some SDir);
           (["home"; "d"; "a"]%string, Some (SFile 0 []));
           (["home"; "d"; "sub"]%string, Some SDir);
           (["home"; "d"; "sub"; "b"]%string, Some (SFile 1 []));
           (["home"; "d2"]%string, Some (SFile 2 (B "kept")));
           (["tmp"]%string, Some SDir); (["home"; "d"; "c"]%string, Some (SFile 3 []))])]).
Proof. vm_compute. reflexivity. Qed.
