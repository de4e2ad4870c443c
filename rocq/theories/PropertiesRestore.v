(** Property C47: packing a directory and unpacking it elsewhere
    (crates/volaris-tools/src/{pack,unpack}.rs).  Vocabulary: RestoreSpec.v and
    RestoreManySpec.v; the concrete file systems are in RestoreCases.v. *)
From Coq Require Import List Arith NArith ZArith Ascii String Bool.
From Verif Require Import Bytes Outcome IO Primitives Crypto Header Stream KeyModel EncDec Overwrite FS Archive.
From Verif Require Import ToyEnv FSSpec FSFacts EraseCases ArchiveSpec ArchiveCases RestoreSpec RestoreManySpec RestoreProofs RestoreCases.
Import ListNotations.
Local Open Scope nat_scope.
Local Open Scope list_scope.

(** C47 is false.  A directory given by an absolute path is packed and unpacked
    without an error, and nothing comes back. *)
Theorem C47_absolute_refuted : exists s p q a', packed_and_unpacked s p q a'
  /\ no_faults s /\ p_abs p = true
  /\ at_place s (q ++ ["a"]%string) = Some (SFile 0 (B "secret"))
  /\ map fst (s_nodes (fst a')) = map fst (s_nodes s).
Proof. exact absolute_dropped. Qed.
Print Assumptions C47_absolute_refuted.

(** Likewise for one given by a path that starts with [..]. *)
Theorem C47_parent_refuted : exists s p q a', packed_and_unpacked s p q a'
  /\ no_faults s /\ p = mkPath false [Up; Nm "home"; Nm "d"]%string
  /\ at_place s (q ++ ["a"]%string) = Some (SFile 0 (B "secret"))
  /\ map fst (s_nodes (fst a')) = map fst (s_nodes s).
Proof. exact parent_dropped. Qed.
Print Assumptions C47_parent_refuted.

(** A file whose name ends in a backslash comes back as an empty directory. *)
Theorem C47_backslash_refuted : exists s p q a', packed_and_unpacked s p q a'
  /\ no_faults s /\ p = rel ["d"]%string
  /\ at_place s (q ++ ["a\"]%string) = Some (SFile 0 (B "secret"))
  /\ at_place (fst a') ["home"; "to"; "d"; "a\"]%string = Some SDir.
Proof. exact backslash_lost. Qed.
Print Assumptions C47_backslash_refuted.

(** A file of which one read returns less than was asked for is cut there. *)
Theorem C47_short_read_refuted : exists s p q a' k, packed_and_unpacked s p q a'
  /\ s_plans s = [[EvShort k]] /\ p = rel ["d"]%string
  /\ at_place s (q ++ ["a"]%string) = Some (SFile 0 (B "secret"))
  /\ exists i, at_place (fst a') ["home"; "to"; "d"; "a"]%string = Some (SFile i (B "sec")).
Proof. exact short_read_lost. Qed.
Print Assumptions C47_short_read_refuted.

(** What does hold, when reads and writes are full and nothing fails, for any number
    of directories given by relative paths without [..], none at or below another, every
    tree without links inside whose names survive (RestoreSpec.v), the header inside
    the file or in a file of its own: when packing returned without an error, unpacking
    its output with the same key, with every file accepted, to a place with room for
    the trees, returns without an error and leaves an exact copy of every tree there,
    unless the schedule of the threads ends too early. *)
Theorem C47_round_trip_partial : forall E Z pick bs s dirs preq tr a1,
  env_ok E -> zip_ok Z -> 0 < bs <= BLOCK_SIZE ->
  tree_ok s -> no_faults s -> inodes_ok s ->
  Forall (packable_dir s) dirs -> apart (map given_names dirs) -> dirs <> [] ->
  listed s dirs (pr_files preq) -> ht_version (pr_header_type preq) = V5 ->
  h_plan (pr_out preq) = [] -> s_data s (h_ino (pr_out preq)) = [] ->
  h_ino (pr_out preq) < s_next s ->
  pack_execute_bs E Z pick bs preq (s, tr) = (Ok tt, a1) ->
  forall pick2 s2 ureq q0 names tr2,
  tree_ok s2 -> no_faults s2 ->
  ur_raw_key ureq = pr_raw_key preq -> agrees ureq ->
  h_ino (ur_in ureq) < s_next s2 -> h_plan (ur_in ureq) = [] -> h_pos (ur_in ureq) = 0 ->
  s_data s2 (h_ino (ur_in ureq)) = s_data (fst a1) (h_ino (pr_out preq)) ->
  header_too preq s (fst a1) ureq s2 ->
  Forall (fun d => room_for s2 (ur_out ureq) q0 names (given_names d) (temp_path pick2 s2)) dirs ->
  exists n, forall sched r a',
  unpack_execute_bs E Z pick2 bs sched ureq (s2, tr2) = (r, a') ->
  (r = Ok tt /\ Forall (fun d => copied s (snd d) (fst a') (q0 ++ names ++ given_names d)) dirs)
  \/ (r = Diverge /\ exists k, k <= n /\ FSSpec.turns sched k < n).
Proof. exact round_trip. Qed.
Print Assumptions C47_round_trip_partial.

(** A directory with a file and a directory with a file, packed and unpacked. *)
Example C47_case :
  let '(o1, a1) := packing (rel ["d"]%string) (disk "a" "b" []) in
  let '(o2, a2) := unpack_execute toy toy_zip pick (ArchiveCases.turns 5) unpack_out a1 in
  (o1, o2, map (fun l => at_place (fst a2) (["home"; "to"]%string ++ l))
    [["d"]; ["d"; "a"]; ["d"; "e"]; ["d"; "e"; "b"]]%string)
  = (Ok tt, Ok tt, [Some SDir; Some (SFile 12 (B "secret")); Some SDir; Some (SFile 13 (B "more"))]).
Proof. vm_compute. reflexivity. Qed.

(** The theorem applies to it. *)
Example C47_case_applies : exists n, forall sched r a',
  unpack_execute toy toy_zip pick sched unpack_out (snd (packing (rel ["d"]%string) (disk "a" "b" []))) = (r, a') ->
  (r = Ok tt /\ copied (disk "a" "b" []) ["home"; "d"]%string (fst a') ["home"; "to"; "d"]%string)
  \/ (r = Diverge /\ exists k, k <= n /\ FSSpec.turns sched k < n).
Proof. exact case_applies. Qed.

(** Two directories, with the header in a file of its own. *)
Example C47_two_case :
  let '(o1, a1) := pack_execute toy toy_zip pick pack_two (disk2, []) in
  let '(o2, a2) := unpack_execute toy toy_zip pick (ArchiveCases.turns 4) unpack_two a1 in
  (o1, o2, List.length (s_data (fst a1) 3), map (fun l => at_place (fst a2) (["home"; "to"]%string ++ l))
    [["d"]; ["d"; "a"]; ["f"]; ["f"; "a"]]%string)
  = (Ok tt, Ok tt, 416, [Some SDir; Some (SFile 12 (B "secret")); Some SDir; Some (SFile 13 (B "more"))]).
Proof. vm_compute. reflexivity. Qed.
