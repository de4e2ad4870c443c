(** Properties C46, C48, C49 and C59: packing and unpacking
    (crates/volaris-tools/src/{pack,unpack}.rs).  Vocabulary: FSSpec.v and
    ArchiveSpec.v; the concrete file systems are in ArchiveCases.v.  The theorems
    hold for every block size [bs]; the program's is [BLOCK_SIZE]. *)
From Coq Require Import List Arith NArith ZArith Ascii String Bool.
From Verif Require Import Bytes Outcome IO Primitives Crypto Header Stream KeyModel EncDec Overwrite FS Archive.
From Verif Require Import ToyEnv IOSpec FSSpec FSFacts EraseCases ArchiveSpec UnpackProofs PackProofs ArchiveCases ArchiveResults.
Import ListNotations.
Local Open Scope nat_scope.
Local Open Scope list_scope.

(** C46 is false when the output directory contains a symbolic link: names below
    the link lead to where it points. *)
Theorem C46_confined_refuted : exists s req sched s',
  tree_ok s /\ no_faults s /\ inodes_ok s
  /\ lookup (s_nodes s) ["home"; "out"]%string = Some NDir /\ resolve true s (ur_out req) = Some ["home"; "out"]%string
  /\ unpack_execute toy toy_zip pick sched req (s, []) = (Ok tt, s')
  /\ at_place s ["home"; "private"; "x"]%string = Some (SFile 1 (B "precious"))
  /\ at_place (fst s') ["home"; "private"; "x"]%string = Some (SFile 1 (B "attack"))
  /\ at_place s ["home"; "private"; "y"]%string = None
  /\ exists i, at_place (fst s') ["home"; "private"; "y"]%string = Some (SFile i (B "new")).
Proof. exact link_escapes. Qed.
Print Assumptions C46_confined_refuted.

(** What does hold, for every archive, callback and schedule of the threads, and
    whatever fails, when there is no link inside the output directory nor on the way
    to it from an existing directory: everything made, opened for writing or removed
    is inside the output directory, except for the temporary file and for the
    directories above the output directory that had to be made.  If moreover no file
    inside has a name outside, what is found outside is as before. *)
Theorem C46_confined_partial : forall E Z pick bs sched req s q0 names tr r a' es,
  tree_ok s -> lookup (s_nodes s) (s_cwd s) = Some NDir -> inodes_ok s ->
  output_at s (ur_out req) q0 names ->
  unpack_execute_bs E Z pick bs sched req (s, tr) = (r, a') ->
  added s (fst a') es ->
  Forall (confined_event s (temp_path pick s) q0 names) es
  /\ (no_outside_names s (q0 ++ names) ->
      forall x, at_place (fst a') x <> at_place s x ->
        inside (q0 ++ names) x
        \/ (resolve false s (temp_path pick s) = Some x /\ at_place s x = None)
        \/ (on_the_way q0 names x /\ at_place s x = None /\ at_place (fst a') x = Some SDir)).
Proof. exact unpack_confined. Qed.
Print Assumptions C46_confined_partial.

(** Three names that would lead out, four that do not. *)
Example C46_case :
  let '(o, (s', _)) := unpack_execute toy toy_zip pick (turns 2) (unpack_req out yes) (hostile, []) in
  (o, map (fun l => at_place s' l)
    [["home"; "private"]; ["home"; "out"; "private"]; ["home"; "out"; "a"]; ["home"; "out"; "d"];
     ["home"; "out"; "d"; "b"]; ["home"; "out"; "c"]; ["tmp"; "tmpname"]]%string)
  = (Ok tt, [Some (SFile 1 (B "precious")); None; Some (SFile 2 (B "new a")); Some SDir;
             Some (SFile 11 (B "in d")); Some (SFile 12 (B "beside d")); None]).
Proof. vm_compute. reflexivity. Qed.

(** C48 is false on errors: packing the same file twice, and unpacking a file where
    there is a directory, return with the archive in the temporary directory, in
    clear. *)
Theorem C48_pack_temp_refuted : exists s req s' i l,
  tree_ok s /\ no_faults s /\ inodes_ok s
  /\ pack_execute toy toy_zip pick req (s, []) = (Err PkAddFileToArchive, s')
  /\ resolve false s (temp_path pick s) = Some ["tmp"; "tmpname"]%string
  /\ at_place s ["tmp"; "tmpname"]%string = None
  /\ at_place (fst s') ["tmp"; "tmpname"]%string = Some (SFile i l)
  /\ z_decode toy_zip l = Some [mkZread "d/"%string true [] true; mkZread "d/a"%string true (B "secret") true].
Proof. exact pack_leaves_temp. Qed.
Print Assumptions C48_pack_temp_refuted.

Theorem C48_unpack_temp_refuted : exists s req sched s' e i l,
  tree_ok s /\ no_faults s /\ inodes_ok s
  /\ unpack_execute toy toy_zip pick sched req (s, []) = (Err (UnStorage e), s')
  /\ resolve false s (temp_path pick s) = Some ["tmp"; "tmpname"]%string
  /\ at_place s ["tmp"; "tmpname"]%string = None
  /\ at_place (fst s') ["tmp"; "tmpname"]%string = Some (SFile i l)
  /\ z_decode toy_zip l = Some [mkZread "a"%string true (B "secret") true; mkZread "b"%string true (B "more") true].
Proof. exact unpack_leaves_temp. Qed.
Print Assumptions C48_unpack_temp_refuted.

(** What does hold when no call fails.  Packing: the temporary file is wiped if the
    result is success or an error of the encryption.  Every other error leaves it
    with all that had been collected, or happened before it was made. *)
Theorem C48_pack_temp_partial : forall E Z pick bs req s,
  0 < bs -> h_ino (pr_out req) < s_next s ->
  (forall x, pr_hdr req = Some x -> h_ino x < s_next s) -> forall tr r a',
  pack_execute_bs E Z pick bs req (s, tr) = (r, a') -> no_faults s ->
  r = Ok tt \/ (exists e, r = Err (PkEncrypt e)) ->
  temp_wiped s (fst a') (temp_path pick s).
Proof. exact pack_temp_gone. Qed.
Print Assumptions C48_pack_temp_partial.

Theorem C48_pack_temp_left : forall E Z pick bs req s,
  0 < bs -> h_ino (pr_out req) < s_next s ->
  (forall x, pr_hdr req = Some x -> h_ino x < s_next s) -> forall tr e a',
  pack_execute_bs E Z pick bs req (s, tr) = (Err e, a') -> no_faults s ->
  (forall h, In (EFile h) (pr_files req) -> h_ino h < s_next s) ->
  (forall x, e <> PkEncrypt x) ->
  (e = PkCreateArchive /\ same_disk s (fst a'))
  \/ exists T zs oz, resolve false s (temp_path pick s) = Some T
       /\ fst (pack_add bs (pr_files req) [] s) = (oz, zs)
       /\ at_place (fst a') T = Some (SFile (s_next s) (z_encode Z (pr_compression req) zs)).
Proof. exact pack_temp_left. Qed.
Print Assumptions C48_pack_temp_left.

(** Unpacking: it is wiped on success, provided it is not itself inside the output
    directory; otherwise it is left, or the error happened before it was made. *)
Theorem C48_unpack_temp_partial : forall E Z pick bs sched req s q0 names,
  tree_ok s -> lookup (s_nodes s) (s_cwd s) = Some NDir -> inodes_ok s ->
  output_at s (ur_out req) q0 names -> forall tr a',
  unpack_execute_bs E Z pick bs sched req (s, tr) = (Ok tt, a') -> no_faults s ->
  (forall x, ur_hdr req = Some x -> h_ino x < s_next s) ->
  (forall r, resolve false s (temp_path pick s) = Some r -> ~ inside (q0 ++ names) r) ->
  temp_wiped s (fst a') (temp_path pick s).
Proof. exact unpack_temp_gone. Qed.
Print Assumptions C48_unpack_temp_partial.

Theorem C48_unpack_temp_left : forall E Z pick bs sched req s q0 names,
  tree_ok s -> lookup (s_nodes s) (s_cwd s) = Some NDir ->
  output_at s (ur_out req) q0 names -> forall tr r a',
  unpack_execute_bs E Z pick bs sched req (s, tr) = (r, a') -> no_faults s -> r <> Ok tt ->
  (exists e, r = Err (UnStorage e) /\ same_disk s (fst a'))
  \/ exists T, resolve false s (temp_path pick s) = Some T
       /\ lookup (s_nodes s) T = None /\ lookup (s_nodes (fst a')) T = Some (NFile (s_next s)).
Proof. exact unpack_temp_left. Qed.
Print Assumptions C48_unpack_temp_left.

(** The last events of packing two files (the archive is 61 bytes long). *)
Example C48_case :
  let '(o, (s', _)) := pack_execute toy toy_zip pick (pack_req d_entries) (to_pack, []) in
  (o, at_place s' ["tmp"; "tmpname"]%string, hd_error (s_log s'), skipn (List.length (s_log s') - 3) (s_log s'))
  = (Ok tt, None, Some (FCreate ["tmp"; "tmpname"]%string 10),
     [FWrite 10 0 (zeros 61); FTrunc 10; FUnlink ["tmp"; "tmpname"]%string]).
Proof. vm_compute. reflexivity. Qed.

(** C49 is false: the same file can have several names in the archive, and the
    callback declining one of them does not protect it. *)
Theorem C49_declined_refuted : exists s req sched s' paths answers,
  tree_ok s /\ no_faults s /\ inodes_ok s /\ output_at s (ur_out req) ["home"; "out"]%string []
  /\ unpack_execute toy toy_zip pick sched req (s, []) = (Ok tt, s')
  /\ ur_ask req paths = Some answers
  /\ In (rel ["out"; "a"]%string, false) (combine paths answers)
  /\ ~ In (rel ["out"; "a"]%string, true) (combine paths answers)
  /\ at_place s ["home"; "out"; "a"]%string = Some (SFile 1 (B "precious"))
  /\ at_place (fst s') ["home"; "out"; "a"]%string = Some (SFile 1 (B "by another name")).
Proof. exact declined_written. Qed.
Print Assumptions C49_declined_refuted.

(** What does hold, whatever fails: a place that no accepted path leads to or through
    is neither created, truncated nor written, and is found as it was.  (Unless it is
    the temporary file or on the way to the output directory, or is a file with a
    second name.) *)
Theorem C49_declined_partial : forall E Z pick bs sched req s q0 names tr r a' es,
  tree_ok s -> lookup (s_nodes s) (s_cwd s) = Some NDir -> inodes_ok s ->
  output_at s (ur_out req) q0 names ->
  unpack_execute_bs E Z pick bs sched req (s, tr) = (r, a') ->
  added s (fst a') es ->
  exists paths answers,
    (answers = [] \/ ur_ask req paths = Some answers)
    /\ forall x, avoided paths answers (ur_out req) (q0 ++ names) x ->
         ~ on_the_way q0 names x -> resolve false s (temp_path pick s) <> Some x -> only_name s x ->
         Forall (untouched s x) es /\ at_place (fst a') x = at_place s x.
Proof. exact unpack_spares. Qed.
Print Assumptions C49_declined_partial.

(** In full: all that happens is due to accepted paths. *)
Theorem C49_accepted_only : forall E Z pick bs sched req s q0 names tr r a',
  tree_ok s -> lookup (s_nodes s) (s_cwd s) = Some NDir -> inodes_ok s ->
  output_at s (ur_out req) q0 names ->
  unpack_execute_bs E Z pick bs sched req (s, tr) = (r, a') ->
  exists paths answers es,
    (answers = [] \/ ur_ask req paths = Some answers)
    /\ added s (fst a') es
    /\ Forall (allowed_event s (temp_path pick s) (ur_out req) q0 names paths answers) es
    /\ forall x, at_place (fst a') x <> at_place s x ->
         allowed_change s (fst a') (temp_path pick s) (ur_out req) q0 names paths answers x.
Proof. exact unpack_does. Qed.
Print Assumptions C49_accepted_only.

(** The file "a" is declined, and has one name in the archive. *)
Example C49_case :
  let '(o, (s', _)) := unpack_execute toy toy_zip pick (turns 2) (unpack_req out not_a) (hostile, []) in
  (o, at_place s' ["home"; "out"; "a"]%string, at_place s' ["home"; "out"; "d"; "b"]%string,
   existsb (fun e => match e with FWrite 2 _ _ | FTrunc 2 => true | _ => false end) (s_log s'))
  = (Ok tt, Some (SFile 2 (B "old a")), Some (SFile 11 (B "in d")), false).
Proof. vm_compute. reflexivity. Qed.

(** C59: packing, whatever fails, changes nothing but the files it was given to
    write to, and leaves at most the temporary file behind. *)
Theorem C59_pack_changes_nothing_else : forall E Z pick bs req s,
  0 < bs -> h_ino (pr_out req) < s_next s ->
  (forall x, pr_hdr req = Some x -> h_ino x < s_next s) -> forall tr r a',
  pack_execute_bs E Z pick bs req (s, tr) = (r, a') -> inodes_ok s ->
  forall p, at_place (fst a') p <> at_place s p ->
    (resolve false s (temp_path pick s) = Some p /\ at_place s p = None)
    \/ exists i, lookup (s_nodes s) p = Some (NFile i)
         /\ (i = h_ino (pr_out req) \/ exists x, pr_hdr req = Some x /\ i = h_ino x).
Proof. exact pack_changes. Qed.
Print Assumptions C59_pack_changes_nothing_else.

Example C59_case :
  let '(o, (s', _)) := pack_execute toy toy_zip pick (pack_req d_entries) (to_pack, []) in
  (o, map (at_place s') [["home"; "d"; "a"]; ["home"; "d"; "e"; "b"]; ["home"; "d"; "e"]; ["tmp"; "tmpname"]]%string,
   match at_place s' ["home"; "out"]%string with Some (SFile 2 l) => List.length l | _ => 0 end)
  = (Ok tt, [Some (SFile 0 (B "secret")); Some (SFile 1 (B "more")); Some SDir; None], 493).
Proof. vm_compute. reflexivity. Qed.
