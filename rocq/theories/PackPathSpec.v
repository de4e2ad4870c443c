(** Vocabulary for packing directories and unpacking the archive, both by path. *)
From Coq Require Import List String.
From Verif Require Import Bytes Outcome Primitives Crypto KeyModel FS FSSpec Archive ArchiveSpec RestoreSpec RestoreManySpec.
From Verif Require Import Cli CliSpec CliTools.
Import ListNotations.
Local Open Scope list_scope.

(** The same environment with another schedule for the threads. *)
Definition with_sched (sched : list nat) (V : cenv) : cenv :=
  mkCenv (ce_E V) (ce_Z V) (ce_blake3 V) (ce_debug V) (ce_key V) (ce_words V) (ce_draw V) (ce_pick V)
    sched (ce_alias V).

(** The header is not in a file of its own; or it is, and the file contains this. *)
Definition header_file (s : sys) (header : option string) (hdr : option bytes) : Prop :=
  match header, hdr with
  | None, None => True
  | Some h, Some l => exists j, stat s (os_path h) = Some (NFile j) /\ s_data s j = l
  | _, _ => False
  end.

(** With the key [raw], unpacking a file with this content (and the header, if it is in
    a file of its own) gives copies of the directories [dirs] of [s]: on any machine
    without failures that has the key and the room, under any schedule that gives the
    threads enough turns. *)
Definition unpacks_to (E : env) (Z : zip_env) (raw archive : bytes) (hdr : option bytes) (s : sys)
  (dirs : list (path * cpath)) : Prop :=
  forall V input output verbose p c i q0 names t,
  ce_E V = E -> ce_Z V = Z ->
  tree_ok (disk c) -> no_faults (disk c) -> inodes_ok (disk c) ->
  stat (disk c) (os_path input) = Some (NFile i) -> s_data (disk c) i = archive ->
  header_file (disk c) (cp_header p) hdr -> cp_hash p = false -> yields V c (cp_key p) Direct raw t ->
  Forall (fun d => room_for (disk c) (parse_path output) q0 names (given_names d)
                     (temp_path (ce_pick V) (disk c))) dirs ->
  exists n, forall sched o c',
  unpack_cli (with_sched sched V) input output verbose p c = (o, c') ->
  (o = Ok tt /\ Forall (fun d => copied s (snd d) (disk c') (q0 ++ names ++ given_names d)) dirs)
  \/ (o = Diverge /\ exists k, k <= n /\ turns sched k < n).

(** The path [p] leads out of the directory [q], and denotes no file that also has a
    name in there. *)
Definition elsewhere (s : sys) (q : cpath) (p : path) : Prop :=
  (forall r, resolve false s p = Some r -> ~ inside q r)
  /\ (forall i r, stat s p = Some (NFile i) -> inside q r -> lookup (s_nodes s) r <> Some (NFile i)).

(** The directories that pack is asked to pack, with their places, are such that they can
    be packed and unpacked without loss; the output and the header are two different
    files, and neither is in the directories. *)
Record to_pack (g : string -> list string) (s : sys) (output : string) (dirs : list (path * cpath)) : Prop := {
  tp_input : map os_path (g "input"%string) = map fst dirs;
  tp_some : dirs <> [];
  tp_dirs : Forall (packable_dir s) dirs;
  tp_apart : apart (map given_names dirs);
  tp_output : Forall (fun d => elsewhere s (snd d) (os_path output)) dirs;
  tp_header : forall h, given g "header" h ->
    different s (os_path output) (os_path h) /\ Forall (fun d => elsewhere s (snd d) (os_path h)) dirs
}.

(** What packing the directories leaves: the output file, and the header file if one is
    named, from which the key taken gives the directories back.  With a header file this
    does not hold if the output starts with 416 zero bytes. *)
Definition kept_packed (V : cenv) (g : string -> list string) (c : cli) (output : string) (s' : sys)
  (dirs : list (path * cpath)) : Prop :=
  exists raw qo i archive, key_taken V CmdPack g Validate c output raw
    /\ resolve true (disk c) (os_path output) = Some qo
    /\ at_place s' qo = Some (SFile i archive)
    /\ match g "header"%string with
       | [] => unpacks_to (ce_E V) (ce_Z V) raw archive None (disk c) dirs
       | h :: _ => exists qh j hdr, resolve true (disk c) (os_path h) = Some qh
           /\ at_place s' qh = Some (SFile j hdr)
           /\ (firstn 416 archive <> repeat x00 (List.length (firstn 416 archive)) ->
               unpacks_to (ce_E V) (ce_Z V) raw archive (Some hdr) (disk c) dirs)
       end.

(** Nothing in the directory [q] has changed. *)
Definition unchanged_inside (s : sys) (q : cpath) (s' : sys) : Prop :=
  forall r, inside q r -> at_place s r <> None -> at_place s' r = at_place s r.
