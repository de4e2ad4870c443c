(** Counting files. *)
From Coq Require Import List String.
From Verif Require Import Bytes FS FSSpec Cli.
Import ListNotations.
Local Open Scope list_scope.

(** Different files below a directory. *)
Definition files_in (s : sys) (q : cpath) (rs : list cpath) : Prop :=
  NoDup rs /\ forall r, In r rs -> exists i l, at_place s (q ++ r) = Some (SFile i l).

(** The directories that the arguments denote, each with different files in it. *)
Definition dirs_with_files (s : sys) (inputs : list string) (ds : list (cpath * list cpath)) : Prop :=
  Forall2 (fun f d => resolve true s (os_path f) = Some (fst d) /\ lookup (s_nodes s) (fst d) = Some NDir
                      /\ files_in s (fst d) (snd d)) inputs ds.
Definition all_files (ds : list (cpath * list cpath)) : nat := List.length (List.concat (map snd ds)).
