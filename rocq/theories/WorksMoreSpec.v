(** Vocabulary for erase and pack succeeding because nothing is in the way. *)
From Coq Require Import List Arith NArith String.
From Verif Require Import Bytes Outcome Primitives Crypto Stream FS FSSpec Archive ArchiveSpec Cli CliSpec RestoreManySpec.
Import ListNotations.
Local Open Scope list_scope.

(** An archive that contains nothing but what is in these directories, under the names
    by which it is reached from the paths given. *)
Definition archive_of (s : sys) (dirs : list (path * cpath)) (zs : list zent) : Prop :=
  NoDup (map ze_name zs)
  /\ Forall (fun e => exists d rel, In d dirs
       /\ let name := render (mkPath (p_abs (fst d)) (p_comps (fst d) ++ map Nm rel)) in
          match at_place s (snd d ++ rel) with
          | Some (SFile _ l) => ze_name e = name /\ ze_data e = l
          | Some SDir => ze_name e = String.append name "/" /\ ze_data e = []
          | _ => False
          end) zs.

(** As many bytes as can be encrypted. *)
Definition encryptable (E : env) (l : bytes) : Prop :=
  (N.of_nat (List.length l / BLOCK_SIZE) <= counter_max E)%N.

(** The user agrees to erasing a directory: by the option, or by an answer. *)
Definition erase_agreed (g : string -> list string) (c : cli) : Prop :=
  g "force"%string <> []
  \/ exists ls n r, lines (c_stdin c) ls /\ dialogue false ls (Some true) n r.
