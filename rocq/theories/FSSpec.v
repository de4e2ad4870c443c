(** Vocabulary for the properties of the operations on the file system. *)
From Coq Require Import List Arith Bool String.
From Verif Require Import Bytes IO FS.
Import ListNotations.
Local Open Scope list_scope.

(** A tree in which every name but the root lies in a directory and occurs once. *)
Definition tree_ok (s : sys) : Prop :=
  NoDup (map fst (s_nodes s))
  /\ ~ In [] (map fst (s_nodes s))
  /\ forall r n, In (r ++ [n]) (map fst (s_nodes s)) -> lookup (s_nodes s) r = Some NDir.

(** No call fails and no transfer is cut short. *)
Definition no_faults (s : sys) : Prop := s_faults s = [] /\ s_plans s = [].

(** What is stored at a place. *)
Inductive stored := SDir | SFile (i : nat) (l : bytes) | SLink (target : path).
Definition at_place (s : sys) (r : cpath) : option stored :=
  match lookup (s_nodes s) r with
  | None => None
  | Some NDir => Some SDir
  | Some (NFile i) => Some (SFile i (s_data s i))
  | Some (NLink t) => Some (SLink t)
  end.

(** The places below a directory (the directory included). *)
Definition inside (q r : cpath) : Prop := exists rel, r = q ++ rel.

Definition no_links_inside (s : sys) (q : cpath) : Prop :=
  forall r t, inside q r -> lookup (s_nodes s) r <> Some (NLink t).

(** No file inside has a name outside. *)
Definition no_outside_names (s : sys) (q : cpath) : Prop :=
  forall r r' i, inside q r -> ~ inside q r' ->
    lookup (s_nodes s) r = Some (NFile i) -> lookup (s_nodes s) r' <> Some (NFile i).

(** No other name for the file. *)
Definition only_name (s : sys) (r : cpath) : Prop :=
  forall i r', lookup (s_nodes s) r = Some (NFile i) ->
    lookup (s_nodes s) r' = Some (NFile i) -> r' = r.

(** The events an execution added. *)
Definition added (s s' : sys) (es : list fsev) : Prop := s_log s' = s_log s ++ es.

(** Some event writes the byte at [off] of file [i]. *)
Definition overwritten (es : list fsev) (i off : nat) : Prop :=
  exists o l, In (FWrite i o l) es /\ o <= off < o + List.length l.

(** Every byte of the first [n] of file [i] is written before the first event
    that drops content or a name. *)
Definition overwritten_before_loss (es : list fsev) (i n : nat) : Prop :=
  forall a e b, es = a ++ e :: b ->
    (e = FTrunc i \/ exists r, e = FUnlink r) ->
    forall off, off < n -> overwritten a i off.

(** How often thread [k] is scheduled. *)
Fixpoint turns (sched : list nat) (k : nat) : nat :=
  match sched with
  | [] => 0
  | x :: l => (if x =? k then 1 else 0) + turns l k
  end.

