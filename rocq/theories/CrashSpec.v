(** Runs that are cut off: what the log of changes says, and which states a killed
    program or a loss of power can leave behind. *)
From Coq Require Import List Arith NArith String Bool.
From Verif Require Import Bytes Outcome IO Primitives FS Archive Cli.
From Verif Require Import FSSpec CliSpec.
Import ListNotations.
Local Open Scope nat_scope.
Local Open Scope list_scope.

(** One change, made on any state. *)
Definition names_after (e : fsev) (t : nodes) : nodes :=
  match e with
  | FCreate p i => t ++ [(p, NFile i)]
  | FMkdir p => t ++ [(p, NDir)]
  | FUnlink p => remove_node t p
  | FRmTree p => filter (fun x => negb (below p (fst x))) t
  | FTrunc _ | FWrite _ _ _ => t
  end.
Definition content_after (e : fsev) (f : nat -> bytes) (j : nat) : bytes :=
  match e with
  | FCreate _ i | FTrunc i => if j =? i then [] else f j
  | FWrite i off l => if j =? i then write_at (f j) off l else f j
  | FMkdir _ | FUnlink _ | FRmTree _ => f j
  end.
Definition redo1 (s : sys) (e : fsev) : sys :=
  mkSys (names_after e (s_nodes s)) (content_after e (s_data s))
        (match e with FCreate _ i => Nat.max (s_next s) (S i) | _ => s_next s end)
        (s_cwd s) (s_tmp s) (s_faults s) (s_plans s) (s_rng s) (s_log s ++ [e]).
(** Changes, made one after the other. *)
Definition redo (es : list fsev) (s : sys) : sys := fold_left redo1 es s.

(** The same files under the same names, and the same changes so far. *)
Definition same_files (s s' : sys) : Prop :=
  s_nodes s' = s_nodes s /\ (forall j, s_data s' j = s_data s j) /\ s_next s' = s_next s
  /\ s_cwd s' = s_cwd s /\ s_tmp s' = s_tmp s /\ s_log s' = s_log s.

(** The log tells all that was done from [s] to [s']. *)
Definition told (s s' : sys) : Prop := exists es, same_files (redo es s) s'.

(** Cli.v leaves open what happens to files open under two handles; here its log is
    taken to tell that as well. *)
Definition alias_told (V : cenv) : Prop :=
  forall ws a, told (fst a) (fst (snd (alias V ws a))).

(** Archive.v logs the writes of one call of the library one file after the other,
    whereas the program makes them in turns: writes to different files may have been
    made in another order. *)
Inductive shuffled : list fsev -> list fsev -> Prop :=
| sh_same : forall es, shuffled es es
| sh_swap : forall a i p l j q m b es, i <> j ->
    shuffled (a ++ FWrite j q m :: FWrite i p l :: b) es ->
    shuffled (a ++ FWrite i p l :: FWrite j q m :: b) es.

(** The first changes, the last one possibly a write of which only a part was made. *)
Inductive cut : list fsev -> list fsev -> Prop :=
| cut_after : forall a b, cut (a ++ b) a
| cut_within : forall a i p l b n, cut (a ++ FWrite i p l :: b) (a ++ [FWrite i p (firstn n l)]).

(** A run from [s] to [s'], killed on the way, leaves [k]. *)
Definition killed (s s' k : sys) : Prop :=
  exists es es1 es2, added s s' es /\ shuffled es es1 /\ cut es1 es2 /\ k = redo es2 s.

(** The code never asks for the content of a file to be put on the disk (no [sync_all]
    or [sync_data] in /repo): when power fails, any writes may be missing, though all
    later changes are there. *)
Inductive unsynced : list fsev -> list fsev -> Prop :=
| us_nil : unsynced [] []
| us_kept : forall e es es', unsynced es es' -> unsynced (e :: es) (e :: es')
| us_lost : forall i p l es es', unsynced es es' -> unsynced (FWrite i p l :: es) es'.
Definition power_lost (s s' k : sys) : Prop :=
  exists es es1, added s s' es /\ unsynced es es1 /\ k = redo es1 s.

(** The file [i] is still there, called [p], with its content. *)
Definition still_there (s k : sys) (p : path) (i : nat) : Prop :=
  stat k p = Some (NFile i) /\ s_data k i = s_data s i.
(** What the path [t] denoted in [s], or would have denoted, is a file in [k], just as
    it is in [s']. *)
Definition as_finished (s s' k : sys) (t : path) : Prop :=
  exists q j l, resolve true s t = Some q /\ at_place k q = Some (SFile j l)
    /\ at_place s' q = Some (SFile j l).
