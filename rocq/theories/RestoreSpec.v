(** Vocabulary for packing a directory and unpacking it elsewhere. *)
From Coq Require Import List Arith Ascii String Bool.
From Verif Require Import Bytes Outcome IO Primitives FS Archive FSSpec ArchiveSpec.
Import ListNotations.
Local Open Scope list_scope.

(** A name that survives being stored in an archive.  (A backslash at the end
    makes the archive entry a directory.) *)
Definition good_name (n : string) : Prop :=
  n <> ""%string /\ n <> "."%string /\ n <> ".."%string
  /\ ~ In "/"%char (list_ascii_of_string n)
  /\ ~ In zero (list_ascii_of_string n)
  /\ forall l, list_ascii_of_string n <> l ++ ["\"%char].

Definition good_comp (c : comp) : Prop :=
  match c with Cur => True | Up => False | Nm n => good_name n end.

(** A relative path without [..] whose last component is a name. *)
Definition packable (p : path) : Prop :=
  p_abs p = false /\ Forall good_comp (p_comps p) /\ exists a n, p_comps p = a ++ [Nm n].

(** The names in a path. *)
Fixpoint names_of (cs : list comp) : list string :=
  match cs with
  | [] => []
  | Nm n :: r => n :: names_of r
  | _ :: r => names_of r
  end.

(** The same kind of thing with the same content. *)
Definition same_thing (a b : option stored) : Prop :=
  match a, b with
  | None, None => True
  | Some SDir, Some SDir => True
  | Some (SFile _ l), Some (SFile _ l') => l = l'
  | Some (SLink t), Some (SLink t') => t = t'
  | _, _ => False
  end.

(** The tree at [q'] is a copy of the tree at [q]. *)
Definition copied (s : sys) (q : cpath) (s' : sys) (q' : cpath) : Prop :=
  forall rel, same_thing (at_place s (q ++ rel)) (at_place s' (q' ++ rel)).

(** A callback that agrees to everything. *)
Definition agrees (req : unpack_request) : Prop :=
  forall ps, ur_ask req ps = Some (map (fun _ => true) ps).

(** Room for a tree called [root] below the path [o]: [o] is given by an existing
    directory [q0] and names below it; on the way to the tree's place there are
    only directories, or nothing yet; its place is free; and the temporary file
    can be made, at [T], elsewhere. *)
Record room_for (s : sys) (o : path) (q0 : cpath) (names root : list string) (temp : path) : Prop := {
  rf_given : p_abs o = true \/ p_comps o <> [];
  rf_base : exists c0, p_comps o = c0 ++ map Nm names
              /\ resolve true s (mkPath (p_abs o) c0) = Some q0;
  rf_dir : lookup (s_nodes s) q0 = Some NDir;
  rf_way : forall a b, names ++ root = a ++ b -> b <> [] ->
    lookup (s_nodes s) (q0 ++ a) = None \/ lookup (s_nodes s) (q0 ++ a) = Some NDir;
  rf_free : lookup (s_nodes s) (q0 ++ names ++ root) = None;
  rf_temp : exists T, resolve false s temp = Some T /\ lookup (s_nodes s) T = None
    /\ ~ on_the_way q0 (names ++ root) T /\ ~ inside (q0 ++ names ++ root) T
}.
