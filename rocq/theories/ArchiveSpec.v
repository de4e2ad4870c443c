(** Vocabulary for the properties of packing and unpacking. *)
From Coq Require Import List Arith Ascii String Bool.
From Verif Require Import Bytes Outcome IO Primitives IOSpec FS Archive FSSpec.
Import ListNotations.
Local Open Scope list_scope.

(** Files in the tree are older than files yet to be made. *)
Definition inodes_ok (s : sys) : Prop :=
  forall r i, lookup (s_nodes s) r = Some (NFile i) -> i < s_next s.

(** Where components lead when no link is met. *)
Fixpoint lexical (q : cpath) (cs : list comp) : cpath :=
  match cs with
  | [] => q
  | Cur :: r => lexical q r
  | Up :: r => lexical (removelast q) r
  | Nm n :: r => lexical (q ++ [n]) r
  end.

(** The path [o], given by an existing directory [q0] and names below it some of
    which may have to be made, with no links among the names nor inside. *)
Record output_at (s : sys) (o : path) (q0 : cpath) (names : list string) : Prop := {
  oa_base : exists c0, p_comps o = c0 ++ map Nm names
              /\ resolve true s (mkPath (p_abs o) c0) = Some q0;
  oa_dir : lookup (s_nodes s) q0 = Some NDir;
  oa_way : forall a b t, names = a ++ b -> a <> [] -> lookup (s_nodes s) (q0 ++ a) <> Some (NLink t);
  oa_inside : no_links_inside s (q0 ++ names)
}.

(** The temporary archive of a run starting in [s]. *)
Definition temp_path (pick : rng -> string * rng) (s : sys) : path :=
  mkPath (p_abs (s_tmp s)) (p_comps (s_tmp s) ++ [Nm (fst (pick (s_rng s)))]).

(** A path below [o] that the callback was asked about and accepted, by its
    components below [o]. *)
Definition accepted_below (paths : list path) (answers : list bool) (o : path)
  (cs : list comp) : Prop :=
  exists j, nth_error paths j = Some (mkPath (p_abs o) (p_comps o ++ cs))
    /\ nth_error answers j = Some true.

(** The places of accepted paths (inside the output directory [q]), and those on
    the way to them. *)
Definition accepted_place (paths : list path) (answers : list bool) (o : path) (q : cpath)
  (r : cpath) : Prop :=
  exists cs, accepted_below paths answers o cs /\ r = lexical q cs /\ inside q r.
Definition towards_accepted (paths : list path) (answers : list bool) (o : path) (q : cpath)
  (r : cpath) : Prop :=
  exists cs k, accepted_below paths answers o cs /\ r = lexical q (firstn k cs) /\ inside q r.

(** The places between [q0] and the output directory, which included. *)
Definition on_the_way (q0 : cpath) (names : list string) (r : cpath) : Prop :=
  exists a b, names = a ++ b /\ a <> [] /\ r = q0 ++ a.

(** What unpacking may do, given the temporary file's place [temp], what was asked
    and what was answered: files are made or opened for writing only at accepted
    places, directories are made only there, on the way there, or to make the
    output directory. *)
Definition allowed_event (s : sys) (temp : path) (o : path) (q0 : cpath) (names : list string)
  (paths : list path) (answers : list bool) (e : fsev) : Prop :=
  let file i := s_next s <= i \/ exists r, accepted_place paths answers o (q0 ++ names) r
                                      /\ lookup (s_nodes s) r = Some (NFile i) in
  match e with
  | FCreate r i => s_next s <= i /\
      (resolve false s temp = Some r \/ accepted_place paths answers o (q0 ++ names) r)
  | FMkdir r => on_the_way q0 names r \/ towards_accepted paths answers o (q0 ++ names) r
  | FTrunc i | FWrite i _ _ => file i
  | FUnlink r => resolve false s temp = Some r
  | FRmTree _ => False
  end.

(** Inside the output directory [q], apart from the temporary file and from
    directories made to have an output directory. *)
Definition confined_event (s : sys) (temp : path) (q0 : cpath) (names : list string)
  (e : fsev) : Prop :=
  let q := q0 ++ names in
  let file i := s_next s <= i \/ exists r, inside q r /\ lookup (s_nodes s) r = Some (NFile i) in
  match e with
  | FCreate r i => s_next s <= i /\ (resolve false s temp = Some r \/ inside q r)
  | FMkdir r => on_the_way q0 names r \/ inside q r
  | FTrunc i | FWrite i _ _ => file i
  | FUnlink r => resolve false s temp = Some r
  | FRmTree _ => False
  end.

(** Nothing was done to what is, or would be, at [r]. *)
Definition untouched (s : sys) (r : cpath) (e : fsev) : Prop :=
  match e with
  | FCreate p _ | FMkdir p | FUnlink p => p <> r
  | FTrunc i | FWrite i _ _ => lookup (s_nodes s) r <> Some (NFile i)
  | FRmTree _ => False
  end.

(** No accepted path leads to [r] or through it. *)
Definition avoided (paths : list path) (answers : list bool) (o : path) (q r : cpath) : Prop :=
  forall cs k, accepted_below paths answers o cs -> lexical q (firstn k cs) <> r.

(** The places whose content may differ afterwards: those, and further names of
    files there. *)
Definition allowed_change (s s' : sys) (temp : path) (o : path) (q0 : cpath)
  (names : list string) (paths : list path) (answers : list bool) (r : cpath) : Prop :=
  (resolve false s temp = Some r /\ at_place s r = None)
  \/ (on_the_way q0 names r /\ at_place s r = None /\ at_place s' r = Some SDir)
  \/ (towards_accepted paths answers o (q0 ++ names) r
      /\ at_place s r = None /\ at_place s' r = Some SDir)
  \/ accepted_place paths answers o (q0 ++ names) r
  \/ exists i r', accepted_place paths answers o (q0 ++ names) r'
        /\ lookup (s_nodes s) r = Some (NFile i) /\ lookup (s_nodes s) r' = Some (NFile i).

(** The temporary file (made first) is gone from its place and empty, and the last
    things done were to write zeros over every byte that had been written to it, to
    cut it, and to unlink it. *)
Definition temp_wiped (s s' : sys) (temp : path) : Prop :=
  exists T n before cs,
    resolve false s temp = Some T
    /\ at_place s' T = None
    /\ s_data s' (s_next s) = []
    /\ added s s' (FCreate T (s_next s) :: before
                   ++ map (fun w => FWrite (s_next s) (fst w) (snd w)) (chunk_log 0 cs)
                   ++ [FTrunc (s_next s); FUnlink T])
    /\ (forall off l, In (FWrite (s_next s) off l) before -> off + List.length l <= n)
    /\ List.concat cs = zeros n.

(** Zip archives with distinct names read back as written. *)
Definition zip_ok (Z : zip_env) : Prop := forall m es,
  NoDup (map ze_name es) ->
  z_decode Z (z_encode Z m es)
  = Some (map (fun e => mkZread (ze_name e) true (ze_data e) true) es).
