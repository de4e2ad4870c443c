(** Vocabulary for packing several directories and unpacking them elsewhere. *)
From Coq Require Import List Arith Ascii String Bool.
From Verif Require Import Bytes Outcome IO Primitives FS Archive FSSpec ArchiveSpec RestoreSpec.
Import ListNotations.
Local Open Scope list_scope.

(** A directory given by the path [fst d], at the place [snd d], that can be packed and
    unpacked without loss: no links inside, and all names survive. *)
Record packable_dir (s : sys) (d : path * cpath) : Prop := {
  pd_path : packable (fst d);
  pd_place : resolve true s (fst d) = Some (snd d);
  pd_dir : lookup (s_nodes s) (snd d) = Some NDir;
  pd_links : no_links_inside s (snd d);
  pd_names : forall rel, at_place s (snd d ++ rel) <> None -> Forall good_name rel
}.

(** The names by which a directory was given. *)
Definition given_names (d : path * cpath) : list string := names_of (p_comps (fst d)).

(** None of these lies at or below another. *)
Fixpoint apart (l : list (list string)) : Prop :=
  match l with
  | [] => True
  | a :: r => Forall (fun b => ~ inside a b /\ ~ inside b a) r /\ apart r
  end.

(** What listing the directories gives, one after the other. *)
Definition listed (s : sys) (dirs : list (path * cpath)) (files : list entry) : Prop :=
  exists lists, Forall2 (fun d l => read_dir (EDir (fst d)) s = (Ok l, s)) dirs lists
  /\ files = List.concat lists.

(** The header is within the output of packing; or it was written to an empty file of
    its own, which is there when unpacking, and the output does not start with 416
    zero bytes. *)
Definition header_too (preq : pack_request) (s s1 : sys) (ureq : unpack_request) (s2 : sys) : Prop :=
  match pr_hdr preq, ur_hdr ureq with
  | None, None => True
  | Some hp, Some hu =>
      h_ino hp < s_next s /\ h_ino hp <> h_ino (pr_out preq) /\ h_plan hp = [] /\ s_data s (h_ino hp) = []
      /\ h_ino hu < s_next s2 /\ h_plan hu = [] /\ h_pos hu = 0
      /\ s_data s2 (h_ino hu) = s_data s1 (h_ino hp)
      /\ (let start := firstn 416 (s_data s1 (h_ino (pr_out preq))) in
          start <> repeat x00 (List.length start))
  | _, _ => False
  end.
