(** Names that are text. *)
From Coq Require Import List String.
From Verif Require Import Bytes FS Archive CliSpec.
Import ListNotations.
Local Open Scope list_scope.

(** The bytes of a name are those of characters. *)
Definition is_name (n : string) : Prop := is_text (list_byte_of_string n).
Definition named (p : path) : Prop :=
  forall n, In (Nm n) (p_comps p) -> is_name n.

(** All names of the file system are: of files, directories and links, on the way to
    the working directory, and in what the links point to. *)
Record all_names (s : sys) : Prop := {
  an_nodes : forall q n, In (q, n) (s_nodes s) -> Forall is_name q;
  an_links : forall q t, In (q, NLink t) (s_nodes s) -> named t;
  an_cwd : Forall is_name (s_cwd s)
}.

(** Everything given on the command line is text (clap refuses anything else). *)
Definition given_names (given : string -> list string) : Prop :=
  forall id v, In v (given id) -> is_name v.

(** All names below a directory are text. *)
Definition names_below (s : sys) (q : cpath) : Prop :=
  forall r n, In (q ++ r, n) (s_nodes s) -> Forall is_name r.

(** An opened entry as the archive holds it; the files are read from their start. *)
Definition item (s : sys) (e : entry) : zent :=
  match e with
  | EDir p => mkZent (dir_name (render p)) []
  | EFile h => mkZent (render (h_path h)) (s_data s (h_ino h))
  end.
Definition just_opened (e : entry) : Prop :=
  match e with EDir _ => True | EFile h => h_pos h = 0 /\ h_plan h = [] end.
