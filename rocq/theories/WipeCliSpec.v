(** What C93 asks. *)
From Coq Require Import List.
From Verif Require Import Bytes Outcome IO Primitives FS Wipe WipeSpec.
Import ListNotations.

(** One live buffer, which holds the secret, is handed on; everything else is
    released. *)
Definition handed_on (k : memory) (i : nat) (secret : bytes) : Prop :=
  nth_error k i = Some (mkCell Key secret true)
  /\ forall j c, nth_error k j = Some c -> j <> i -> c_live c = false.
(** And wiped. *)
Definition handed_on_alone (k : memory) (i : nat) (secret : bytes) : Prop :=
  nth_error k i = Some (mkCell Key secret true)
  /\ forall j c, nth_error k j = Some c -> j <> i -> wiped c.

(** Released as it was *)
Definition forgotten (p : bytes) : cell := mkCell Key p false.

(** What a failed attempt to get the secret may leave: [typed] at the terminal, or
    the beginning of the file [p]. *)
Definition typed (tty : list (option bytes)) (k : memory) : Prop :=
  exists ps r, tty = map Some ps ++ r /\ k = map forgotten ps.
Definition read_of (s : sys) (p : path) (k : memory) : Prop :=
  forall c, In c k -> wiped c
    \/ exists i l r, stat s p = Some (NFile i) /\ s_data s i = l ++ r /\ c = forgotten l.
