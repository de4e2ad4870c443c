(** What C99 asks. *)
From Coq Require Import List.
From Verif Require Import Bytes Outcome IO Primitives Header FS Wipe WipeSpec.
Import ListNotations.

(** Everything is wiped but released pieces of content, [n] bytes each at most. *)
Definition only_blocks (n : nat) (k : memory) : Prop :=
  forall c, In c k -> c_label c <> Public ->
  wiped c \/ (c_label c = Plain /\ c_live c = false /\ length (c_bytes c) <= n).

(** No file on the disk begins like one of those of version 3 and older that are of
    one piece. *)
Definition in_blocks (s : sys) : Prop :=
  forall j d h aad d', d_data d = s_data s j -> d_pos d = 0 ->
  deserialize d = (Ok (h, aad), d') -> ht_mode (h_type h) = StreamMode.

(** What is left of [l] when it was read into a buffer of [n] bytes, block by block *)
Definition rest_of (n : nat) (l b : bytes) : Prop :=
  length b = n
  /\ ((length l < n /\ exists z, b = l ++ z)
      \/ exists pre x y, l = pre ++ x ++ y /\ b = y ++ x).
