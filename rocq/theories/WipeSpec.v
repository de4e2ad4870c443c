(** What C92 asks of the memory a function leaves behind. *)
From Coq Require Import List.
From Verif Require Import Bytes Outcome IO Primitives Header Wipe.
Import ListNotations.

Definition zero (b : bytes) : Prop := forall x, In x b -> x = x00.

(** Released, and nothing of its content left *)
Definition wiped (c : cell) : Prop := c_live c = false /\ zero (c_bytes c).

(** Buffers with keys *)
Definition keys_wiped (k : memory) : Prop :=
  forall c, In c k -> c_label c = Key -> wiped c.
(** Buffers with keys or content *)
Definition all_wiped (k : memory) : Prop :=
  forall c, In c k -> c_label c <> Public -> wiped c.
(** Everything but one buffer, which holds content, [n] bytes at most *)
Definition all_but_one_wiped (n : nat) (k : memory) : Prop :=
  exists k1 c k2, k = k1 ++ c :: k2 /\ all_wiped (k1 ++ k2)
    /\ c_label c = Plain /\ c_live c = false /\ length (c_bytes c) <= n.

(** [m], which keeps book of its buffers, does what [m0] does. *)
Definition same_run {S E A} (m : M (S * memory) E A) (m0 : M S E A) : Prop :=
  forall (s : S) (k : memory), (fst (m (s, k)), fst (snd (m (s, k)))) = m0 s.
(** The memory after [m], begun in [s] with no buffers *)
Definition memory_after {S E A} (m : M (S * memory) E A) (s : S) : memory :=
  snd (snd (m (s, []))).

(** The header to be read, if there is one, is that of a file made of blocks; the
    files of version 3 and older may be of one piece ([MemoryMode]). *)
Definition stream_file (det : bool) (w : world) : Prop :=
  forall h aad d', deserialize (if det then w_hdr w else w_in w) = (Ok (h, aad), d') ->
  ht_mode (h_type h) = StreamMode.
