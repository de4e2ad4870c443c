(** crates/volaris-tools/src/overwrite.rs *)
From Coq Require Import List Arith NArith ZArith.
From Verif Require Import Bytes Outcome IO Primitives.
Local Open Scope nat_scope.

(** overwrite.rs line 10 *)
Definition OVERWRITE_BLOCK_SIZE : nat := 512.

(** overwrite.rs lines 13-18 *)
Inductive ow_error :=
| OwResetCursorPosition | OwOverwriteWithRandomBytes | OwOverwriteWithZeros
| OwFlushFile.

(** The writer and the random number generator ([rand::thread_rng()]). *)
Definition ow_state : Type := dev * rng.
Definition ow_dev {E A} (m : M dev E A) : M ow_state E A :=
  zoom fst (fun d s => (d, snd s)) m.

(** [Vec::with_capacity(n)] (std): capacity is reserved, the length is zero. *)
Definition vec_with_capacity (n : nat) : bytes := [].

(** [RngCore::fill_bytes(&mut buf)] (rand): every element of the slice is
    replaced; the length stays. *)
Definition fill_slice {E} (buf : bytes) : M ow_state E bytes := fun s =>
  let n := length buf in
  (Ok (map (snd s) (seq 0 n)), (fst s, fun i => snd s (n + i))).

(** overwrite.rs lines 44-45 *)
Definition ow_blocks (cap : nat) : list nat :=
  repeat OVERWRITE_BLOCK_SIZE (cap / OVERWRITE_BLOCK_SIZE)
  ++ [cap mod OVERWRITE_BLOCK_SIZE].

(** [take_while(|bs| *bs > 0)], overwrite.rs line 47 *)
Fixpoint take_pos (l : list nat) : list nat :=
  match l with
  | O :: _ | [] => []
  | x :: l' => x :: take_pos l'
  end.

(** overwrite.rs lines 47-53 *)
Fixpoint ow_random (blocks : list nat) : M ow_state ow_error unit :=
  match blocks with
  | [] => ret tt
  | block_size :: blocks' =>
      block_buf <- fill_slice (vec_with_capacity block_size) ;;
      map_err (fun _ => OwOverwriteWithRandomBytes) (ow_dev (dev_write_all block_buf)) ;;
      ow_random blocks'
  end.

(** overwrite.rs lines 42-55 *)
Definition ow_pass (cap : nat) : M ow_state ow_error unit :=
  map_err (fun _ => OwResetCursorPosition) (ow_dev dev_rewind) ;;
  ow_random (take_pos (ow_blocks cap)) ;;
  map_err (fun _ => OwFlushFile) (ow_dev dev_flush).

(** overwrite.rs line 41: [0..passes] is empty for [passes <= 0] *)
Fixpoint ow_passes (n cap : nat) : M ow_state ow_error unit :=
  match n with
  | O => ret tt
  | S n' => ow_pass cap ;; ow_passes n' cap
  end.

(** overwrite.rs lines 39-63 *)
Definition overwrite_execute (cap : nat) (passes : Z) : M ow_state ow_error unit :=
  ow_passes (Z.to_nat passes) cap ;;
  map_err (fun _ => OwResetCursorPosition) (ow_dev dev_rewind) ;;
  map_err (fun _ => OwOverwriteWithZeros) (ow_dev (dev_write_all (zeros cap))) ;;
  map_err (fun _ => OwFlushFile) (ow_dev dev_flush).
