(** Specification vocabulary for overwriting, hashing, hexadecimal output and
    passphrases. *)
From Coq Require Import List Arith NArith Ascii String.
From Verif Require Import Bytes IO Hash.
Import ListNotations.
Local Open Scope nat_scope.

(** How many writes of a log touch offset [i]. *)
Definition touches (i : nat) (w : nat * bytes) : bool :=
  (fst w <=? i) && (i <? fst w + List.length (snd w)).
Definition times_written (log : list (nat * bytes)) (i : nat) : nat :=
  List.length (filter (touches i) log).

(** An incremental hasher: feeding two pieces is feeding their concatenation. *)
Definition incremental (H : hasher) : Prop :=
  (forall st, hr_write H [] st = st)
  /\ forall a b st, hr_write H b (hr_write H a st) = hr_write H (a ++ b)%list st.

(** Reading hexadecimal digits, independently of how they are printed. *)
Definition digits : string := "0123456789abcdef".
Fixpoint index_in (c : ascii) (s : string) (i : N) : option N :=
  match s with
  | EmptyString => None
  | String d s' => if Ascii.eqb c d then Some i else index_in c s' (i + 1)%N
  end.
Definition digit_value (c : ascii) : option N := index_in c digits 0%N.
Fixpoint hex_decode (s : string) : option bytes :=
  match s with
  | EmptyString => Some []
  | String c (String d s') =>
      match digit_value c, digit_value d, hex_decode s' with
      | Some x, Some y, Some l =>
          match Byte.of_N (16 * x + y) with Some b => Some (b :: l) | None => None end
      | _, _, _ => None
      end
  | String _ EmptyString => None
  end.
Fixpoint all_digits (s : string) : Prop :=
  match s with
  | EmptyString => True
  | String c s' => digit_value c <> None /\ all_digits s'
  end.

(** Words joined by a hyphen. *)
Definition hyphenated (ws : list string) : string := String.concat "-" ws.
