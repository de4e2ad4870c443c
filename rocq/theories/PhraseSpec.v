(** Specification vocabulary: numbers on the command line, and the passphrase shown. *)
From Coq Require Import List ZArith Ascii String.
From Verif Require Import Bytes Outcome FS Cli FSSpec CliSpec.
Import ListNotations.
Local Open Scope list_scope.

(** Decimal numerals. *)
Definition digit (c : ascii) : option Z :=
  match c with
  | "0" => Some 0 | "1" => Some 1 | "2" => Some 2 | "3" => Some 3 | "4" => Some 4
  | "5" => Some 5 | "6" => Some 6 | "7" => Some 7 | "8" => Some 8 | "9" => Some 9
  | _ => None
  end%char%Z.
Inductive decimal : list ascii -> Z -> Prop :=
| dec_digit : forall c d, digit c = Some d -> decimal [c] d
| dec_more : forall s n c d, decimal s n -> digit c = Some d -> decimal (s ++ [c]) (10 * n + d)%Z.
(** With or without a sign, and within 32 bits. *)
Inductive numeral : list ascii -> Z -> Prop :=
| num_plain : forall s n, decimal s n -> numeral s n
| num_plus : forall s n, decimal s n -> numeral ("+"%char :: s) n
| num_minus : forall s n, decimal s n -> numeral ("-"%char :: s) (- n)
.
Definition reads_as (s : string) (n : Z) : Prop :=
  numeral (list_ascii_of_string s) n /\ (- 2 ^ 31 <= n < 2 ^ 31)%Z.

(** The passphrases that a run shows. *)
Definition shown (c c' : cli) (s : string) : Prop :=
  exists l, c_out c' = c_out c ++ l /\ In (NPhrase s) l.

(** Nothing has been written, made or removed. *)
Definition unwritten (s s' : sys) : Prop :=
  (forall q, at_place s' q = at_place s q) /\ s_log s' = s_log s.
