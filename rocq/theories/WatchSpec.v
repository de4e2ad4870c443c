(** What C102 and C103 ask of the events a run leaves (Watch.v). *)
From Coq Require Import List Arith NArith ZArith Bool.
From Verif Require Import Bytes Outcome IO Primitives Crypto Header FS Archive Watch ChoiceSpec.
Import ListNotations.
Local Open Scope nat_scope.
Local Open Scope list_scope.

(** [m], which keeps a list of events, does what [m0] does. *)
Definition same_steps {S E A} (m : M (S * list event) E A) (m0 : M S E A) : Prop :=
  forall (s : S) (l : list event), (fst (m (s, l)), fst (snd (m (s, l)))) = m0 s.
(** The events of [m], begun in [s] *)
Definition events {S E A} (m : M (S * list event) E A) (s : S) : list event :=
  snd (snd (m (s, []))).

Definition is_told (e : event) : bool :=
  match e with HeaderTold _ | PathAsked _ | CountTold _ => true | _ => false end.
Definition is_header (e : event) : bool :=
  match e with HeaderTold _ => true | _ => false end.
Definition is_stretch (e : event) : bool :=
  match e with Stretched _ _ _ => true | _ => false end.
Definition is_check (e : event) : bool :=
  match e with Checked _ => true | _ => false end.
Definition count (f : event -> bool) (l : list event) : nat := length (filter f l).
(** How many bytes were authenticated *)
Fixpoint checked_bytes (l : list event) : nat :=
  match l with
  | [] => 0
  | Checked n :: l' => n + checked_bytes l'
  | _ :: l' => checked_bytes l'
  end.

(** Hashing a password in one of the ways of the table, none of which takes more than
    256 MiB (Argon2id) or 17 * 2^14 hashes (balloon) of memory, or more than 10 passes *)
Definition cheap (k : kdf) : Prop :=
  match k with
  | KArgon2id m t p => (m <= 256 * MiB /\ t <= 10 /\ p <= 4)%N
  | KBalloon m t p => (m <= 17 * 2 ^ 14 /\ t <= 1 /\ p <= 1)%N
  end.
Definition affordable (pws : list bytes) (l : list event) : Prop :=
  forall h pw salt, In (Stretched h pw salt) l ->
    In pw pws /\ exists k, In (h, k) kdf_table /\ cheap k.

(** What unpack tells, when it gets that far: the header once, every path in turn, then the
    number of paths answered with yes *)
Definition told_order (req : unpack_request) (ev : list event) : Prop :=
  exists t ps answers, ur_ask req ps = Some answers
    /\ filter is_told ev = HeaderTold t :: map PathAsked ps
         ++ [CountTold (length (filter (fun b => b) (firstn (length ps) answers)))].
