(** What commands on an encrypted file leave of it when they are cut off. *)
From Coq Require Import List Arith.
From Verif Require Import Bytes Outcome IO Primitives Crypto Header EncDec KeyOps FileSpec KeySpec FS FSSpec.
Import ListNotations.
Local Open Scope nat_scope.
Local Open Scope list_scope.

(** No name and no other file is changed. *)
Definition others_kept (i : nat) (s k : sys) : Prop :=
  s_nodes k = s_nodes s /\ forall j, j <> i -> s_data k j = s_data s j.
(** So is the file [i], but for its first [n] bytes. *)
Definition rest_kept (i n : nat) (s k : sys) : Prop :=
  others_kept i s k /\ same_outside 0 n (s_data s i) (s_data k i).
(** It may have been shorter than that. *)
Definition tail_kept (i n : nat) (s k : sys) : Prop :=
  others_kept i s k /\ skipn n (s_data k i) = skipn n (s_data s i).

(** The content [data], of which the key operation makes [data'], has become [cut], and
    each password with a keyslot in both still decrypts as before, if it opens no
    half-written keyslot to something else. *)
Definition passwords_kept (E : env) (data data' cut : bytes) (h : header) (slots slots' : list keyslot) : Prop :=
  exists slotsn, v5_header (dev_at cut 0) (with_slots h slotsn) slotsn
  /\ forall pw i mk, first_open E (ht_algorithm (h_type h)) pw slots i mk ->
       (exists k, In k slots /\ In k slots' /\ slot_opens E (ht_algorithm (h_type h)) pw k mk) ->
       (forall k m, In k slotsn -> slot_opens E (ht_algorithm (h_type h)) pw k m -> m = mk) ->
       same_decryption E pw (dev_at data 0) pw (dev_at cut 0).
