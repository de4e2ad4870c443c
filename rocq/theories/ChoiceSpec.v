(** Specification vocabulary: the algorithms that protect a file, and their cost. *)
From Coq Require Import List NArith ZArith String.
From Verif Require Import Bytes Outcome IO Primitives Crypto Header Cli FileSpec CliSpec.
Import ListNotations.
Local Open Scope N_scope.

(** One evaluation of a password hash: memory in KiB, passes and lanes for Argon2id;
    space (a number of hashes of 32 bytes), passes and lanes for BLAKE3-Balloon. *)
Inductive kdf := KArgon2id (memory passes lanes : N) | KBalloon (space time lanes : N).

Definition kdf_run (E : env) (k : kdf) (pw salt : bytes) : option bytes :=
  match k with
  | KArgon2id m t p => argon2id E m t p pw salt
  | KBalloon s t p => balloon E s t p pw salt
  end.

(** As the comments in key.rs have it (none on balloon hashing, whose space is 2^18 and
    17 * 2^14 hashes). *)
Definition MiB : N := 1024.
Definition kdf_table : list (hashing_algorithm * kdf) :=
  [ (Argon2id 1, KArgon2id (8 * MiB) 8 4);
    (Argon2id 2, KArgon2id (256 * MiB) 8 4);
    (Argon2id 3, KArgon2id (256 * MiB) 10 4);
    (Blake3Balloon 4, KBalloon (2 ^ 18) 1 1);
    (Blake3Balloon 5, KBalloon (17 * 2 ^ 14) 1 1) ].

(** What a command line asks for. *)
Definition hashing_asked (g : string -> list string) : hashing_algorithm :=
  match g "argon"%string with [] => Blake3Balloon 5 | _ => Argon2id 3 end.
Definition kdf_asked (g : string -> list string) : kdf :=
  match g "argon"%string with
  | [] => KBalloon (17 * 2 ^ 14) 1 1
  | _ => KArgon2id (256 * MiB) 10 4
  end.

(** [data] starts with the header of a file protected by the password [pw] alone: a V5
    header for a stream with algorithm [a] and a single keyslot, from which nobody
    gets anything without one evaluation of [k] with a salt of 16 bytes, and which
    gives [pw] a key of 32 bytes. *)
Definition protected_by (E : env) (a : algorithm) (ha : hashing_algorithm) (k : kdf) (pw data : bytes) : Prop :=
  exists h aad d slot,
    deserialize (mkDev data 0 [] []) = (Ok (h, aad), d)
    /\ h_type h = mkHT V5 a StreamMode /\ h_keyslots h = Some [slot] /\ ks_hash slot = ha
    /\ List.length (ks_salt slot) = 16%nat
    /\ (forall guess mk, slot_opens E a guess slot mk ->
          exists key, kdf_run E k guess (ks_salt slot) = Some key
            /\ aead_dec E a key (ks_nonce slot) [] (ks_enc slot) = Some mk)
    /\ exists mk, slot_opens E a pw slot mk /\ List.length mk = 32%nat.
