(** crates/volaris-crypto/src/key.rs: master keys and passphrases. *)
From Coq Require Import List Arith NArith ZArith Ascii String.
From Verif Require Import Bytes Outcome IO Primitives Crypto Header.
Import ListNotations.
Local Open Scope nat_scope.
Local Open Scope list_scope.

(** key.rs lines 189-195: copy at most [n] bytes into a zeroed [u8; n].  The
    same code is inlined in crates/volaris-tools/src/encrypt.rs lines 86-90 and
    crates/volaris-tools/src/key.rs lines 55, 72-73. *)
Definition vec_to_arr (n : nat) (v : bytes) : bytes :=
  let len := Nat.min n (List.length v) in firstn len v ++ zeros (n - len).

(** key.rs lines 158-163 and 174-179: try one keyslot.  [Err] means "does not
    open". *)
Definition try_keyslot (E : env) (a : algorithm) (raw_key : bytes) (k : keyslot)
  : M trace unit bytes :=
  key <- lift (hash E (ks_hash k) raw_key (ks_salt k)) ;;
  c <- lift (ciphers_initialize key a) ;;
  m <- ciphers_decrypt E c (ks_nonce k) [] (ks_enc k) ;;
  ret (vec_to_arr MASTER_KEY_LEN m).

(** key.rs lines 170-181: [find_map] over the keyslots; errors of one slot are
    ignored ([.ok()?]). *)
Fixpoint find_keyslot (E : env) (a : algorithm) (raw_key : bytes)
  (l : list keyslot) : M trace unit bytes :=
  match l with
  | [] => err tt
  | k :: l' => or_else (try_keyslot E a raw_key k)
                       (fun _ => find_keyslot E a raw_key l')
  end.

(** key.rs lines 144-184 *)
Definition decrypt_master_key (E : env) (raw_key : bytes) (h : header)
  : M trace unit bytes :=
  match ht_version (h_type h) with
  | V1 | V2 | V3 =>
      match h_salt h with
      | None => err tt
      | Some salt => lift (argon2id_hash E raw_key salt (ht_version (h_type h)))
      end
  | V4 =>
      match h_keyslots h with
      | None | Some [] => err tt
      | Some (k :: _) => try_keyslot E (ht_algorithm (h_type h)) raw_key k
      end
  | V5 =>
      match h_keyslots h with
      | None => err tt
      | Some l => find_keyslot E (ht_algorithm (h_type h)) raw_key l
      end
  end.

(** key.rs lines 205-221.  [words] is the word list (7771 entries in
    wordlist.lst); [draw i] is the [i]-th number produced by the RNG, reduced to
    the range [0..=words.len()] of line 212, which *includes* the length; line
    213 indexes the vector and panics when out of bounds.  [total] is the i32
    argument, [i] the loop counter. *)
Fixpoint passphrase_loop (words : list string) (draw : nat -> N)
  (iters i : nat) (total : Z) (acc : string) : outcome unit string :=
  match iters with
  | O => Ok acc
  | S iters' =>
      let index := N.to_nat (draw i mod (N.of_nat (List.length words) + 1)) in
      match nth_error words index with
      | None => Panic
      | Some w =>
          let acc1 := (acc ++ w)%string in
          let acc2 := if Z.ltb (Z.of_nat i) (total - 1)
                      then (acc1 ++ "-")%string else acc1 in
          passphrase_loop words draw iters' (S i) total acc2
      end
  end.

Definition generate_passphrase (words : list string) (draw : nat -> N)
  (total_words : Z) : outcome unit string :=
  passphrase_loop words draw (Z.to_nat total_words) 0 total_words ""%string.
