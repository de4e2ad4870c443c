(** A concrete cryptographic environment satisfying [env_ok], used for the
    examples and refutations: it shows that the laws assumed of the real
    environment are consistent.  It has no security whatsoever. *)
From Coq Require Import List Arith NArith ZArith Lia Bool.
From Verif Require Import Bytes Outcome IO Primitives Crypto BytesFacts.
Local Open Scope nat_scope.

(** Checksum of a list of byte strings (not code of /repo). *)
Definition cksum1 (seed : N) (l : bytes) : N :=
  fold_left (fun acc b => ((acc * 257 + Byte.to_N b + 1) mod 4294967296)%N) l
            ((seed * 65599 + N.of_nat (length l) + 7) mod 4294967296)%N.
Definition cksum (seed : N) (ls : list bytes) : N := fold_left cksum1 ls seed.

Definition toy_tag (a : algorithm) (k n ad m : bytes) : bytes :=
  let s := match a with Aes256Gcm => 1 | XChaCha20Poly1305 => 2 | DeoxysII256 => 3 end%N in
  le32 (cksum s [k; n; ad; m]) ++ le32 (cksum (s + 10)%N [k; n; ad; m])
  ++ le32 (cksum (s + 20)%N [k; n; ad; m]) ++ le32 (cksum (s + 30)%N [k; n; ad; m]).

Definition toy_kdf (kind m t p : N) (pw s : bytes) : bytes :=
  concat (map (fun i => le32 (cksum (kind + m + t + p + i) [pw; s]))
              [1; 2; 3; 4; 5; 6; 7; 8])%N.

Definition toy_with (cmax : N) : env := {|
  aead_enc := fun a k n ad m => Some (m ++ toy_tag a k n ad m);
  aead_dec := fun a k n ad c =>
    let m := firstn (length c - 16) c in
    if (16 <=? length c) && bytes_eqb (skipn (length c - 16) c) (toy_tag a k n ad m)
    then Some m else None;
  argon2id := fun m t p pw s => Some (toy_kdf 1000 m t p pw s);
  balloon := fun m t p pw s => Some (toy_kdf 2000 m t p pw s);
  counter_max := cmax
|}.

(** The counter limit of aead 0.5's StreamLE31, as far as known: 0xfff_ffff. *)
Definition toy : env := toy_with 268435455.

Lemma toy_tag_length : forall a k n ad m, length (toy_tag a k n ad m) = 16.
Proof. reflexivity. Qed.

Lemma toy_with_ok : forall c, (c < 2 ^ 31)%N -> env_ok (toy_with c).
Proof.
  intros cm Hcm. constructor; cbn [aead_enc aead_dec argon2id balloon counter_max toy_with].
  - intros a k n ad m c H. inversion H; subst.
    rewrite app_length, toy_tag_length.
    replace (length m + 16 - 16) with (length m) by lia.
    rewrite firstn_app_exact, skipn_app_exact by reflexivity.
    rewrite bytes_eqb_refl.
    destruct (Nat.leb_spec 16 (length m + 16)); [reflexivity|lia].
  - intros a k n ad m c H. inversion H; subst. now rewrite app_length, toy_tag_length.
  - intros a k n ad m c H.
    destruct (Nat.leb_spec 16 (length c)); cbn [andb] in H; [|discriminate].
    destruct (bytes_eqb _ _); [|discriminate]. inversion H; subst.
    rewrite firstn_length. lia.
  - discriminate.
  - intros m t p pw s k H. inversion H; subst. reflexivity.
  - intros m t p pw s k H. inversion H; subst. reflexivity.
  - exact Hcm.
Qed.

Lemma toy_ok : env_ok toy.
Proof. apply toy_with_ok. reflexivity. Qed.
