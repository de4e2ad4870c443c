(** Specification vocabulary for streaming and integrity theorems. *)
From Coq Require Import List Arith NArith.
From Verif Require Import Bytes Primitives Crypto.
Local Open Scope nat_scope.

(** [a] is a first part of [b]. *)
Definition prefix_of {A} (a b : list A) : Prop := exists c, b = a ++ c.

(** The calls of a trace. *)
Definition sealed (tr : trace) : list call :=
  flat_map (fun e => match e with Sealed c => [c] | Opened _ => [] end) tr.
Definition opened (tr : trace) : list call :=
  flat_map (fun e => match e with Opened c => [c] | Sealed _ => [] end) tr.

(** The AEAD accepts [c]'s key, nonce, AAD and ciphertext, although the honest
    run [tr] never produced that ciphertext for them. *)
Definition forgery (E : env) (tr : trace) (c : call) : Prop :=
  aead_dec E (c_alg c) (c_key c) (c_nonce c) (c_aad c) (c_ct c) = Some (c_msg c)
  /\ forall m, ~ In (mkCall (c_alg c) (c_key c) (c_nonce c) (c_aad c) m (c_ct c))
                    (sealed tr).

(** The nonce of block [i]: the counter in the low bits, the last-block flag in
    the top bit of a little-endian 32-bit number. *)
Definition ctr_nonce (prefix : bytes) (i : nat) (last : bool) : bytes :=
  prefix ++ le32 (N.of_nat i + if last then 2 ^ 31 else 0)%N.

(** Nonces of a stream with [n] full blocks. *)
Definition stream_nonces (prefix : bytes) (n : nat) : list bytes :=
  map (fun i => ctr_nonce prefix i false) (seq 0 n) ++ [ctr_nonce prefix n true].

(** The [i]-th block of [bs] bytes of [p] (the last one may be shorter). *)
Definition block (bs i : nat) (p : bytes) : bytes := firstn bs (skipn (i * bs) p).

(** [ct] is the ciphertext of [p]: block [i] sealed under nonce [i], the final
    (possibly empty, always shorter than [bs]) block flagged. *)
Definition is_ciphertext (E : env) (a : algorithm) (key prefix aad : bytes)
  (bs : nat) (p ct : bytes) : Prop :=
  let n := length p / bs in
  exists cs, ct = concat cs /\ length cs = S n
    /\ forall i, i <= n ->
         nth_error cs i
         = aead_enc E a key (ctr_nonce prefix i (i =? n)) aad (block bs i p).

(** [p] is the result of opening [ct] block by block. *)
Definition is_plaintext (E : env) (a : algorithm) (key prefix aad : bytes)
  (bs : nat) (ct p : bytes) : Prop :=
  let n := length ct / (bs + 16) in
  exists ms, p = concat ms /\ length ms = S n
    /\ forall i, i <= n ->
         nth_error ms i
         = aead_dec E a key (ctr_nonce prefix i (i =? n)) aad (block (bs + 16) i ct).

(** Each of [ms] is what the AEAD returns for the corresponding block of [q]. *)
Definition opened_blocks (E : env) (a : algorithm) (key prefix aad : bytes)
  (bs : nat) (q : bytes) (ms : list bytes) : Prop :=
  forall i m, nth_error ms i = Some m ->
    let c := block (bs + 16) i q in
    aead_dec E a key (ctr_nonce prefix i (length c <? bs + 16)) aad c = Some m.
