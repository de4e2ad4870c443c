(** Specification vocabulary for the key and header operations. *)
From Coq Require Import List Arith NArith ZArith Bool.
From Verif Require Import Bytes Outcome IO Primitives Crypto Header EncDec KeyOps.
From Verif Require Import IOSpec HeaderSpec StreamSpec FileSpec.
Local Open Scope nat_scope.

(** The operations of crates/volaris-tools/src/key/. *)
Inductive key_op :=
| OpAdd (old new : bytes) (ha : hashing_algorithm)
| OpChange (old new : bytes) (ha : hashing_algorithm)
| OpDelete (old : bytes)
| OpVerify (pw : bytes).

Definition run_op (E : env) (op : key_op) : M world key_error unit :=
  match op with
  | OpAdd old new ha => key_add E old new ha
  | OpChange old new ha => key_change E old new ha
  | OpDelete old => key_delete E old
  | OpVerify pw => key_verify E pw
  end.

(** The password presented, and the new one with its algorithm. *)
Definition op_old (op : key_op) : bytes :=
  match op with
  | OpAdd old _ _ | OpChange old _ _ | OpDelete old | OpVerify old => old
  end.
Definition op_new (op : key_op) : option (bytes * hashing_algorithm) :=
  match op with
  | OpAdd _ new ha | OpChange _ new ha => Some (new, ha)
  | _ => None
  end.

(** A well-behaved handle at offset [p] of a file. *)
Definition dev_at (data : bytes) (p : nat) : dev := mkDev data p [] [].

(** Reading [d] gives a V5 header [h] with these keyslots. *)
Definition v5_header (d : dev) (h : header) (slots : list keyslot) : Prop :=
  ht_version (h_type h) = V5 /\ h_keyslots h = Some slots
  /\ exists aad d', deserialize d = (Ok (h, aad), d').

(** Keyslot [i] is the first that [pw] opens; it holds [mk]. *)
Definition first_open (E : env) (a : algorithm) (pw : bytes) (slots : list keyslot)
  (i : nat) (mk : bytes) : Prop :=
  exists k, nth_error slots i = Some k /\ slot_opens E a pw k mk
    /\ forall j k', j < i -> nth_error slots j = Some k' ->
         forall m, ~ slot_opens E a pw k' m.

(** The KDF does not fail on [pw] with the parameters of any of [slots]. *)
Definition kdf_accepts (E : env) (pw : bytes) (slots : list keyslot) : Prop :=
  forall k, In k slots -> exists key, hash E (ks_hash k) pw (ks_salt k) = Ok key.

(** Keyslot [k] was made for password [pw] and master key [mk]. *)
Definition holds (E : env) (a : algorithm) (mk pw : bytes) (k : keyslot) : Prop :=
  exists key, hash E (ks_hash k) pw (ks_salt k) = Ok key
    /\ aead_enc E a key (ks_nonce k) [] mk = Some (ks_enc k).

(** The keyslots after an operation that found [mk] in slot [i]. *)
Definition edited (op : key_op) (i : nat) (new : keyslot) (slots : list keyslot)
  : list keyslot :=
  match op with
  | OpAdd _ _ _ => slots ++ [new]
  | OpChange _ _ _ => firstn i slots ++ new :: skipn (S i) slots
  | OpDelete _ => firstn i slots ++ skipn (S i) slots
  | OpVerify _ => slots
  end.

(** The new slot made by a run with random numbers [r]. *)
Definition made (E : env) (a : algorithm) (mk : bytes) (r : rng) (op : key_op)
  (k : keyslot) : Prop :=
  match op_new op with
  | Some (new, ha) =>
      ks_hash k = ha /\ ks_salt k = draw r 0 16
      /\ ks_nonce k = draw r 16 (get_nonce_len a MemoryMode) /\ holds E a mk new k
  | None => True
  end.

(** Decrypting the file on [d1] with [pw1] is the same as decrypting the file on
    [d2] with [pw2]: same outcome, same output, whatever the output device. *)
Definition same_decryption (E : env) (pw1 : bytes) (d1 : dev) (pw2 : bytes) (d2 : dev)
  : Prop :=
  forall out hdr r tr,
    let r1 := decrypt_execute E false pw1 (mkWorld d1 out hdr r tr) in
    let r2 := decrypt_execute E false pw2 (mkWorld d2 out hdr r tr) in
    fst r1 = fst r2 /\ w_out (snd r1) = w_out (snd r2).

(** [h] with other keyslots. *)
Definition with_slots (h : header) (slots : list keyslot) : header :=
  mkHeader (h_type h) (h_nonce h) (h_salt h) (Some slots).

(** Two contents that agree except on the [n] bytes from offset [p]. *)
Definition same_outside (p n : nat) (data data' : bytes) : Prop :=
  length data' = length data /\ firstn p data' = firstn p data
  /\ skipn (p + n) data' = skipn (p + n) data.

(** The bytes between the header's nonce and its keyslots are zero, as this
    program writes them (it accepts anything there). *)
Definition padding_zero (data : bytes) (p : nat) (h : header) : Prop :=
  let nl := get_nonce_len (ht_algorithm (h_type h)) (ht_mode (h_type h)) in
  slice (p + 6 + nl) (26 - nl) data = zeros (26 - nl).

(** The header at offset [p] is as this program writes it. *)
Definition canonical_at (data : bytes) (p : nat) (h : header) : Prop :=
  canonical_v5 (ht_algorithm (h_type h)) (ht_mode (h_type h)) (slice p 416 data).

(** The content after a crash with the first [n] bytes of the rewrite at offset
    [p] on the medium: [data'] up to there, [data] from there on. *)
Definition torn (p n : nat) (data data' : bytes) : bytes :=
  firstn (p + n) data' ++ skipn (p + n) data.

(** The crash points of the rewrite of a header with [c] keyslots that are not
    covered by the crash theorem: between the two identifier bytes of an added
    keyslot; and, for deletion, in the first bytes of what was the last keyslot. *)
Definition bad_cut (op : key_op) (c n : nat) : Prop :=
  match op with
  | OpAdd _ _ _ => n = 32 + 96 * c + 1
  | OpDelete _ => 32 + 96 * (c - 1) < n <= 32 + 96 * (c - 1) + 2 * (4 - c)
  | _ => False
  end.

(** ** Histories *)

(** A history: operations, each with its own random numbers, run one after the
    other on the same file through a fresh, well-behaved handle at its start. *)
Definition history := list (key_op * rng).

Definition run_on (E : env) (x : key_op * rng) (data : bytes) : outcome key_error unit * bytes :=
  let r := run_op E (fst x) (mkWorld (dev_at data 0) (dev_of []) (dev_of []) (snd x) []) in
  (fst r, d_data (w_in (snd r))).

Fixpoint run_all (E : env) (ops : history) (data : bytes)
  : list (outcome key_error unit) * bytes :=
  match ops with
  | [] => ([], data)
  | x :: ops' =>
      let r := run_on E x data in
      let rs := run_all E ops' (snd r) in
      (fst r :: fst rs, snd rs)
  end.

(** The abstract key list: the position of the first occurrence of a password,
    and the list after an operation, [None] if it is refused. *)
Fixpoint index_of (pw : bytes) (l : list bytes) : option nat :=
  match l with
  | [] => None
  | q :: l' => if bytes_eqb pw q then Some 0 else option_map S (index_of pw l')
  end.

Definition hash_is_known (ha : hashing_algorithm) : bool :=
  match ha with
  | Argon2id i => (1 <=? i)%Z && (i <=? 3)%Z
  | Blake3Balloon i => (4 <=? i)%Z && (i <=? 5)%Z
  end.

Definition list_step (op : key_op) (l : list bytes) : option (list bytes) :=
  match index_of (op_old op) l with
  | None => None
  | Some i =>
      match op with
      | OpAdd _ new ha =>
          if (length l <? 4) && hash_is_known ha then Some (l ++ [new]) else None
      | OpChange _ new ha =>
          if hash_is_known ha then Some (firstn i l ++ new :: skipn (S i) l) else None
      | OpDelete _ => Some (firstn i l ++ skipn (S i) l)
      | OpVerify _ => Some l
      end
  end.

Fixpoint list_run (ops : history) (l : list bytes) : list bool * list bytes :=
  match ops with
  | [] => ([], l)
  | x :: ops' =>
      match list_step (fst x) l with
      | Some l' => let r := list_run ops' l' in (true :: fst r, snd r)
      | None => let r := list_run ops' l in (false :: fst r, snd r)
      end
  end.

Definition agrees (o : outcome key_error unit) (b : bool) : Prop :=
  if b then o = Ok tt else exists e, o = Err e.

(** The passwords of a history. *)
Definition passwords (ops : history) : list bytes :=
  flat_map (fun x => op_old (fst x) :: match op_new (fst x) with Some (p, _) => [p] | None => [] end) ops.

(** The KDF works for [pw] with every known algorithm and any salt. *)
Definition kdf_total (E : env) (pw : bytes) : Prop :=
  forall ha salt, known_hash ha -> length salt = 16 -> exists key, hash E ha pw salt = Ok key.

(** Some keyslot of the file, made for one of the passwords [ps], opens with a
    different one: the two passwords collide under the KDF, or a wrapped key is
    accepted under a key that it was not sealed with. *)
Definition crossed (E : env) (ps : list bytes) (data : bytes) : Prop :=
  exists h slots k p q mk,
    v5_header (dev_at data 0) h slots /\ In k slots /\ In p ps /\ In q ps /\ p <> q
    /\ holds E (ht_algorithm (h_type h)) mk q k
    /\ (kdf_collision E (ks_hash k) p (ks_salt k) (ks_hash k) q (ks_salt k)
        \/ exists kp kq m, kp <> kq
             /\ hash E (ks_hash k) p (ks_salt k) = Ok kp
             /\ hash E (ks_hash k) q (ks_salt k) = Ok kq
             /\ aead_dec E (ht_algorithm (h_type h)) kp (ks_nonce k) [] (ks_enc k) = Some m).

(** The key list following the outcomes of the operations: a failed operation
    leaves it alone, a successful one acts on it as [list_step] says; [None] if an
    operation succeeded that the list refuses. *)
Fixpoint follow (ops : history) (os : list (outcome key_error unit)) (l : list bytes)
  : option (list bytes) :=
  match ops, os with
  | x :: ops', o :: os' =>
      match o with
      | Ok _ => match list_step (fst x) l with Some l' => follow ops' os' l' | None => None end
      | _ => follow ops' os' l
      end
  | _, _ => Some l
  end.

(** ** Header operations *)

(** The file is a header as this program writes it, followed by [body]. *)
Definition well_formed_file (h : header) (hdr body data : bytes) : Prop :=
  wf_header h /\ serialize h = Ok hdr /\ data = hdr ++ body.

(** A world with a well-behaved input and output, both at the start. *)
Definition two_files (i o : bytes) : world :=
  mkWorld (dev_of i) (dev_of o) (dev_of []) (fun _ => x00) [].
