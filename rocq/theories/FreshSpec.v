(** Specification vocabulary: histories of library calls, and repeated randomness. *)
From Coq Require Import List Arith NArith String.
From Verif Require Import Bytes Outcome IO Primitives Crypto Header EncDec KeyOps.
From Verif Require Import FS Archive Cli CliTools StreamSpec FileSpec KeySpec CliToolsSpec.
Import ListNotations.
Local Open Scope nat_scope.

(** Among the first [n] random bytes, [k] in a row occur twice, without overlap. *)
Definition repeats (r : rng) (n k : nat) : Prop :=
  exists p q, p + k <= q /\ q + k <= n /\ draw r p k = draw r q k.

(** A key derived from a password and a random salt is a random master key. *)
Definition derived_is_random (E : env) (r : rng) (n : nat) : Prop :=
  exists ha pw s m, s + 16 <= n /\ m + 32 <= n /\ hash E ha pw (draw r s 16) = Ok (draw r m 32).

(** What would let two encryptions share key and nonce: 12 random bytes twice, or 8
    twice and a derived key that is a master key. *)
Definition bad_luck (E : env) (r : rng) (n : nat) : Prop :=
  repeats r n 12 \/ (repeats r n 8 /\ derived_is_random E r n).

(** Every encryption has its own key and nonce. *)
Definition nonces_fresh (t : trace) : Prop :=
  forall i j c d, i <> j -> nth_error (sealed t) i = Some c -> nth_error (sealed t) j = Some d ->
  c_key c = c_key d -> c_nonce c <> c_nonce d.

(** Calls of the library, one after the other: on whatever devices, with whatever
    outcome; the random numbers go on where the last call left off. *)
Inductive lib_call :=
| LEncrypt (req : enc_request)
| LDecrypt (detached : bool) (pw : bytes)
| LKey (op : key_op).
Definition lib_run (E : env) (x : lib_call) (w : world) : world :=
  match x with
  | LEncrypt req => snd (encrypt_execute E req w)
  | LDecrypt detached pw => snd (decrypt_execute E detached pw w)
  | LKey op => snd (run_op E op w)
  end.
Inductive lib_history (E : env) (r : rng) : nat -> rng -> trace -> Prop :=
| lh_start : lib_history E r 0 r []
| lh_call : forall n x w, lib_history E r n (w_rng w) (w_tr w) ->
    lib_history E r (S n) (w_rng (lib_run E x w)) (w_tr (lib_run E x w)).

(** Runs of the program's functions by path, one after the other.  Between them
    anything may happen to the files, the environment and the input. *)
Inductive path_call :=
| PCommand (cmd : command) (given : string -> list string)
| PKey (input : string) (t : key_tool)
| PUnpack (input output : string) (verbose : bool) (p : crypto_params)
| PDetails (input : string)
| PDump (input output : string) (force : force_mode)
| PRestore (input output : string)
| PStrip (input : string).
Definition path_run (V : cenv) (x : path_call) (c : cli) : cli :=
  match x with
  | PCommand cmd given => snd (run_command V cmd given c)
  | PKey input t => snd (run_tool V input t c)
  | PUnpack input output verbose p => snd (unpack_cli V input output verbose p c)
  | PDetails input => snd (details input c)
  | PDump input output force => snd (dump input output force c)
  | PRestore input output => snd (restore input output c)
  | PStrip input => snd (strip input c)
  end.
(** Drawing the name of the temporary file takes random bytes in their order. *)
Definition picks_in_order (V : cenv) : Prop :=
  forall r, exists k, forall i, snd (ce_pick V r) i = r (k + i).
(** When one file is open twice (what that does is left open in Cli.v), randomness
    and encryptions are still those of a call of the library, on some devices. *)
Definition alias_is_call (V : cenv) : Prop :=
  forall a, exists k x w, (forall i, w_rng w i = s_rng (fst a) (k + i)) /\ w_tr w = snd a
    /\ al_rng (ce_alias V a) = w_rng (lib_run (ce_E V) x w)
    /\ al_trace (ce_alias V a) = w_tr (lib_run (ce_E V) x w).
Inductive path_history (E : env) (r : rng) : rng -> trace -> Prop :=
| ph_start : path_history E r r []
| ph_call : forall V x c, ce_E V = E -> picks_in_order V -> alias_is_call V ->
    path_history E r (s_rng (fst (c_a c))) (snd (c_a c)) ->
    path_history E r (s_rng (fst (c_a (path_run V x c)))) (snd (c_a (path_run V x c))).
