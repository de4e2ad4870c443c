(** Property C88: no key and nonce are used for two encryptions, over any history of
    calls, unless random bytes repeat.  Vocabulary: FreshSpec.v. *)
From Coq Require Import List Arith NArith ZArith.
From Verif Require Import Bytes Outcome IO Primitives Crypto Header EncDec KeyOps.
From Verif Require Import FS Archive Cli StreamSpec FileSpec KeySpec FSSpec CliSpec FreshSpec FreshLib FreshCli.
From Verif Require Import ToyEnv Fixtures FreshCases.
Import ListNotations.
Local Open Scope nat_scope.

(** Calls of the library: encryption in any mode, decryption, key operations, on any
    devices and with any outcomes.  The bytes that must not repeat are those that were
    drawn, at most 96 for each call. *)
Theorem C88_library : forall E r n r' t, env_ok E -> lib_history E r n r' t ->
  ~ bad_luck E r (96 * n) -> nonces_fresh t.
Proof. exact lib_nonces_fresh. Qed.
Print Assumptions C88_library.

(** The functions by path, including pack, unpack and erase, which draw random bytes
    for other purposes: [n] bytes were drawn. *)
Theorem C88_paths : forall E r r' t, env_ok E -> path_history E r r' t ->
  exists n, (forall i, r' i = r (n + i)) /\ (~ bad_luck E r n -> nonces_fresh t).
Proof. exact path_nonces_fresh. Qed.
Print Assumptions C88_paths.

(** A file is encrypted and a password added: three encryptions. *)
Example C88_case :
  lib_history toy ex_rng 2 (w_rng after_both) (w_tr after_both) /\ ~ bad_luck toy ex_rng (96 * 2)
  /\ map (fun c => Byte.to_N (hd x00 (c_nonce c))) (sealed (w_tr after_both)) = [51; 63; 87]%N.
Proof. split; [exact both_history|]. split; [exact ex_rng_lucky|]. vm_compute. reflexivity. Qed.

(** A generator that repeats makes two encryptions with the same key and nonce. *)
Example C88_needed :
  lib_history toy no_rng 2 (w_rng after_stuck) (w_tr after_stuck) /\ ~ nonces_fresh (w_tr after_stuck).
Proof.
  split; [exact stuck_history|]. intros F.
  destruct (nth_error (sealed (w_tr after_stuck)) 1) as [c|] eqn:C; [|vm_compute in C; discriminate].
  destruct (nth_error (sealed (w_tr after_stuck)) 3) as [d|] eqn:D; [|vm_compute in D; discriminate].
  apply (F 1 3 c d); [discriminate|exact C|exact D| |]; vm_compute in C, D; injection C as <-; injection D as <-; reflexivity.
Qed.

(** Two commands with the same passphrase: four encryptions. *)
Example C88_paths_case :
  path_history toy ex_rng (s_rng (disk twice)) (snd (c_a twice))
  /\ map (fun c => Byte.to_N (hd x00 (c_nonce c))) (sealed (snd (c_a twice))) = [51; 75; 143; 167]%N.
Proof. split; [exact twice_history|]. vm_compute. reflexivity. Qed.
