(** Concrete histories of library calls. *)
From Coq Require Import List Arith NArith ZArith String Lia.
From Verif Require Import Bytes Outcome IO Primitives Crypto Header EncDec KeyOps.
From Verif Require Import StreamSpec FileSpec KeySpec FreshSpec ToyEnv Fixtures.
From Verif Require Import FS Archive Cli FSSpec CliSpec EraseCases CliCases.
Import ListNotations.
Local Open Scope nat_scope.

(** The next call, on other devices. *)
Definition next_call (data : bytes) (w : world) : world :=
  mkWorld (dev_of data) (dev_of []) (dev_of []) (w_rng w) (w_tr w).
Lemma next_history : forall E r n data w,
  lib_history E r n (w_rng w) (w_tr w) -> lib_history E r n (w_rng (next_call data w)) (w_tr (next_call data w)).
Proof. intros E r n data w H. exact H. Qed.

(** A file is encrypted, and a second password added to it. *)
Definition enc_call : lib_call := LEncrypt (ex_req V5 (Argon2id 3%Z)).
Definition add_call : lib_call := LKey (OpAdd ex_pw ex_text (Blake3Balloon 5%Z)).
Definition first_call : world := file_world ex_text [].
Definition after_first : world := lib_run toy enc_call first_call.
Definition second_call : world := next_call (d_data (w_out after_first)) after_first.
Definition after_both : world := lib_run toy add_call second_call.

(** Random numbers that are all the same, and two encryptions. *)
Definition stuck_call : world := io_world ex_text.
Definition after_stuck_1 : world := lib_run toy enc_call stuck_call.
Definition after_stuck : world := lib_run toy enc_call (next_call [x2a] after_stuck_1).

Lemma both_history : lib_history toy ex_rng 2 (w_rng after_both) (w_tr after_both).
Proof.
  unfold after_both. apply (lh_call toy ex_rng 1 add_call second_call). unfold second_call. apply next_history.
  unfold after_first. apply (lh_call toy ex_rng 0 enc_call first_call). apply (lh_start toy ex_rng).
Qed.
Lemma stuck_history : lib_history toy no_rng 2 (w_rng after_stuck) (w_tr after_stuck).
Proof.
  unfold after_stuck. apply (lh_call toy no_rng 1 enc_call (next_call [x2a] after_stuck_1)). apply next_history.
  unfold after_stuck_1. apply (lh_call toy no_rng 0 enc_call stuck_call). apply (lh_start toy no_rng).
Qed.

(** The random numbers of the examples do not repeat in the first 192 bytes. *)
Lemma ex_rng_distinct : forall p q, p < q -> q < 192 -> ex_rng p <> ex_rng q.
Proof.
  intros p q L B. assert (C : forallb (fun q => forallb (fun p => negb (Byte.eqb (ex_rng p) (ex_rng q))) (seq 0 q)) (seq 0 192) = true)
    by (vm_compute; reflexivity).
  rewrite forallb_forall in C. specialize (C q). rewrite in_seq in C. specialize (C ltac:(lia)).
  rewrite forallb_forall in C. specialize (C p). rewrite in_seq in C. specialize (C ltac:(lia)).
  intros E. rewrite E in C. assert (X : Byte.eqb (ex_rng q) (ex_rng q) = true) by (apply Byte.byte_dec_lb; reflexivity).
  rewrite X in C. discriminate.
Qed.
Lemma ex_rng_lucky : ~ bad_luck toy ex_rng 192.
Proof.
  assert (N : forall k, 0 < k -> ~ repeats ex_rng 192 k).
  { intros k K (p & q & A & B & D). destruct k as [|k]; [lia|]. unfold draw in D. cbn in D. injection D as D _.
    revert D. apply ex_rng_distinct; lia. }
  intros [R|[R _]]; revert R; apply N; lia.
Qed.

(** By path: a file is encrypted, and the result encrypted again with the same
    passphrase. *)
Definition call_alias (a : asys) : alias_result :=
  let w := lib_run toy (LDecrypt false []) (mkWorld (dev_of []) (dev_of []) (dev_of []) (s_rng (fst a)) (snd a)) in
  mkAlias (Err tt) (fun _ => []) [] (w_rng w) (w_tr w).
Definition VF : cenv := V None 1%N call_alias.
Lemma VF_picks : picks_in_order VF.
Proof. intros r. exists 0. reflexivity. Qed.
Lemma VF_alias : alias_is_call VF.
Proof.
  intros a. exists 0, (LDecrypt false []), (mkWorld (dev_of []) (dev_of []) (dev_of []) (s_rng (fst a)) (snd a)).
  repeat split.
Qed.
Definition fresh_home : cli := mkCli (with_rng ex_rng home, []) [] [] [].
Definition once : cli := path_run VF (PCommand CmdEncrypt (args plain)) fresh_home.
Definition again : list (string * list string) := [("input", ["new"]); ("output", ["newer"])]%string.
Definition twice : cli := path_run VF (PCommand CmdEncrypt (args again)) once.
Lemma twice_history : path_history toy ex_rng (s_rng (disk twice)) (snd (c_a twice)).
Proof.
  unfold twice. apply (ph_call toy ex_rng VF (PCommand CmdEncrypt (args again)) once eq_refl VF_picks VF_alias).
  unfold once. apply (ph_call toy ex_rng VF (PCommand CmdEncrypt (args plain)) fresh_home eq_refl VF_picks VF_alias).
  apply (ph_start toy ex_rng).
Qed.
