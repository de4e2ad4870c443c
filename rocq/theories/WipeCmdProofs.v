(** Proofs about WipeCmd.v. *)
From Coq Require Import List Arith NArith ZArith String Bool Lia.
From Verif Require Import Bytes BytesFacts Outcome IO IOFacts Primitives Crypto Header HeaderFacts KeyModel Stream EncDec KeyOps Hash.
From Verif Require Import Overwrite FS FSSpec FSFacts Erase Archive Cli CliSpec CliKeys CliRuns CliCommands CliResults.
From Verif Require Import Wipe WipeSpec WipeLib WipeProofs WipeResults WipeCli WipeCliSpec WipeCliProofs WipeCmd WipeCmdSpec.
Import ListNotations.
Local Open Scope nat_scope.
Local Open Scope list_scope.

(** ** The same as the commands of Cli.v *)

Lemma same_on_a {E A} (m : M (asys * memory) E A) m0 :
  same_run m m0 -> same_run (on_a_m m) (on_a m0).
Proof.
  intros H c k. specialize (H (c_a c) k). unfold on_a_m, on_a, zoom. cbn [fst snd].
  destruct (m (c_a c, k)) as [o [a k']]. cbn [fst snd] in *. rewrite <- H. reflexivity.
Qed.
Lemma same_on_sys {E A} (m : M (sys * memory) E A) m0 :
  same_run m m0 -> same_run (on_sys_m m) (on_sys m0).
Proof.
  intros H a k. specialize (H (fst a) k). unfold on_sys_m, on_sys, zoom. cbn [fst snd].
  destruct (m (fst a, k)) as [o [s k']]. cbn [fst snd] in *. rewrite <- H. reflexivity.
Qed.
Lemma same_owning_or_exit {S A} i (m : M (S * memory) cli_error A) m0 :
  same_run m m0 -> same_run (owning_or_exit i m) m0.
Proof.
  intros H s k. rewrite <- (H s k). unfold owning_or_exit.
  destruct (m (s, k)) as [[a|e| |] [s' k']]; try reflexivity. destruct e; reflexivity.
Qed.
Lemma same_world {E A} (m : M (world * memory) E A) m0 hi ho hh a k : same_run m m0 ->
  (fst (run_world_m m hi ho hh (a, k)), fst (snd (run_world_m m hi ho hh (a, k))))
  = run_world m0 hi ho hh a.
Proof.
  intros H. unfold run_world_m, run_world. cbn [fst snd].
  match goal with |- context [m (?w, k)] => specialize (H w k); destruct (m (w, k)) as [o [w' k']] end.
  cbn [fst snd] in *. rewrite <- H. reflexivity.
Qed.
(** A secret and its buffer *)
Lemma same_secret_then {S E A B} (m : M (S * memory) E (A * nat)) m0 (f : A * nat -> M (S * memory) E B) f0 :
  same_pair m m0 -> (forall a i, same_run (f (a, i)) (f0 a)) ->
  same_run (x <- m ;; f x) (x <- m0 ;; f0 x).
Proof.
  intros H F s k. specialize (H s k). unfold bind, ret in *.
  destruct (m (s, k)) as [[[a i]|e| |] [s' k']]; cbn [fst snd] in *; rewrite <- H; try reflexivity.
  exact (F a i s' k').
Qed.
Lemma same_thru_bind {S E A B} (m : M S E A) (f : A -> M (S * memory) E B) f0 :
  (forall a, same_run (f a) (f0 a)) -> same_run (bind (thru m) f) (bind m f0).
Proof. intros F. apply same_bind; [apply same_thru|exact F]. Qed.

Lemma same_encrypt_files V i req hi ho hh :
  same_run (encrypt_files_m V BLOCK_SIZE i req hi ho hh) (encrypt_files V req hi ho hh).
Proof.
  unfold encrypt_files_m, encrypt_files. apply same_owning_protected.
  destruct (_ || _)%bool; [apply same_thru|]. apply same_map_err. intros a k.
  pose proof (same_world _ _ hi ho hh a k (same_encrypt_at (ce_E V) BLOCK_SIZE i req)) as X.
  change (encrypt_execute (ce_E V) req) with (encrypt_execute_bs (ce_E V) BLOCK_SIZE req).
  rewrite <- X. destruct (run_world_m _ hi ho hh (a, k)) as [[o hs] [a1 k1]]. reflexivity.
Qed.
Lemma same_decrypt_files V i raw hi ho hh :
  same_run (decrypt_files_m V BLOCK_SIZE i raw hi ho hh) (decrypt_files V raw hi ho hh).
Proof.
  unfold decrypt_files_m, decrypt_files. apply same_owning_protected.
  destruct (_ || _)%bool; [apply same_thru|]. apply same_map_err. intros a k.
  pose proof (same_world _ _ hi ho hh a k (same_decrypt_at (ce_E V) BLOCK_SIZE i (is_some hh) raw)) as X.
  change (decrypt_execute (ce_E V) (is_some hh) raw)
    with (decrypt_execute_bs (ce_E V) BLOCK_SIZE (is_some hh) raw).
  rewrite <- X. destruct (run_world_m _ hi ho hh (a, k)) as [[o hs] [a1 k1]]. reflexivity.
Qed.

Lemma same_pack_read bs i : forall fuel acc d k,
  fst (pack_read_m fuel bs i acc d k) = pack_read fuel bs acc d.
Proof.
  induction fuel as [|fuel IH]; intros acc d k; cbn [pack_read_m pack_read]; [reflexivity|].
  destruct (dev_read bs d) as [[got|e| |] d']; try reflexivity.
  destruct (List.length got =? bs); [apply IH|reflexivity].
Qed.
Lemma same_pack_add bs : forall es acc s k,
  fst (pack_add_m bs es acc s k) = pack_add bs es acc s.
Proof.
  induction es as [|[h|p] es IH]; intros acc s k; cbn [pack_add_m pack_add]; [reflexivity| |].
  - destruct (has_name _ acc); [reflexivity|].
    match goal with |- context [pack_read_m ?f bs ?i [] ?d ?k0] =>
      pose proof (same_pack_read bs i f [] d k0) as X; destruct (pack_read_m f bs i [] d k0) as [[[o data] d'] k1] end.
    cbn [fst] in X. rewrite <- X. destruct o; try reflexivity. apply IH.
  - destruct (has_name _ acc); [reflexivity|apply IH].
Qed.
Lemma same_pack_archive Z bs req h s k :
  fst (pack_archive_m Z bs req h s k) = pack_archive Z bs req h s.
Proof.
  unfold pack_archive_m, pack_archive. pose proof (same_pack_add bs (pr_files req) [] s k) as X.
  destruct (pack_add_m bs (pr_files req) [] s k) as [[[o zs] s1] k1]. cbn [fst] in X. rewrite <- X.
  destruct (put_archive _ h s1) as [[w h'] s2]. reflexivity.
Qed.
Lemma same_pack E Z pick bs i req :
  same_run (pack_execute_at E Z pick bs i req) (pack_execute_bs E Z pick bs req).
Proof.
  unfold pack_execute_at, pack_execute_bs. apply same_owning_protected.
  apply same_thru_bind. intros [h0|p]; [|apply same_err].
  apply same_bind.
  { intros a k. cbn [fst snd]. pose proof (same_pack_archive Z bs req h0 (fst a) k) as X.
    destruct (pack_archive_m Z bs req h0 (fst a) k) as [x k1]. cbn [fst] in X. rewrite <- X.
    destruct (lift_h x (snd a)) as [o a']. reflexivity. }
  intros r1. apply same_thru_bind. intros cap a k.
  match goal with |- context [run_world_m (encrypt_execute_at E bs i ?q) ?hi ?ho ?hh _] =>
    pose proof (same_world _ _ hi ho hh a k (same_encrypt_at E bs i q)) as X;
    destruct (run_world_m (encrypt_execute_at E bs i q) hi ho hh (a, k)) as [[o [h2 h3]] [a1 k1]] end.
  cbn [fst snd] in X. rewrite <- X. destruct o as [u|e| |]; try reflexivity.
  - exact (same_thru _ a1 k1).
  - exact (same_thru _ a1 k1).
Qed.

Ltac thrus := repeat (apply same_thru_bind; intros ?).

Lemma same_encrypt_stream V input output p a :
  same_run (encrypt_stream_m V BLOCK_SIZE input output p a) (encrypt_stream V input output p a).
Proof.
  unfold encrypt_stream_m, encrypt_stream. destruct (String.eqb input output); [apply same_err|].
  thrus. apply same_secret_then; [apply same_secret|]. intros raw i. cbn [fst snd].
  apply same_owning_or_exit. thrus. apply same_bind; [apply same_on_a, same_encrypt_files|]. intros _.
  thrus. apply same_thru.
Qed.
Lemma same_decrypt_stream V input output p :
  same_run (decrypt_stream_m V BLOCK_SIZE input output p) (decrypt_stream V input output p).
Proof.
  unfold decrypt_stream_m, decrypt_stream. destruct (String.eqb input output); [apply same_err|].
  thrus. apply same_secret_then; [apply same_secret|]. intros raw i. cbn [fst snd].
  apply same_owning_or_exit. thrus. apply same_bind; [apply same_on_a, same_decrypt_files|]. intros _.
  thrus. apply same_thru.
Qed.
Lemma same_pack_cli V inputs output p pp a :
  same_run (pack_cli_m V BLOCK_SIZE inputs output p pp a) (pack_cli V inputs output p pp a).
Proof.
  unfold pack_cli_m, pack_cli. destruct (existsb _ inputs); [apply same_err|].
  thrus. apply same_secret_then; [apply same_secret|]. intros raw i. cbn [fst snd].
  apply same_owning_or_exit. thrus.
  apply same_bind.
  { apply same_on_a, same_owning_protected. destruct (same_opt _ _); [apply same_thru|].
    apply same_map_err, same_pack. }
  intros _. thrus. apply same_thru.
Qed.
Lemma same_hash_files V : forall files, same_run (hash_files_m V BLOCK_SIZE files) (hash_files V files).
Proof.
  induction files as [|f r IH]; cbn [hash_files_m hash_files]; [apply same_ret|].
  apply same_bind; [|intros h; apply same_thru_bind; intros _; exact IH].
  apply same_on_a, same_on_sys. intros s k. unfold hash_file_m, hash_file, call_or. cbn [fst snd].
  destruct (next_fault s) as [b s1]. destruct b; [reflexivity|].
  destruct (stat s1 (os_path f)) as [[|i|t]|]; try reflexivity.
  destruct (next_plan s1) as [plan s2].
  pose proof (same_hash_file (Blake3Hasher (ce_blake3 V)) BLOCK_SIZE [] (mkDev (s_data s1 i) 0 plan []) k) as X.
  unfold hash_execute. rewrite <- X.
  match goal with |- context [hash_execute_m ?H ?b ?h ?d] =>
    destruct (hash_execute_m H b h d) as [[x|e| |] [d1 k1]] end; reflexivity.
Qed.
Lemma same_commands V cmd g :
  same_run (run_command_m V BLOCK_SIZE cmd g) (run_command V cmd g).
Proof.
  destruct cmd; cbn [run_command_m run_command].
  - unfold encrypt_cmd. thrus. apply same_encrypt_stream.
  - unfold decrypt_cmd. thrus. apply same_decrypt_stream.
  - apply same_thru.
  - unfold hash_cmd. thrus. apply same_hash_files.
  - unfold pack_cmd. thrus. apply same_pack_cli.
  - apply same_thru.
Qed.
