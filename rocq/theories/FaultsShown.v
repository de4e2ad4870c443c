(** The hash that is shown by encrypt and decrypt while calls fail. *)
From Coq Require Import List Arith NArith ZArith Ascii String Bool Lia.
From Verif Require Import Bytes Outcome IO Primitives Crypto Header Stream KeyModel EncDec.
From Verif Require Import Overwrite Hash FS Erase Archive Cli.
From Verif Require Import BytesFacts HeaderSpec HeaderFacts IOSpec IOFacts FileFacts FileProofs.
From Verif Require Import FSSpec FSFacts ArchiveSpec EraseProofs UnpackProofs PackProofs RestorePack.
From Verif Require Import RestoreProofs CliSpec CliKeys CliRuns CliCommands CliProofs WorldFrames PrintSpec PrintProofs ReportSpec ReportProofs
  FaultsSpec FaultsRuns FaultsProofs FaultsHash.
Import ListNotations.
Local Open Scope nat_scope.
Local Open Scope list_scope.

Lemma an_open : forall m, opens_an m -> always can (storage m).
Proof.
  intros m H c o c' R. destruct (storage_inv _ _ _ _ R) as (r & s1 & X & -> & ->).
  unfold can. rewrite set_disk_disk. intros A. apply (H _ _ _ X A).
Qed.
Lemma an_flush : forall e, always can (storage (flush_file e)).
Proof.
  intros e c o c' R. destruct (storage_inv _ _ _ _ R) as (r & s1 & X & -> & ->).
  unfold can. rewrite set_disk_disk. destruct e as [h|p]; cbn [flush_file] in X.
  - unfold flush in X. destruct (call_or_inv _ _ _ _ _ X) as (s2 & _ & _ & PL & _ & [(_ & -> & _)|Y]).
    + apply an_same. exact PL.
    + injection Y as _ <-. apply an_same. exact PL.
  - injection X as _ <-. apply an_refl.
Qed.
Lemma an_check : forall n f, always can (check_or_exit n f).
Proof. intros n f c o c' R. apply can_same. apply (check_or_exit_any _ _ _ _ _ R). Qed.
Lemma an_try : forall e, always can (try_handle e).
Proof. intros [h|p]; apply an_keep. Qed.
Lemma alias_plans : forall V ws a o a', alias V ws a = (o, a') -> s_plans (fst a') = s_plans (fst a).
Proof. intros V ws a o a' H. unfold alias in H. injection H as _ <-. reflexivity. Qed.
Lemma world_plans : forall {E A} (m : M world E A) hi ho hh a r a', run_world m hi ho hh a = (r, a') ->
  s_plans (fst a') = s_plans (fst a).
Proof.
  intros E A m hi ho hh a r a' H. unfold run_world in H. destruct (m _) as [o w]. injection H as _ <-.
  destruct hh; reflexivity.
Qed.
Lemma an_on_a : forall {E A} (m : M asys E A), (forall a o a', m a = (o, a') -> s_plans (fst a') = s_plans (fst a)) ->
  always can (on_a m).
Proof.
  intros E A m H c o c' R. unfold on_a, zoom in R. destruct (m (c_a c)) as [r a] eqn:X. injection R as _ <-.
  unfold can, disk. cbn [c_a]. apply an_same. exact (H _ _ _ X).
Qed.
Lemma an_encrypt_files : forall V req hi ho hh, always can (on_a (encrypt_files V req hi ho hh)).
Proof.
  intros. apply an_on_a. intros a o a' H. unfold encrypt_files in H.
  destruct (same_file ho hi || same_opt ho hh || same_opt hi hh)%bool; [eapply alias_plans; exact H|].
  unfold map_err in H. destruct (run_world _ hi ho hh a) as [[r hs] a1] eqn:X.
  apply world_plans in X. destruct r; injection H as _ <-; exact X.
Qed.
Lemma an_decrypt_files : forall V raw hi ho hh, always can (on_a (decrypt_files V raw hi ho hh)).
Proof.
  intros. apply an_on_a. intros a o a' H. unfold decrypt_files in H.
  destruct (same_file ho hi || same_opt ho hh)%bool; [eapply alias_plans; exact H|].
  unfold map_err in H. destruct (run_world _ hi ho hh a) as [[r hs] a1] eqn:X.
  apply world_plans in X. destruct r; injection H as _ <-; exact X.
Qed.
Lemma an_encrypt : forall V input output p a, always can (encrypt_main V input output (no_hash p) a).
Proof.
  intros V input output p a. unfold encrypt_main, open_header, flush_opt. cbn [no_hash cp_hash]. walk;
    first [apply an_check|apply an_open, oa_read_file|apply an_secret|apply an_open, oa_create_or_write
          |apply an_try|apply an_encrypt_files|apply an_flush].
Qed.
Lemma an_decrypt : forall V input output p, always can (decrypt_main V input output (no_hash p)).
Proof.
  intros V input output p. unfold decrypt_main, read_header. cbn [no_hash cp_hash]. walk;
    first [apply an_check|apply an_open, oa_read_file|apply an_secret|apply an_open, oa_create_or_write
          |apply an_try|apply an_decrypt_files|apply an_flush].
Qed.

(** The step that shows the hash. *)
Lemma hash_step_an : forall V (b : bool) f c o c', all_or_nothing (disk c) ->
  (if b then hash_files V [f] else ret tt) c = (o, c') ->
  same_disk (disk c) (disk c')
  /\ ((o = Ok tt -> b = false) /\ c_out c' = c_out c
      \/ exists i, b = true /\ stat (disk c) (os_path f) = Some (NFile i)
           /\ c_out c' = c_out c ++ [NHash f (hex_encode (ce_blake3 V (s_data (disk c) i)))]).
Proof.
  intros V b f c o c' A H. destruct b.
  - split; [apply (hash_files_any _ _ _ _ _ H)|].
    destruct (hash_files_an V (disk c) _ _ _ _ H A (same_disk_refl _)) as (ds & rest & is & E & F & O & OK).
    destruct ds as [|d ds].
    + left. inversion F. subst. cbn in O. rewrite app_nil_r in O. split; [|exact O].
      intros X. apply OK in X. subst. discriminate.
    + right. injection E as <- E. destruct ds; [|discriminate]. inversion F as [|? i ? is' FI F']; subst. inversion F'; subst.
      exists i. auto.
  - unfold ret in H. injection H as <- <-. split; [apply same_disk_refl|]. left. auto.
Qed.

Lemma hash_not : forall V cmd g p, params_of V cmd g p -> cp_hash p = false -> g "hash"%string = [].
Proof.
  intros V cmd g p PO E. destruct (po_hash _ _ _ _ PO) as [A B].
  destruct (g "hash"%string) as [|v r]; [reflexivity|]. rewrite B in E; discriminate.
Qed.

Lemma encrypt_shown : forall V g c o c' input output i ns,
  all_or_nothing (disk c) -> inodes_ok (disk c) ->
  given g "input" input -> given g "output" output ->
  stat (disk c) (os_path input) = Some (NFile i) ->
  (forall t, In t (write_targets g output) -> stat (disk c) t <> Some (NFile i)) ->
  run_command V CmdEncrypt g c = (o, c') -> printed_between c c' ns ->
  (hashes_in ns = [] /\ (o = Ok tt -> g "hash"%string = []))
  \/ exists q j ct, resolve true (disk c) (os_path output) = Some q /\ at_place (disk c') q = Some (SFile j ct)
       /\ hashes_in ns = [(output, hex_encode (ce_blake3 V ct))].
Proof.
  intros V g c o c' input output i ns AN IO GI GO ST SEP H PB.
  assert (NI : i < s_next (disk c)).
  { unfold stat in ST. destruct (resolve true (disk c) (os_path input)); [|discriminate]. exact (IO _ _ ST). }
  assert (NE : input <> output).
  { intros ->. eapply SEP; [left; reflexivity|exact ST]. }
  destruct (encrypt_begins _ _ _ _ _ _ _ GI GO NE H) as (p & n & o1 & c1 & PO & FN & EM & RES).
  destruct (encrypt_main_any _ _ _ _ _ _ _ _ EM) as (W & _ & _).
  rewrite (header_targets_of _ _ _ _ _ PO), printed_disk in W.
  rewrite encrypt_split in EM. unfold bind in EM.
  destruct (encrypt_main V input output (no_hash p) (algorithm_asked g) (printed n c)) as [o0 c0] eqn:E0.
  destruct (encrypt_silent V input output p (algorithm_asked g) NE _ _ _ E0) as (n0 & O0 & F0 & _).
  assert (A0 : all_or_nothing (disk c0)) by (eapply an_encrypt; [exact E0|exact AN]).
  assert (S2 : exists n2, c_out c' = c_out c1 ++ n2 /\ Forall silent n2).
  { destruct RES as [(_ & _ & ->)|(_ & SE)]; [exists []; rewrite app_nil_r; auto|].
    destruct (says_erase silent silent_warn V input (passes_of (g "erase"%string)) (cp_force p)
        (fun _ => silent_ask _) _ _ _ SE) as (n2 & A & B & _). exists n2. split; assumption. }
  destruct S2 as (n2 & O2 & F2).
  assert (HS : forall x, c_out c1 = c_out c0 ++ x -> hashes_in ns = hashes_in x).
  { intros x X. unfold printed_between in PB.
    rewrite O2, X, O0 in PB. cbn [c_out printed] in PB. rewrite <- !app_assoc in PB. apply app_inv_head in PB.
    subst ns. rewrite !hashes_app, (silent_hashes _ FN), (silent_hashes _ F0), (silent_hashes _ F2), app_nil_r. reflexivity. }
  assert (STOP : o0 <> Ok tt -> (o1, c1) = (o0, c0) -> hashes_in ns = [] /\ (o = Ok tt -> g "hash"%string = [])).
  { intros N X. injection X as -> ->. split; [apply (HS []); rewrite app_nil_r; reflexivity|].
    intros ->. destruct RES as [(_ & X & _)|(X & _)]; congruence. }
  destruct o0 as [[]|e| |].
  2-4: left; apply STOP; [discriminate|congruence].
  destruct (hash_step_an _ _ _ _ _ _ A0 EM) as (D & [(NB & O1)|(j & CH & STO & O1)]).
  { left. split; [apply (HS []); rewrite O1, app_nil_r; reflexivity|]. intros ->.
    eapply hash_not; [exact PO|]. apply NB. destruct RES as [(_ & X & _)|(X & _)]; congruence. }
  right.
  rewrite <- (stat_disk _ _ (os_path output) D) in STO.
  assert (DD : s_data (disk c1) j = s_data (disk c0) j) by (destruct D as (_ & -> & _); reflexivity).
  assert (JI : j <> i).
  { intros E. rewrite E in STO.
    destruct (ow_stat_new _ _ _ _ _ W STO) as [X|(_ & k & X & L)]; [exact (SEP (os_path output) (or_introl eq_refl) X)|].
    injection X as <-. lia. }
  pose proof (ow_stat_kept _ _ _ _ _ W ST) as ST1.
  pose proof STO as STJ. unfold stat in STJ. destruct (resolve true (disk c1) (os_path output)) as [q|] eqn:RT; [|discriminate].
  exists q, j, (s_data (disk c1) j). rewrite <- (ow_resolve true _ _ _ (os_path output) W). split; [exact RT|].
  split; [|rewrite (HS _ O1), DD; reflexivity].
  destruct RES as [(_ & _ & ->)|(_ & SE)]; [unfold at_place; rewrite STJ; reflexivity|].
  eapply erase_spares; eauto.
Qed.

Lemma decrypt_shown : forall V g c o c' input output i ns,
  ce_debug V = false -> all_or_nothing (disk c) -> inodes_ok (disk c) ->
  given g "input" input -> given g "output" output ->
  stat (disk c) (os_path input) = Some (NFile i) -> stat (disk c) (os_path output) <> Some (NFile i) ->
  run_command V CmdDecrypt g c = (o, c') -> printed_between c c' ns ->
  (hashes_in ns = [] /\ (o = Ok tt -> g "hash"%string = []))
  \/ hashes_in ns = [(input, hex_encode (ce_blake3 V (s_data (disk c) i)))].
Proof.
  intros V g c o c' input output i ns DB AN IO GI GO ST SEP H PB.
  assert (NI : i < s_next (disk c)).
  { unfold stat in ST. destruct (resolve true (disk c) (os_path input)); [|discriminate]. exact (IO _ _ ST). }
  assert (NE : input <> output) by (intros ->; exact (SEP ST)).
  destruct (decrypt_begins _ _ _ _ _ _ _ DB GI GO NE H) as (p & n & o1 & c1 & PO & FN & EM & RES).
  rewrite decrypt_split in EM. unfold bind in EM.
  destruct (decrypt_main V input output (no_hash p) (printed n c)) as [o0 c0] eqn:E0.
  destruct (decrypt_main_any _ _ _ _ _ _ _ E0) as (W & _ & _). rewrite printed_disk in W.
  destruct (decrypt_silent V input output p NE _ _ _ E0) as (n0 & O0 & F0 & _).
  assert (A0 : all_or_nothing (disk c0)) by (eapply an_decrypt; [exact E0|exact AN]).
  assert (S2 : exists n2, c_out c' = c_out c1 ++ n2 /\ Forall silent n2).
  { destruct RES as [(_ & _ & ->)|(_ & SE)]; [exists []; rewrite app_nil_r; auto|].
    destruct (says_erase silent silent_warn V input (passes_of (g "erase"%string)) (cp_force p)
        (fun _ => silent_ask _) _ _ _ SE) as (n2 & A & B & _). exists n2. split; assumption. }
  destruct S2 as (n2 & O2 & F2).
  assert (HS : forall x, c_out c1 = c_out c0 ++ x -> hashes_in ns = hashes_in x).
  { intros x X. unfold printed_between in PB.
    rewrite O2, X, O0 in PB. cbn [c_out printed] in PB. rewrite <- !app_assoc in PB. apply app_inv_head in PB.
    subst ns. rewrite !hashes_app, (silent_hashes _ FN), (silent_hashes _ F0), (silent_hashes _ F2), app_nil_r. reflexivity. }
  assert (STOP : o0 <> Ok tt -> (o1, c1) = (o0, c0) -> hashes_in ns = [] /\ (o = Ok tt -> g "hash"%string = [])).
  { intros N X. injection X as -> ->. split; [apply (HS []); rewrite app_nil_r; reflexivity|].
    intros ->. destruct RES as [(_ & X & _)|(X & _)]; congruence. }
  destruct o0 as [[]|e| |].
  2-4: left; apply STOP; [discriminate|congruence].
  destruct (hash_step_an _ _ _ _ _ _ A0 EM) as (D & [(NB & O1)|(j & CH & STI & O1)]).
  { left. split; [apply (HS []); rewrite O1, app_nil_r; reflexivity|]. intros ->.
    eapply hash_not; [exact PO|]. apply NB. destruct RES as [(_ & X & _)|(X & _)]; congruence. }
  right. rewrite (HS _ O1). rewrite (ow_stat_kept _ _ _ _ _ W ST) in STI. injection STI as <-.
  assert (U : untouched (disk c) (disk c0) i).
  { apply (ow_untouched _ _ _ _ W NI). intros t [<-|[]]. exact SEP. }
  destruct U as [DI _]. rewrite DI. reflexivity.
Qed.
