(** Proofs about runs of pack. *)
From Coq Require Import List Arith NArith ZArith Ascii String Bool Lia.
From Verif Require Import Bytes Outcome IO Primitives Crypto Header Stream KeyModel EncDec.
From Verif Require Import Overwrite Hash FS Erase Archive Cli.
From Verif Require Import FSSpec FSFacts ArchiveSpec EraseProofs EraseDirProofs UnpackProofs PackProofs ArchiveResults.
From Verif Require Import CliSpec CliKeys CliRuns CliCommands CliProofs.
Import ListNotations.
Local Open Scope nat_scope.
Local Open Scope list_scope.

Lemma ow_spared : forall s ts s', inodes_ok s -> only_writes s ts s' -> spared_except s ts s'.
Proof.
  intros s ts s' IO W r CH. destruct (ow_nodes _ _ _ W r) as [E|(L & _)].
  - unfold at_place in CH. rewrite E in CH.
    destruct (lookup (s_nodes s) r) as [[|i|t]|] eqn:L; try congruence. right.
    assert (M : ~ ~ may_write s ts i).
    { intros N. rewrite (ow_data _ _ _ W i N) in CH. congruence. }
    unfold may_write in M. specialize (IO _ _ L).
    (* the targets are finitely many *)
    assert (DEC : (exists t, In t ts /\ stat s t = Some (NFile i)) \/ ~ (exists t, In t ts /\ stat s t = Some (NFile i))).
    { clear. induction ts as [|t ts IH]; [right; intros (x & [] & _)|].
      destruct (stat s t) as [[|j|x]|] eqn:S.
      2:{ destruct (Nat.eq_dec j i) as [->|N]; [left; exists t; split; [left; reflexivity|exact S]|].
          destruct IH as [(x & I & X)|NO]; [left; exists x; split; [right; exact I|exact X]|].
          right. intros (x & [<-|I] & X); [congruence|apply NO; eauto]. }
      all: destruct IH as [(y & I & X)|NO]; [left; exists y; split; [right; exact I|exact X]|];
        right; intros (y & [<-|I] & X); [congruence|apply NO; eauto]. }
    destruct DEC as [(t & I & S)|NO]; [exists t, i; auto|].
    exfalso. apply M. intros [A|A]; [lia|contradiction].
  - left. unfold at_place. rewrite L. reflexivity.
Qed.

Lemma each_disk : forall {A B} (f : A -> M cli cli_error B) l c o c',
  (forall x c o c', In x l -> f x c = (o, c') -> same_disk (disk c) (disk c') /\ snd (c_a c') = snd (c_a c)) ->
  each f l c = (o, c') -> same_disk (disk c) (disk c').
Proof.
  intros A B f l. induction l as [|x r IH]; intros c o c' F H; cbn [each] in H.
  - unfold ret in H. injection H as <- <-. apply same_disk_refl.
  - unfold bind at 1 in H. destruct (f x c) as [o1 c1] eqn:FX.
    destruct (F x c o1 c1 (or_introl eq_refl) FX) as [D1 T1].
    destruct o1; try (injection H as <- <-; exact D1).
    unfold bind in H. destruct (each f r c1) as [o2 c2] eqn:E2.
    assert (D2 : same_disk (disk c1) (disk c2)).
    { eapply IH; [|exact E2]. intros y cy oy cy' I. apply F. right. exact I. }
    assert (D : same_disk (disk c) (disk c')); [|exact D].
    eapply same_disk_trans; [exact D1|].
    destruct o2; unfold ret in H; injection H as <- <-; exact D2.
Qed.

(** Everything before the erasing. *)
Definition pack_main (V : cenv) (inputs : list string) (output : string) (p : crypto_params)
  (pp : pack_params) (a : algorithm) : M cli cli_error unit :=
  check_or_exit output (cp_force p) ;;
  input_files <- each (fun f => storage (read_file (os_path f))) inputs ;;
  raw_key <- get_secret V (cp_key p) Validate ;;
  fo <- storage (create_or_write (os_path output)) ;;
  fh <- open_header p ;;
  lists <- each (fun f => if entry_is_dir f then storage (read_dir f) else ret [f]) input_files ;;
  ho <- try_handle fo ;;
  on_a (if same_opt ho (ok_handle fh) then alias V [h_ino ho] else
        map_err CPack
          (pack_execute (ce_E V) (ce_Z V) (ce_pick V)
             (mkPackReq ho (ok_handle fh) (List.concat lists) (pp_compression pp) raw_key
                        (mkHT V5 a StreamMode) (cp_hashing p)))) ;;
  flush_opt fh ;;
  storage (flush_file fo) ;;
  (if cp_hash p then hash_files V [output] else ret tt).
Definition pack_finish (V : cenv) (inputs : list string) (p : crypto_params) (pp : pack_params)
  : M cli cli_error unit :=
  if pp_erase pp then each_ (fun f => secure_erase V f 1%Z (cp_force p)) inputs else ret tt.

Lemma pack_cli_eq : forall V inputs output p pp a c,
  existsb (fun f => String.eqb f output) inputs = false ->
  existsb (fun f => is_file (disk c) (os_path f)) inputs = false ->
  pack_cli V inputs output p pp a c
  = bind (pack_main V inputs output p pp a) (fun _ => pack_finish V inputs p pp) c.
Proof.
  intros V inputs output p pp a c N1 N2. unfold pack_cli, pack_main, pack_finish. rewrite N1.
  transitivity ((fun c0 => bind (check_or_exit output (cp_force p)) (fun _ =>
   input_files <- each (fun f => storage (read_file (os_path f))) inputs ;;
   raw_key <- get_secret V (cp_key p) Validate ;;
   fo <- storage (create_or_write (os_path output)) ;;
   fh <- open_header p ;;
   lists <- each (fun f => if entry_is_dir f then storage (read_dir f) else ret [f]) input_files ;;
   ho <- try_handle fo ;;
   on_a (if same_opt ho (ok_handle fh) then alias V [h_ino ho] else
        map_err CPack
          (pack_execute (ce_E V) (ce_Z V) (ce_pick V)
             (mkPackReq ho (ok_handle fh) (List.concat lists) (pp_compression pp) raw_key
                        (mkHT V5 a StreamMode) (cp_hashing p)))) ;;
   flush_opt fh ;;
   storage (flush_file fo) ;;
   (if cp_hash p then hash_files V [output] else ret tt) ;;
   (if pp_erase pp then each_ (fun f => secure_erase V f 1%Z (cp_force p)) inputs else ret tt)) c0) c).
  { unfold bind at 1. fold (disk c). rewrite N2. reflexivity. }
  rewrite bind_assoc. apply bind_congr. intros x1 s1.
  rewrite bind_assoc. apply bind_congr. intros x2 s2.
  rewrite bind_assoc. apply bind_congr. intros x3 s3.
  rewrite bind_assoc. apply bind_congr. intros x4 s4.
  rewrite bind_assoc. apply bind_congr. intros x5 s5.
  rewrite bind_assoc. apply bind_congr. intros x6 s6.
  rewrite bind_assoc. apply bind_congr. intros x7 s7.
  rewrite bind_assoc. apply bind_congr. intros x8 s8.
  rewrite bind_assoc. apply bind_congr. intros x9 s9.
  rewrite bind_assoc. apply bind_congr. intros x10 s10.
  reflexivity.
Qed.

Lemma spared_refl : forall s ts, spared_except s ts s.
Proof. intros s ts r CH. congruence. Qed.

Lemma spared_disk : forall s ts s1 s2, spared_except s ts s1 -> same_disk s1 s2 -> spared_except s ts s2.
Proof.
  intros s ts s1 s2 SP D r CH. apply SP. intros E. apply CH. rewrite <- E. destruct D as (DN & DD & _).
  unfold at_place. rewrite DN, DD. reflexivity.
Qed.

Lemma ow_inodes : forall s ts s', inodes_ok s -> only_writes s ts s' -> inodes_ok s'.
Proof.
  intros s ts s' IO W r i L. pose proof (ow_next _ _ _ W).
  destruct (ow_nodes _ _ _ W r) as [E|(_ & j & E & B)].
  - rewrite E in L. specialize (IO _ _ L). lia.
  - rewrite L in E. injection E as ->. lia.
Qed.

Lemma read_step : forall f c o c', storage (read_file (os_path f)) c = (o, c') ->
  same_disk (disk c) (disk c') /\ snd (c_a c') = snd (c_a c).
Proof.
  intros f c o c' H. destruct (storage_inv _ _ _ _ H) as (r & s1 & RF & _ & ->).
  destruct (read_file_any _ _ _ _ RF) as (D & _). auto.
Qed.
Lemma list_step : forall e c o c',
  (if entry_is_dir e then storage (read_dir e) else ret [e]) c = (o, c') ->
  same_disk (disk c) (disk c') /\ snd (c_a c') = snd (c_a c).
Proof.
  intros e c o c' H. destruct e as [h|q]; cbn [entry_is_dir] in H.
  - unfold ret in H. injection H as <- <-. split; [apply same_disk_refl|reflexivity].
  - destruct (storage_inv _ _ _ _ H) as (r & s1 & RF & _ & ->).
    destruct (read_dir_any _ _ _ _ RF) as (D & _). auto.
Qed.

Lemma pack_main_any : forall V inputs output p pp a c o c', inodes_ok (disk c) ->
  pack_main V inputs output p pp a c = (o, c') ->
  spared_except (disk c) (os_path output :: header_targets p) (disk c').
Proof.
  intros V inputs output p pp a c o c' IO H. unfold pack_main in H.
  set (ts := os_path output :: header_targets p). set (s := disk c) in *.
  (* check *)
  unfold bind at 1 in H. destruct (check_or_exit output (cp_force p) c) as [r c0] eqn:CK.
  destruct (check_or_exit_any _ _ _ _ _ CK) as (CA & CT & RES & _).
  assert (S0 : disk c0 = s) by (unfold disk; rewrite CA; reflexivity).
  destruct RES as [<-|[<-|[<-|[]]]]; [|injection H as <- <-; rewrite S0; apply spared_refl..].
  (* inputs *)
  unfold bind at 1 in H. destruct (each (fun f => storage (read_file (os_path f))) inputs c0) as [r1 c1] eqn:E1.
  assert (D1 : same_disk s (disk c1)).
  { rewrite <- S0. eapply each_disk; [|exact E1]. intros x cx ox cx' _. apply read_step. }
  destruct r1 as [fs|e| |]; [|injection H as <- <-; exact (spared_disk _ _ _ _ (spared_refl s ts) D1)..].
  (* key *)
  unfold bind at 1 in H. destruct (get_secret V (cp_key p) Validate c1) as [r2 c2] eqn:GS.
  destruct (get_secret_any _ _ _ _ _ _ GS) as (D2 & _).
  assert (D02 : same_disk s (disk c2)) by (eapply same_disk_trans; eauto).
  destruct r2 as [raw|e| |]; [|injection H as <- <-; exact (spared_disk _ _ _ _ (spared_refl s ts) D02)..].
  (* output *)
  unfold bind at 1 in H. destruct (storage (create_or_write (os_path output)) c2) as [r3 c3] eqn:SC.
  destruct (storage_inv _ _ _ _ SC) as (r & s3 & CW & -> & ->). clear SC.
  assert (I3 : In (os_path output) ts) by (left; reflexivity).
  destruct (ow_create_or_write s ts _ _ _ _ (ow_disk _ _ _ D02) I3 CW) as [W3 MW3].
  assert (RES3 : (exists e, r = Err e) \/ exists ho, r = Ok (EFile ho) /\ h_ino ho < s_next s3).
  { destruct (create_or_write_any _ _ _ _ CW) as [(e & -> & _)|(h & -> & _ & _ & _ & _ & _ & _ & _ & _ & NEW)]; [eauto|].
    right. exists h. split; [reflexivity|]. destruct NEW as [(q & _ & _ & -> & -> & _)|(ST & -> & _)]; [lia|].
    assert (NX : s_next (disk c2) = s_next s) by apply D02. rewrite NX.
    rewrite (stat_disk s (disk c2)) in ST by exact D02. unfold stat in ST.
    destruct (resolve true s (os_path output)) as [r1|]; [|discriminate]. exact (IO _ _ ST). }
  destruct RES3 as [[e ->]|(ho & -> & L3)]; cbn [omap] in H.
  { injection H as <- <-. apply ow_spared; assumption. }
  (* header *)
  unfold bind at 1 in H. destruct (open_header p (set_disk s3 c2)) as [r4 c4] eqn:OH.
  assert (IH : forall h, cp_header p = Some h -> In (os_path h) ts).
  { intros h E. right. unfold header_targets. rewrite E. left. reflexivity. }
  assert (W3' : only_writes s ts (disk (set_disk s3 c2))) by exact W3.
  destruct (open_header_frame s ts _ _ _ _ W3' IH OH) as (W4 & NP4 & ND4 & SOME4 & NONE4 & ER4).
  destruct r4 as [fh|e| |]; [|injection H as <- <-; apply ow_spared; assumption..].
  assert (N34 : s_next s3 <= s_next (disk c4)).
  { assert (IH' : forall h, cp_header p = Some h -> In (os_path h) (header_targets p)).
    { intros h E. unfold header_targets. rewrite E. left. reflexivity. }
    destruct (open_header_frame s3 (header_targets p) p (set_disk s3 c2) _ _ (ow_refl _ _) IH' OH) as (W & _).
    exact (ow_next _ _ _ W). }
  assert (LH : forall x, ok_handle fh = Some x -> h_ino x < s_next (disk c4) /\ may_write s ts (h_ino x)).
  { intros x E. destruct fh as [e|]; [|discriminate]. destruct (SOME4 e eq_refl) as (h & -> & MW & _).
    cbn in E. injection E as <-. split; [|exact MW].
    unfold open_header in OH. destruct (cp_header p) as [hp|] eqn:CHP; [|unfold ret in OH; discriminate].
    unfold bind in OH. destruct (check_or_exit hp (cp_force p) (set_disk s3 c2)) as [rx cx] eqn:CKX.
    destruct (check_or_exit_any _ _ _ _ _ CKX) as (CAX & _ & RX & _).
    destruct RX as [<-|[<-|[<-|[]]]]; try discriminate OH.
    destruct (storage (create_or_write (os_path hp)) cx) as [ry cy] eqn:SY.
    destruct (storage_inv _ _ _ _ SY) as (rz & sy & CWY & -> & ->).
    assert (DX : disk cx = s3) by (unfold disk; rewrite CAX; reflexivity). rewrite DX in CWY.
    destruct (create_or_write_any _ _ _ _ CWY) as [(e & -> & _)|(h' & -> & _ & _ & _ & _ & _ & _ & _ & _ & NEW)];
      cbn [omap] in OH; [discriminate|]. unfold ret in OH. injection OH as -> <-. rewrite set_disk_disk.
    destruct NEW as [(q & _ & _ & -> & -> & _)|(ST & -> & _)]; [lia|].
    pose proof (ow_inodes _ _ _ IO W3) as IO3. unfold stat in ST.
    destruct (resolve true s3 (os_path hp)) as [r1|]; [|discriminate]. exact (IO3 _ _ ST). }
  (* listings *)
  unfold bind at 1 in H.
  destruct (each (fun f => if entry_is_dir f then storage (read_dir f) else ret [f]) fs c4) as [r5 c5] eqn:E5.
  assert (D5 : same_disk (disk c4) (disk c5)).
  { eapply each_disk; [|exact E5]. intros x cx ox cx' _. apply list_step. }
  assert (W5 : only_writes s ts (disk c5)) by (eapply ow_then_disk; eauto).
  destruct r5 as [lists|e| |]; [|injection H as <- <-; apply ow_spared; assumption..].
  unfold bind at 1 in H. cbn [try_handle] in H. unfold ret in H.
  unfold bind at 1 in H. rewrite on_a_run in H.
  assert (NX5 : s_next (disk c5) = s_next (disk c4)) by apply D5.
  match type of H with context [fst (?m (c_a c5))] => set (work := m) in * end.
  assert (SP : forall o6 a6, work (c_a c5) = (o6, a6) -> spared_except s ts (fst a6)).
  { intros o6 a6 E6. unfold work in E6. clear work H. destruct (same_opt ho (ok_handle fh)).
    - apply ow_spared; [exact IO|]. destruct (alias_frame _ _ _ _ _ E6) as (T6 & D6 & ES6 & _).
      eapply ow_files; [exact W5|exact T6| |exact D6|exact ES6].
      intros j [<-|[]]. apply MW3. reflexivity.
    - rewrite map_err_run in E6. injection E6 as _ E6.
      rewrite (surjective_pairing (c_a c5)) in E6. fold (disk c5) in E6.
      match type of E6 with snd (?m ?st) = _ => destruct (m st) as [o7 a7] eqn:PE end. cbn [snd] in E6. subst a7.
      intros r7 CH.
      assert (ST : {at_place (fst a6) r7 = at_place (disk c5) r7} + {at_place (fst a6) r7 <> at_place (disk c5) r7}).
      { apply ArchiveResults.place_eq_dec. }
      destruct ST as [EQ|NEQ].
      + apply (ow_spared _ _ _ IO W5). rewrite <- EQ. exact CH.
      + pose proof (ow_inodes _ _ _ IO W5) as IO5.
        assert (NONE : at_place (disk c5) r7 = None -> at_place s r7 = None).
        { unfold at_place. destruct (ow_nodes _ _ _ W5 r7) as [E|(L & _)]; [|rewrite L; reflexivity].
          rewrite E. destruct (lookup (s_nodes s) r7) as [[]|]; congruence. }
        unfold pack_execute in PE.
        match type of PE with pack_execute_bs _ _ _ _ ?req _ = _ => set (rq := req) in * end.
        assert (HO : h_ino (pr_out rq) < s_next (disk c5)) by (cbn [rq pr_out]; lia).
        assert (HX : forall x, pr_hdr rq = Some x -> h_ino x < s_next (disk c5)).
        { cbn [rq pr_hdr]. intros x X. destruct (LH x X). lia. }
        assert (B : 0 < BLOCK_SIZE) by (apply Nat.ltb_lt; reflexivity).
        destruct (pack_changes (ce_E V) (ce_Z V) (ce_pick V) BLOCK_SIZE rq (disk c5) B HO HX _ _ _ PE IO5 r7 NEQ)
          as [(_ & AB)|(i & LI & WI)].
        * left. apply NONE. exact AB.
        * assert (MW : may_write s ts i).
          { destruct WI as [->|(x & X & ->)]; [apply MW3; reflexivity|]. apply (LH x X). }
          destruct (ow_nodes _ _ _ W5 r7) as [E|(L & _)]; [|left; unfold at_place; rewrite L; reflexivity].
          rewrite LI in E. symmetry in E. right. destruct MW as [X|(t & I & X)]; [specialize (IO _ _ E); lia|].
          exists t, i. auto. }
  destruct (work (c_a c5)) as [o6 a6] eqn:E6. specialize (SP _ _ eq_refl). cbn [fst snd] in H.
  destruct o6 as [u|e| |]; [|injection H as <- <-; rewrite set_a_disk; exact SP..].
  unfold bind at 1 in H. destruct (flush_opt fh (set_a a6 c5)) as [r7 c7] eqn:F7.
  destruct (flush_opt_any _ _ _ _ F7) as (D7 & _). rewrite set_a_disk in D7.
  assert (SP7 : spared_except s ts (disk c7)) by (eapply spared_disk; eauto).
  destruct r7 as [u7|e| |]; [|injection H as <- <-; exact SP7..].
  unfold bind at 1 in H. destruct (storage (flush_file (EFile ho)) c7) as [r8 c8] eqn:F8.
  destruct (storage_inv _ _ _ _ F8) as (r & s8 & FF & -> & ->).
  destruct (flush_file_any _ _ _ _ FF) as (D8 & _).
  assert (SP8 : spared_except s ts s8) by (eapply spared_disk; eauto).
  destruct r as [u8|e| |]; cbn [omap] in H; [|injection H as <- <-; exact SP8..].
  destruct (cp_hash p).
  - destruct (hash_files_any _ _ _ _ _ H) as (D9 & _). eapply spared_disk; eauto.
  - unfold ret in H. injection H as <- <-. exact SP8.
Qed.

Lemma pack_not_erasing : forall V g c o c' inputs output, inodes_ok (disk c) ->
  g "input"%string = inputs -> inputs <> [] -> given g "output" output -> not_given g "erase" ->
  run_command V CmdPack g c = (o, c') ->
  spared_except (disk c) (write_targets g output) (disk c').
Proof.
  intros V g c o c' inputs output IO GI NE GO NG H.
  destruct (pack_cmd_run V g c _ _ NE GI GO) as (p & pp & n & PO & PE & _ & R). rewrite R in H.
  assert (PF : pp_erase pp = false).
  { destruct (pp_erase pp); [|reflexivity]. destruct PE as [X _]. exfalso. apply X; auto. }
  destruct (existsb (fun f => String.eqb f output) inputs) eqn:N1.
  { unfold pack_cli in H. rewrite N1 in H. injection H as <- <-. apply spared_refl. }
  destruct (existsb (fun f => is_file (disk c) (os_path f)) inputs) eqn:N2.
  { unfold pack_cli in H. rewrite N1 in H. unfold bind at 1 in H. fold (disk (printed n c)) in H.
    rewrite printed_disk, N2 in H. injection H as <- <-. apply spared_refl. }
  rewrite pack_cli_eq in H by assumption. unfold bind, pack_finish in H. rewrite PF in H.
  destruct (pack_main V inputs output p pp (algorithm_asked g) (printed n c)) as [o1 c1] eqn:PM.
  apply pack_main_any in PM; [|exact IO]. rewrite (header_targets_of _ _ _ _ _ PO), printed_disk in PM.
  destruct o1; unfold ret in H; injection H as <- <-; exact PM.
Qed.
