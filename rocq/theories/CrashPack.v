(** Runs of pack that are cut off. *)
From Coq Require Import List Arith NArith ZArith Ascii String Bool Lia.
From Verif Require Import Bytes Outcome IO Primitives Crypto Header Stream KeyModel EncDec.
From Verif Require Import Overwrite Hash FS Erase Archive Cli.
From Verif Require Import FSSpec FSFacts ArchiveSpec ArchiveWalk ArchiveProofs EraseProofs EraseDirProofs WorldFrames UnpackProofs PackProofs ArchiveResults.
From Verif Require ToolProofs.
From Verif Require Import CliSpec CliKeys CliRuns CliCommands CliProofs CliPack.
From Verif Require Import RestoreSpec RestoreManySpec PackPathSpec PackPath CrashSpec CrashLib CrashLog CrashProofs CrashTake.
Import ListNotations.
Local Open Scope nat_scope.
Local Open Scope list_scope.
Strategy 1000 [walk MAX_LINKS resolve].

(** ** The changes until the archive is done *)

Lemma pack_events : forall E Z pick bs req s tr r a', 0 < bs -> h_ino (pr_out req) < s_next s ->
  (forall x, pr_hdr req = Some x -> h_ino x < s_next s) ->
  pack_execute_bs E Z pick bs req (s, tr) = (r, a') ->
  exists es, added s (fst a') es /\ Forall (fun e =>
    match e with
    | FCreate _ j | FTrunc j => j = s_next s
    | FWrite j _ _ => j = s_next s \/ j = h_ino (pr_out req) \/ exists x, pr_hdr req = Some x /\ j = h_ino x
    | FUnlink q => lookup (s_nodes s) q = None
    | _ => False
    end) es.
Proof.
  intros E Z pick bs req s tr r a' BS HO HH H. apply pack_stages in H; try assumption.
  set (P := fun e : fsev => _).
  assert (MADE : forall T s1, temp_made True s T s1 -> exists es, added s s1 es /\ Forall P es).
  { intros T s1 TM. destruct (tm_log _ _ _ _ TM) as (ws & L & _). eexists. split; [exact L|].
    constructor; [reflexivity|]. apply Forall_forall. intros e I. apply in_map_iff in I as (w & <- & _). left. reflexivity. }
  assert (SEAL : forall s1 s2, sealed req s1 s2 -> exists es, added s1 s2 es /\ Forall P es).
  { intros s1 s2 [_ _ (es & L & F)]. exists es. split; [exact L|]. eapply Forall_impl; [|exact F].
    intros [] X; cbn in X; try contradiction. right. exact X. }
  assert (CAT : forall s1 s2 es1 es2, added s s1 es1 -> added s1 s2 es2 -> Forall P es1 -> Forall P es2 ->
    exists es, added s s2 es /\ Forall P es).
  { intros s1 s2 es1 es2 A1 A2 F1 F2. exists (es1 ++ es2). split; [|apply Forall_app; auto].
    unfold added in *. rewrite A2, A1, app_assoc. reflexivity. }
  destruct H as [SD X _|T zs oz RT LT TM _ _ _ X1 X2 X3|T s1 RT LT TM SL X
                |T zs h1 a1 h hx a2 cap oe o6 RT LT TM ZE CO TR RG HI1 HP1 RW NP ND SL HI HP HPL CAP W X].
  - exists []. split; [|constructor]. unfold added. destruct SD as (_ & _ & _ & _ & _ & L). rewrite L, app_nil_r. reflexivity.
  - eapply MADE, TM.
  - destruct (MADE _ _ TM) as (e1 & A1 & F1). destruct (SEAL _ _ SL) as (e2 & A2 & F2). eapply CAT; eauto.
  - destruct (MADE _ _ TM) as (e1 & A1 & F1). destruct (SEAL _ _ SL) as (e2 & A2 & F2).
    destruct (CAT _ _ _ _ A1 A2 F1 F2) as (e3 & A3 & F3).
    apply wipe_any in W. rewrite HI, HP in W. destruct W as (_ & _ & e4 & L4 & F4).
    eapply CAT; [exact A3|exact L4|exact F3|]. eapply Forall_impl; [|exact F4].
    assert (RT2 : resolve false (fst a2) (temp_path pick s) = Some T).
    { destruct SL as [[T1 [T2 _]] _ _]. eapply (resolve_grown false s (fst a2)); [| |exact RT|].
      - rewrite T1, (tm_nodes _ _ _ _ TM). apply grown_add, LT.
      - rewrite T2. apply (tm_cwd _ _ _ _ TM).
      - discriminate. }
    intros [] Y; cbn [gone_event] in Y; try contradiction; cbn.
    + exact Y.
    + left. exact Y.
    + rewrite RT2 in Y. injection Y as <-. exact LT.
Qed.

Definition main_event (s : sys) (ts : list path) (e : fsev) : Prop :=
  match e with FUnlink q => lookup (s_nodes s) q = None | _ => write_event s ts e end.
Definition mild (s : sys) (ts : list path) (s' : sys) : Prop :=
  exists es, added s s' es /\ Forall (main_event s ts) es.

Lemma ow_mild : forall s ts s', only_writes s ts s' -> mild s ts s'.
Proof.
  intros s ts s' W. destruct (ow_events _ _ _ W) as (es & A & F). exists es. split; [exact A|].
  eapply Forall_impl; [|exact F]. intros [] X; cbn in *; try contradiction; exact X.
Qed.
Lemma mild_refl : forall s ts, mild s ts s.
Proof. intros s ts. apply ow_mild, ow_refl. Qed.
Lemma mild_disk : forall s ts s1 s2, mild s ts s1 -> same_disk s1 s2 -> mild s ts s2.
Proof.
  intros s ts s1 s2 (es & A & F) (_ & _ & _ & _ & _ & L). exists es. split; [|exact F]. unfold added in *. congruence.
Qed.

Lemma pack_main_mild : forall V inputs output p pp a c o c', inodes_ok (disk c) ->
  pack_main V inputs output p pp a c = (o, c') ->
  mild (disk c) (os_path output :: header_targets p) (disk c').
Proof.
  intros V inputs output p pp a c o c' IO H. unfold pack_main in H.
  set (ts := os_path output :: header_targets p). set (s := disk c) in *.
  (* check *)
  unfold bind at 1 in H. destruct (check_or_exit output (cp_force p) c) as [r c0] eqn:CK.
  destruct (check_or_exit_any _ _ _ _ _ CK) as (CA & CT & RES & _).
  assert (S0 : disk c0 = s) by (unfold disk; rewrite CA; reflexivity).
  destruct RES as [<-|[<-|[<-|[]]]]; [|injection H as <- <-; rewrite S0; apply mild_refl..].
  (* inputs *)
  unfold bind at 1 in H. destruct (each (fun f => storage (read_file (os_path f))) inputs c0) as [r1 c1] eqn:E1.
  assert (D1 : same_disk s (disk c1)).
  { rewrite <- S0. eapply each_disk; [|exact E1]. intros x cx ox cx' _. apply read_step. }
  destruct r1 as [fs|e| |]; [|injection H as <- <-; exact (mild_disk _ _ _ _ (mild_refl s ts) D1)..].
  (* key *)
  unfold bind at 1 in H. destruct (get_secret V (cp_key p) Validate c1) as [r2 c2] eqn:GS.
  destruct (get_secret_any _ _ _ _ _ _ GS) as (D2 & _).
  assert (D02 : same_disk s (disk c2)) by (eapply same_disk_trans; eauto).
  destruct r2 as [raw|e| |]; [|injection H as <- <-; exact (mild_disk _ _ _ _ (mild_refl s ts) D02)..].
  (* output *)
  unfold bind at 1 in H. destruct (storage (create_or_write (os_path output)) c2) as [r3 c3] eqn:SC.
  destruct (storage_inv _ _ _ _ SC) as (r & s3 & CW & -> & ->). clear SC.
  assert (I3 : In (os_path output) ts) by (left; reflexivity).
  destruct (ow_create_or_write s ts _ _ _ _ (ow_disk _ _ _ D02) I3 CW) as [W3 MW3].
  assert (RES3 : (exists e, r = Err e) \/ exists ho, r = Ok (EFile ho) /\ h_ino ho < s_next s3).
  { destruct (create_or_write_any _ _ _ _ CW) as [(e & -> & _)|(h & -> & _ & _ & _ & _ & _ & _ & _ & _ & NEW)]; [eauto|].
    right. exists h. split; [reflexivity|]. destruct NEW as [(q & _ & _ & -> & -> & _)|(ST & -> & _)]; [lia|].
    assert (NX : s_next (disk c2) = s_next s) by apply D02. rewrite NX.
    rewrite (stat_disk s (disk c2)) in ST by exact D02. unfold stat in ST.
    destruct (resolve true s (os_path output)) as [r1|]; [|discriminate]. exact (IO _ _ ST). }
  destruct RES3 as [[e ->]|(ho & -> & L3)]; cbn [omap] in H.
  { injection H as <- <-. apply ow_mild; assumption. }
  (* header *)
  unfold bind at 1 in H. destruct (open_header p (set_disk s3 c2)) as [r4 c4] eqn:OH.
  assert (IH : forall h, cp_header p = Some h -> In (os_path h) ts).
  { intros h E. right. unfold header_targets. rewrite E. left. reflexivity. }
  assert (W3' : only_writes s ts (disk (set_disk s3 c2))) by exact W3.
  destruct (open_header_frame s ts _ _ _ _ W3' IH OH) as (W4 & NP4 & ND4 & SOME4 & NONE4 & ER4).
  destruct r4 as [fh|e| |]; [|injection H as <- <-; apply ow_mild; assumption..].
  assert (N34 : s_next s3 <= s_next (disk c4)).
  { assert (IH' : forall h, cp_header p = Some h -> In (os_path h) (header_targets p)).
    { intros h E. unfold header_targets. rewrite E. left. reflexivity. }
    destruct (open_header_frame s3 (header_targets p) p (set_disk s3 c2) _ _ (ow_refl _ _) IH' OH) as (W & _).
    exact (ow_next _ _ _ W). }
  assert (LH : forall x, ok_handle fh = Some x -> h_ino x < s_next (disk c4) /\ may_write s ts (h_ino x)).
  { intros x E. destruct fh as [e|]; [|discriminate]. destruct (SOME4 e eq_refl) as (h & -> & MW & _).
    cbn in E. injection E as <-. split; [|exact MW].
    unfold open_header in OH. destruct (cp_header p) as [hp|] eqn:CHP; [|unfold ret in OH; discriminate].
    unfold bind in OH. destruct (check_or_exit hp (cp_force p) (set_disk s3 c2)) as [rx cx] eqn:CKX.
    destruct (check_or_exit_any _ _ _ _ _ CKX) as (CAX & _ & RX & _).
    destruct RX as [<-|[<-|[<-|[]]]]; try discriminate OH.
    destruct (storage (create_or_write (os_path hp)) cx) as [ry cy] eqn:SY.
    destruct (storage_inv _ _ _ _ SY) as (rz & sy & CWY & -> & ->).
    assert (DX : disk cx = s3) by (unfold disk; rewrite CAX; reflexivity). rewrite DX in CWY.
    destruct (create_or_write_any _ _ _ _ CWY) as [(e & -> & _)|(h' & -> & _ & _ & _ & _ & _ & _ & _ & _ & NEW)];
      cbn [omap] in OH; [discriminate|]. unfold ret in OH. injection OH as -> <-. rewrite set_disk_disk.
    destruct NEW as [(q & _ & _ & -> & -> & _)|(ST & -> & _)]; [lia|].
    pose proof (ow_inodes _ _ _ IO W3) as IO3. unfold stat in ST.
    destruct (resolve true s3 (os_path hp)) as [r1|]; [|discriminate]. exact (IO3 _ _ ST). }
  (* listings *)
  unfold bind at 1 in H.
  destruct (each (fun f => if entry_is_dir f then storage (read_dir f) else ret [f]) fs c4) as [r5 c5] eqn:E5.
  assert (D5 : same_disk (disk c4) (disk c5)).
  { eapply each_disk; [|exact E5]. intros x cx ox cx' _. apply list_step. }
  assert (W5 : only_writes s ts (disk c5)) by (eapply ow_then_disk; eauto).
  destruct r5 as [lists|e| |]; [|injection H as <- <-; apply ow_mild; assumption..].
  unfold bind at 1 in H. cbn [try_handle] in H. unfold ret in H.
  unfold bind at 1 in H. rewrite on_a_run in H.
  assert (NX5 : s_next (disk c5) = s_next (disk c4)) by apply D5.
  match type of H with context [fst (?m (c_a c5))] => set (work := m) in * end.
  assert (SP : forall o6 a6, work (c_a c5) = (o6, a6) -> mild s ts (fst a6)).
  { intros o6 a6 E6. unfold work in E6. clear work H. destruct (same_opt ho (ok_handle fh)).
    - apply ow_mild. destruct (alias_frame _ _ _ _ _ E6) as (T6 & D6 & ES6 & _).
      eapply ow_files; [exact W5|exact T6| |exact D6|exact ES6].
      intros j [<-|[]]. apply MW3. reflexivity.
    - rewrite map_err_run in E6. injection E6 as _ E6.
      rewrite (surjective_pairing (c_a c5)) in E6. fold (disk c5) in E6.
      match type of E6 with snd (?m ?st) = _ => destruct (m st) as [o7 a7] eqn:PE end. cbn [snd] in E6. subst a7.
      assert (GROW : forall q, lookup (s_nodes (disk c5)) q = None -> lookup (s_nodes s) q = None).
      { intros q L5. destruct (ow_nodes _ _ _ W5 q) as [E|(L & _)]; [|exact L]. rewrite <- E. exact L5. }
      unfold pack_execute in PE.
      match type of PE with pack_execute_bs _ _ _ _ ?req _ = _ => set (rq := req) in * end.
      assert (HO : h_ino (pr_out rq) < s_next (disk c5)) by (cbn [rq pr_out]; lia).
      assert (HX : forall x, pr_hdr rq = Some x -> h_ino x < s_next (disk c5)).
      { cbn [rq pr_hdr]. intros x X. destruct (LH x X). lia. }
      assert (B : 0 < BLOCK_SIZE) by (apply Nat.ltb_lt; reflexivity).
      destruct (pack_events _ _ _ _ rq _ _ _ _ B HO HX PE) as (es & AE & FE).
      destruct (ow_mild _ _ _ W5) as (e5 & A5 & F5).
      pose proof (ow_next _ _ _ W5) as NX.
      exists (e5 ++ es). split; [unfold added in *; rewrite AE, A5, app_assoc; reflexivity|].
      apply Forall_app. split; [exact F5|]. eapply Forall_impl; [|exact FE].
      intros [q j|q|j|j off l|q|q] X; cbn [main_event write_event]; try contradiction.
      + lia.
      + left. lia.
      + destruct X as [->|[->|(x & X & ->)]]; [left; lia|apply MW3; reflexivity|apply (LH x X)].
      + apply GROW, X. }
  destruct (work (c_a c5)) as [o6 a6] eqn:E6. specialize (SP _ _ eq_refl). cbn [fst snd] in H.
  destruct o6 as [u|e| |]; [|injection H as <- <-; rewrite set_a_disk; exact SP..].
  unfold bind at 1 in H. destruct (flush_opt fh (set_a a6 c5)) as [r7 c7] eqn:F7.
  destruct (flush_opt_any _ _ _ _ F7) as (D7 & _). rewrite set_a_disk in D7.
  assert (SP7 : mild s ts (disk c7)) by (eapply mild_disk; eauto).
  destruct r7 as [u7|e| |]; [|injection H as <- <-; exact SP7..].
  unfold bind at 1 in H. destruct (storage (flush_file (EFile ho)) c7) as [r8 c8] eqn:F8.
  destruct (storage_inv _ _ _ _ F8) as (r & s8 & FF & -> & ->).
  destruct (flush_file_any _ _ _ _ FF) as (D8 & _).
  assert (SP8 : mild s ts s8) by (eapply mild_disk; eauto).
  destruct r as [u8|e| |]; cbn [omap] in H; [|injection H as <- <-; exact SP8..].
  destruct (cp_hash p).
  - destruct (hash_files_any _ _ _ _ _ H) as (D9 & _). eapply mild_disk; eauto.
  - unfold ret in H. injection H as <- <-. exact SP8.
Qed.


(** ** Cut off before that *)

Lemma mild_cut : forall s ts es es', cut es es' -> Forall (main_event s ts) es -> Forall (main_event s ts) es'.
Proof.
  intros s ts es es' H F. destruct H as [a b|a i p l b n].
  - apply Forall_app in F as [F _]. exact F.
  - apply Forall_app in F as [F G]. apply Forall_app. split; [exact F|]. inversion G as [|? ? G1 _]. constructor; [exact G1|constructor].
Qed.

Lemma mild_kept : forall s ts es, Forall (main_event s ts) es -> forall s1,
  (forall r n, lookup (s_nodes s) r = Some n -> lookup (s_nodes s1) r = Some n) ->
  (forall j, ~ may_write s ts j -> s_data s1 j = s_data s j) ->
  (forall r n, lookup (s_nodes s) r = Some n -> lookup (s_nodes (redo es s1)) r = Some n)
  /\ (forall j, ~ may_write s ts j -> s_data (redo es s1) j = s_data s j).
Proof.
  intros s ts es. induction es as [|e es IH]; intros F s1 N D; [split; assumption|].
  inversion F as [|? ? F1 F2]; subst. cbn [redo fold_left]. apply IH; [exact F2| |].
  - intros r n L. specialize (N r n L). destruct e as [q j|q|j|j off l|q|q]; cbn in F1; try contradiction;
      cbn [redo1 s_nodes names_after]; try exact N.
    + destruct r as [|x r]; [exact N|]. unfold lookup in *. rewrite find_app, N. reflexivity.
    + assert (QN : q <> []) by (intros ->; discriminate).
      rewrite lookup_remove by exact QN. destruct (cpath_eqb r q) eqn:Q; [|exact N].
      apply cpath_eqb_eq in Q. subst. congruence.
  - intros j' NW. rewrite <- (D j' NW). destruct e as [q j|q|j|j off l|q|q]; cbn in F1; try contradiction;
      cbn [redo1 s_data content_after]; try reflexivity;
      (destruct (Nat.eqb_spec j' j); [subst j'; exfalso; apply NW|reflexivity]); [left|..]; exact F1.
Qed.

Lemma mild_killed : forall s ts es es' es1 q, inodes_ok s -> Forall (main_event s ts) es -> shuffled es es' -> cut es' es1 ->
  (forall t i r, In t ts -> stat s t = Some (NFile i) -> inside q r -> lookup (s_nodes s) r <> Some (NFile i)) ->
  unchanged_inside s q (redo es1 s).
Proof.
  intros s ts es es' es1 q IO F SH CU EL r IR NR.
  destruct (mild_kept s ts es1) with (s1 := s) as [N D]; auto.
  { eapply mild_cut; [exact CU|]. eapply shuffled_forall; eauto. }
  unfold at_place in *. destruct (lookup (s_nodes s) r) as [n|] eqn:L; [|congruence]. rewrite (N r n L).
  destruct n as [|i|t]; try reflexivity. rewrite D; [reflexivity|].
  intros [X|(t & IT & ST)]; [specialize (IO _ _ L); lia|]. exact (EL t i r IT ST IR L).
Qed.

(** ** The command *)

Ltac steps := first
  [ apply c_secret | apply c_check | apply c_try | apply c_hash_files | apply c_open_header
  | apply c_flush_opt | apply c_storage, t_read_file | apply c_storage, t_create_or_write
  | apply c_storage, t_flush_file ].
Lemma c_pack_main : forall V, alias_told V -> forall inputs output p pp a, always ct (pack_main V inputs output p pp a).
Proof.
  intros V VA inputs output p pp a. unfold pack_main. go; try steps.
  - apply c_each. intros x. steps.
  - apply c_each. intros x. go. apply c_storage, t_read_dir.
  - apply c_on_a. destruct (same_opt _ _) eqn:EQ; [apply a_alias; exact VA|]. apply (always_map_err at_).
    apply a_pack; [apply ToolProofs.BLOCK_SIZE_pos|exact EQ].
Qed.

Lemma pack_killed : forall V g c o c' output dirs k, alias_told V ->
  env_ok (ce_E V) -> zip_ok (ce_Z V) ->
  tree_ok (disk c) -> no_faults (disk c) -> inodes_ok (disk c) ->
  given g "output" output -> to_pack g (disk c) output dirs ->
  run_command V CmdPack g c = (o, c') -> killed (disk c) (disk c') k ->
  Forall (fun d => unchanged_inside (disk c) (snd d) k) dirs \/ kept_packed V g c output k dirs.
Proof.
  intros V g c o c' output dirs k VA EO ZO TO NF IO GO TP H (es & es1 & es2 & AD & SH & CU & ->).
  destruct (pack_path _ _ _ _ _ _ _ EO ZO TO NF IO GO TP H) as (_ & _ & PP).
  assert (EL : forall d, In d dirs -> forall t i r, In t (write_targets g output) -> stat (disk c) t = Some (NFile i) ->
    inside (snd d) r -> lookup (s_nodes (disk c)) r <> Some (NFile i)).
  { intros d ID t i r IT ST. destruct TP as [_ _ _ _ TO' TH]. unfold write_targets in IT. destruct IT as [<-|IT].
    - rewrite Forall_forall in TO'. apply (proj2 (TO' d ID)). exact ST.
    - destruct (g "header"%string) as [|h l] eqn:GH; [destruct IT|]. destruct IT as [<-|[]].
      assert (GV : given g "header" h) by (unfold given; rewrite GH; eauto).
      destruct (TH h GV) as [_ F]. rewrite Forall_forall in F. apply (proj2 (F d ID)). exact ST. }
  assert (EARLY : forall e e' e'', Forall (main_event (disk c) (write_targets g output)) e -> shuffled e e' -> cut e' e'' ->
    Forall (fun d => unchanged_inside (disk c) (snd d) (redo e'' (disk c))) dirs).
  { intros e e' e'' F S' C'. apply Forall_forall. intros d ID. eapply mild_killed; eauto. }
  destruct PP as [(_ & SD)|(p & pp & a & n & o1 & c1 & PM & HT & RES)].
  { left. eapply EARLY; [|exact SH|exact CU]. replace es with (@nil fsev); [constructor|].
    apply (added_inj (disk c) (disk c')); [|exact AD]. unfold added. destruct SD as (_ & _ & _ & _ & _ & L).
    rewrite L, app_nil_r. reflexivity. }
  assert (ML : mild (disk c) (write_targets g output) (disk c1)).
  { pose proof (pack_main_mild _ _ _ _ _ _ _ _ _ ltac:(rewrite printed_disk; exact IO) PM) as M.
    rewrite printed_disk, HT in M. exact M. }
  destruct ML as (e1 & A1 & F1).
  destruct RES as [(_ & _ & ->)|(_ & PF & KP & KEEP & _)].
  { left. eapply EARLY; [|exact SH|exact CU]. rewrite (added_inj _ _ _ _ AD A1). exact F1. }
  assert (T1 : told (disk c) (disk c1)).
  { rewrite <- (printed_disk n c). exact (c_pack_main V VA _ _ _ _ _ _ _ _ PM). }
  assert (TK : takes (disk c1) (disk c') /\ told (disk c1) (disk c')).
  { unfold pack_finish in PF. destruct (pp_erase pp).
    - split.
      + apply (kc_each (fun f => secure_erase V f 1%Z (cp_force p)) (g "input"%string) (fun x => kc_secure_erase V x 1%Z (cp_force p)) _ _ _ PF).
      + apply (c_each_ (fun f => secure_erase V f 1%Z (cp_force p)) (g "input"%string) (fun x => c_secure_erase V x 1%Z (cp_force p)) _ _ _ PF).
    - unfold ret in PF. injection PF as _ <-. split; [apply takes_refl|apply told_refl]. }
  destruct TK as [((e2 & A2 & F2) & _) (e2' & SF2)].
  assert (e2' = e2).
  { apply (added_inj (disk c1) (disk c')); [|exact A2]. destruct SF2 as (_ & _ & _ & _ & _ & L). unfold added. rewrite L, redo_log. reflexivity. }
  subst e2'.
  assert (ES : es = e1 ++ e2).
  { apply (added_inj (disk c) (disk c')); [exact AD|]. unfold added in *. rewrite A2, A1, app_assoc. reflexivity. }
  assert (NW : Forall no_write e2).
  { eapply Forall_impl; [|exact F2]. intros [] X; cbn in X |- *; first [exact I|exact X]. }
  destruct (shuffled_split _ _ SH _ _ ES NW) as (e1' & -> & SH1).
  destruct (cut_split _ _ _ CU NW) as [C1|(x & y & -> & ->)].
  { left. eapply EARLY; [exact F1|exact SH1|exact C1]. }
  right.
  assert (STEP : forall t q j l, In t (write_targets g output) -> resolve true (disk c) t = Some q ->
    at_place (disk c') q = Some (SFile j l) -> at_place (redo (e1' ++ x) (disk c)) q = Some (SFile j l)).
  { intros t q j l IT R AT. apply Forall_app in F2 as [FX FY].
    pose proof AT as AT1. rewrite (KEEP t q IT R) in AT1.
    rewrite (alike_place _ _ q (alike_files _ _ SF2)) in AT.
    pose proof (take_between _ _ _ _ _ _ FX FY AT1 AT) as AX.
    rewrite <- AX, redo_app. apply alike_place, redo_alike.
    destruct T1 as (e1x & SF1).
    assert (e1x = e1).
    { apply (added_inj (disk c) (disk c1)); [|exact A1]. destruct SF1 as (_ & _ & _ & _ & _ & L). unfold added. rewrite L, redo_log. reflexivity. }
    subst e1x.
    eapply alike_trans; [|apply shuffled_alike, SH1].
    apply alike_files in SF1. destruct SF1 as (S1 & S2 & S3 & S4 & S5). repeat split; symmetry; auto. }
  destruct KP as (raw & qo & i & archive & KT & RO & AO & G).
  exists raw, qo, i, archive. split; [exact KT|]. split; [exact RO|].
  split; [eapply STEP; [left; reflexivity|exact RO|exact AO]|].
  destruct (g "header"%string) as [|h l] eqn:GH; [exact G|].
  destruct G as (qh & j & hdr & RH & AH & U). exists qh, j, hdr. split; [exact RH|]. split; [|exact U].
  eapply STEP; [|exact RH|exact AH]. unfold write_targets. rewrite GH. right. left. reflexivity.
Qed.
