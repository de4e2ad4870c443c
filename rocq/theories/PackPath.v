(** Packing a directory and unpacking the archive, both by path. *)
From Coq Require Import List Arith NArith ZArith Ascii String Bool Lia.
From Verif Require Import Bytes Outcome IO Primitives Crypto Header Stream KeyModel EncDec Overwrite Hash FS Erase Archive.
From Verif Require Import BytesFacts IOSpec IOFacts ToolProofs FileFacts FileProofs.
From Verif Require Import FSSpec FSFacts EraseProofs EraseDirProofs EraseSched ArchiveSpec ArchiveWalk ArchiveProofs.
From Verif Require Import WorldFrames UnpackProofs PackProofs ArchiveResults.
From Verif Require Import RestoreSpec RestoreNames RestoreDirs RestoreFiles RestorePack RestoreManySpec RestoreProofs EraseMany.
From Verif Require Import Cli CliSpec CliKeys CliRuns CliCommands CliProofs CliPack CliTools CliToolsSpec CliToolsRuns CliToolsUnpack.
From Verif Require Import PackPathSpec.
Import ListNotations.
Local Open Scope nat_scope.
Local Open Scope list_scope.
Strategy 1000 [walk MAX_LINKS resolve].

(** ** Unpacking *)

(** Nothing goes wrong before the archive is opened. *)
Lemma unpack_cli_ready : forall V input p c i hdr raw t,
  no_faults (disk c) -> stat (disk c) (os_path input) = Some (NFile i) ->
  header_file (disk c) (cp_header p) hdr -> cp_hash p = false -> yields V c (cp_key p) Direct raw t ->
  exists c1 hh, ready V input p c c1 (mkHandle (os_path input) i 0 []) hh raw
  /\ match hh, hdr with
     | None, None => True
     | Some h, Some l => exists p' j, h = mkHandle p' j 0 [] /\ stat (disk c) p' = Some (NFile j) /\ s_data (disk c) j = l
     | _, _ => False
     end
  /\ forall sched output verbose o c', unpack_cli (with_sched sched V) input output verbose p c = (o, c') ->
       exists r a2, unpack_execute (ce_E V) (ce_Z V) (ce_pick V) sched
         (mkUnpackReq (mkHandle (os_path input) i 0 []) hh raw (parse_path output)
            (ask_user V (cp_force p) verbose c1)) (c_a c1) = (r, a2)
       /\ o = omap TUnpack r /\ disk c' = fst a2.
Proof.
  intros V input p c i hdr raw t NF ST HF HH Y.
  assert (RFF : forall p' j, stat (disk c) p' = Some (NFile j) ->
    read_file p' (disk c) = (Ok (EFile (mkHandle p' j 0 [])), disk c)).
  { intros p' j ST'. destruct (read_file p' (disk c)) as [r1 s1] eqn:RF.
    destruct (read_file_any _ _ _ _ RF) as (_ & C1 & R1). specialize (C1 NF). subst s1. f_equal.
    destruct R1 as [[_ X]|[(j' & plan & -> & X & PL)|[_ X]]].
    - congruence.
    - rewrite (PL NF). congruence.
    - destruct (X NF _ ST') as (x & E). discriminate. }
  assert (SD : set_disk (disk c) c = c).
  { destruct c as [[s tr] a b d]. reflexivity. }
  assert (RH : exists hh, read_header p c = (Ok (option_map EFile hh), c)
    /\ match hh, hdr with
     | None, None => True
     | Some h, Some l => exists p' j, h = mkHandle p' j 0 [] /\ stat (disk c) p' = Some (NFile j) /\ s_data (disk c) j = l
     | _, _ => False
     end
    /\ match cp_header p with
      | None => hh = None
      | Some hp => hh = None \/ exists j plan, hh = Some (mkHandle (os_path hp) j 0 plan)
        /\ stat (disk c) (os_path hp) = Some (NFile j) /\ (no_faults (disk c) -> plan = [])
      end).
  { unfold header_file in HF. unfold read_header. destruct (cp_header p) as [hp|], hdr as [l|]; try contradiction.
    - destruct HF as (j & SJ & DJ). exists (Some (mkHandle (os_path hp) j 0 [])).
      unfold bind. rewrite storage_run, (RFF _ _ SJ). cbn [fst snd omap]. rewrite SD. split; [reflexivity|].
      split; [eauto|]. right. exists j, []. auto.
    - exists None. auto. }
  destruct RH as (hh & RH & HX & HC).
  destruct (get_secret V (cp_key p) Direct c) as [r3 c3] eqn:GS.
  destruct (get_secret_ok _ _ _ _ _ _ NF Y) as (c3' & GS' & _). rewrite GS in GS'. injection GS' as -> <-.
  exists c3, hh.
  split; [|split; [exact HX|]].
  - destruct (get_secret_any _ _ _ _ _ _ GS) as (D3 & T3 & C3 & _).
    destruct (get_secret_rest _ _ _ _ _ _ GS) as (RN3 & I3).
    constructor; auto.
    + apply (I3 []).
    + exists i, []. auto.
    + exists t. exact Y.
  - intros sched output verbose o c' H. unfold unpack_cli in H.
    unfold bind at 1, up at 1 in H. rewrite map_err_run, storage_run, (RFF _ _ ST) in H. cbn [fst snd omap] in H.
    rewrite SD in H. unfold bind at 1, up at 1 in H. rewrite map_err_run in H.
    rewrite RH in H. cbn [fst snd omap] in H.
    unfold bind at 1, up at 1 in H. rewrite map_err_run in H.
    change (get_secret (with_sched sched V)) with (get_secret V) in H. rewrite GS in H. cbn [fst snd omap] in H.
    unfold bind at 1, up at 1 in H. rewrite map_err_run in H. cbn [try_handle] in H. unfold ret in H.
    replace (ok_handle (option_map EFile hh)) with hh in H by (destruct hh; reflexivity).
    cbn [fst snd omap] in H. cbv beta in H.
    unfold bind at 1 in H. rewrite on_a_run, map_err_run in H.
    change (ask_user (with_sched sched V)) with (ask_user V) in H.
    cbn [with_sched ce_E ce_Z ce_pick ce_sched] in H.
    match type of H with context [unpack_execute ?a ?b ?d ?e ?f ?g] => destruct (unpack_execute a b d e f g) as [r a2] eqn:UX end.
    exists r, a2. split; [reflexivity|]. cbn [fst snd] in H. rewrite HH in H.
    destruct r as [[]|e| |]; cbn [omap] in *; injection H as <- <-; split; reflexivity.
Qed.

(** The user is asked about nothing where there is room. *)
Lemma nothing_asked : forall s force verbose ps c,
  (forall p, In p ps -> file_name p <> None /\ exists_path s p = false) ->
  exists c', zip_questions s force verbose ps c = (Ok (map (fun _ => true) ps), c').
Proof.
  intros s force verbose ps. induction ps as [|p ps IH]; intros c H; cbn [zip_questions map].
  - unfold ret. eauto.
  - destruct (H p (or_introl eq_refl)) as [FN EX]. destruct (file_name p) as [name|]; [|congruence].
    rewrite EX. unfold bind at 1. unfold ret at 1. cbv iota beta.
    destruct (note_run true verbose c) as (c2 & Y & _). cbv iota in Y. unfold bind at 1. rewrite Y.
    destruct (IH c2) as (c3 & Z); [intros q I; apply H; right; exact I|].
    unfold bind. rewrite Z. unfold ret. eauto.
Qed.

Lemma room_unasked : forall s dirs s2 o q0 names temp (t : item),
  tree_ok s2 -> Forall (packable_dir s) dirs -> In (fst t) dirs ->
  room_for s2 o q0 names (given_names (fst t)) temp ->
  forall T s3, resolve false s2 temp = Some T -> lookup (s_nodes s2) T = None ->
  s_cwd s3 = s_cwd s2 -> s_nodes s3 = s_nodes s2 ++ [(T, NFile (s_next s2))] ->
  let x := mkPath (p_abs o) (p_comps o ++ p_comps (ip t) ++ map Nm (ir t)) in
  file_name x <> None /\ exists_path s3 x = false.
Proof.
  intros s dirs s2 o q0 names temp t T2 PD IT RF T s3 RT LT CW NN x.
  destruct RF as [NEO [c0 [PO BASE]] DIR0 WAY FREE2 [T' [RTT [_ [TW TI]]]]].
  assert (T' = T) by congruence. subst T'.
  pose proof (front_final s dirs PD t IT) as FF. pose proof (front_names s dirs PD t IT) as FN. unfold root in FN.
  assert (XE : p_comps x = c0 ++ (map Nm names ++ front t) ++ [Nm (final t)]).
  { unfold x. cbn [p_comps]. rewrite FF, PO, <- !app_assoc. reflexivity. }
  set (rt := given_names (fst t)) in *.
  split.
  - unfold file_name. rewrite XE, app_assoc, filter_app, rev_app_distr. cbn. discriminate.
  - assert (G : grown (s_nodes s2) (s_nodes s3)) by (rewrite NN; apply grown_add, LT).
    assert (L3 : forall r, r <> T -> lookup (s_nodes s3) r = lookup (s_nodes s2) r).
    { intros r N. rewrite NN, lookup_add by exact LT. apply cpath_eqb_neq in N. rewrite N. reflexivity. }
    assert (TF : forall b, lookup (s_nodes s3) ((q0 ++ names ++ rt) ++ b) = None).
    { intros b. rewrite L3.
      - apply (target_free [fst t] s2 q0 names T2); [|left; reflexivity]. intros d [<-|[]]. exact FREE2.
      - intros E. apply TI. exists b. symmetry. exact E. }
    assert (B3 : resolve true s3 (mkPath (p_abs o) c0) = Some q0)
      by (eapply resolve_grown_some; [exact G|exact CW|exact BASE|exact DIR0]).
    unfold exists_path, stat. destruct (resolve true s3 x) as [y|] eqn:RX; [|reflexivity].
    rewrite resolve_eq in B3, RX. rewrite XE in RX.
    change (start s3 x) with (start s3 (mkPath (p_abs o) c0)) in RX. cbn [p_comps] in B3.
    edestruct (walk_app (s_nodes s3) true ((map Nm names ++ front t) ++ [Nm (final t)])) as (l' & _ & W);
      [exact B3|exact (G _ _ DIR0)|intros E; apply app_eq_nil in E; destruct E; discriminate|].
    rewrite W in RX. apply walk_plain_inv in RX.
    + destruct RX as [-> _]. rewrite nm_app, nm_names, <- !app_assoc, FN.
      replace (q0 ++ names ++ rt ++ ir t) with ((q0 ++ names ++ rt) ++ ir t)
        by (rewrite <- !app_assoc; reflexivity).
      rewrite TF. reflexivity.
    + apply Forall_app. split; [apply plain_names|apply (front_plain s dirs PD t IT)].
    + intros a b target E NA LK.
      rewrite nm_app, nm_names, <- !app_assoc, FN, app_assoc in E.
      destruct (prefix_cases _ _ _ _ (eq_sym E)) as [[z [Z1 Z2]]|[z [Z1 [Z2 Z3]]]].
      * subst a. rewrite app_assoc, TF in LK. discriminate.
      * destruct (list_eq_dec string_dec (q0 ++ a) T) as [ET|NT].
        { apply TW. exists a, z. auto. }
        rewrite (L3 _ NT) in LK. destruct (WAY a z Z1 Z3); congruence.
Qed.

Lemma room_disk : forall s s' o q0 names root t, same_disk s s' ->
  room_for s o q0 names root t -> room_for s' o q0 names root t.
Proof.
  intros s s' o q0 names root t SD [A [c0 [B C]] D F G [T [H1 [H2 [H3 H4]]]]].
  pose proof SD as (N1 & _). constructor; rewrite ?N1; auto.
  - exists c0. split; [exact B|]. rewrite (FSFacts.resolve_disk _ _ _ _ SD). exact C.
  - exists T. rewrite (FSFacts.resolve_disk _ _ _ _ SD). auto.
Qed.

(** What the round trip of the library gives, for unpacking by path. *)
Lemma unpacks_by_path : forall E Z raw archive hdr s7 s dirs,
  Forall (packable_dir s7) dirs -> dirs <> [] ->
  (forall d, In d dirs -> forall rel, same_thing (at_place s (snd d ++ rel)) (at_place s7 (snd d ++ rel))) ->
  (forall pick2 s2 ureq q0 names tr2,
   tree_ok s2 -> no_faults s2 -> ur_raw_key ureq = raw ->
   (let ps := map (fun t => mkPath (p_abs (ur_out ureq)) (p_comps (ur_out ureq) ++ p_comps (ip t) ++ map Nm (ir t)))
                 (items s7 dirs) in ur_ask ureq ps = Some (map (fun _ => true) ps)) ->
   h_ino (ur_in ureq) < s_next s2 -> h_plan (ur_in ureq) = [] -> h_pos (ur_in ureq) = 0 ->
   s_data s2 (h_ino (ur_in ureq)) = archive ->
   match ur_hdr ureq, hdr with
   | None, None => True
   | Some hu, Some l => h_ino hu < s_next s2 /\ h_plan hu = [] /\ h_pos hu = 0 /\ s_data s2 (h_ino hu) = l
   | _, _ => False
   end ->
   Forall (fun d => room_for s2 (ur_out ureq) q0 names (given_names d) (temp_path pick2 s2)) dirs ->
   exists n, forall sched r a',
   unpack_execute_bs E Z pick2 BLOCK_SIZE sched ureq (s2, tr2) = (r, a') ->
   (r = Ok tt /\ Forall (fun d => copied s7 (snd d) (fst a') (q0 ++ names ++ given_names d)) dirs)
   \/ (r = Diverge /\ exists k, k <= n /\ turns sched k < n)) ->
  unpacks_to E Z raw archive hdr s dirs.
Proof.
  intros E Z raw archive hdr s7 s dirs PD NED SAME RT V input output verbose cp c i q0 names t <- <- T2 NF2 IO2 ST DA HF HH Y RF.
  destruct (unpack_cli_ready _ _ _ _ _ _ _ _ NF2 ST HF HH Y) as (c1 & hh & RD & HX & RUN).
  pose proof (rd_disk _ _ _ _ _ _ _ _ RD) as SD. pose proof SD as (N1 & D1 & X1 & W1 & T1 & L1).
  pose proof (rd_calm _ _ _ _ _ _ _ _ RD NF2) as NF1. pose proof (rd_rng _ _ _ _ _ _ _ _ RD) as RN.
  assert (TP : temp_path (ce_pick V) (disk c1) = temp_path (ce_pick V) (disk c)) by (unfold temp_path; rewrite T1, RN; reflexivity).
  assert (RF1 : Forall (fun d => room_for (disk c1) (parse_path output) q0 names (given_names d) (temp_path (ce_pick V) (disk c1))) dirs).
  { eapply Forall_impl; [|exact RF]. intros d R. rewrite TP. eapply room_disk; eauto. }
  set (ureq := mkUnpackReq (mkHandle (os_path input) i 0 []) hh raw (parse_path output)
            (ask_user V (cp_force cp) verbose c1)).
  assert (INO : forall p' j, stat (disk c) p' = Some (NFile j) -> j < s_next (disk c1)).
  { intros p' j S. rewrite X1. unfold stat in S. destruct (resolve true (disk c) p') as [x|]; [|discriminate]. exact (IO2 _ _ S). }
  destruct (RT (ce_pick V) (disk c1) ureq q0 names (snd (c_a c1))) as (n & RES); cbn [ureq ur_hdr ur_raw_key ur_in ur_out h_ino h_plan h_pos];
    auto.
  - eapply tree_disk; eauto.
  - cbn [ur_ask]. cbv zeta. match goal with |- context [map (fun _ => true) ?x] => set (ps := x) end. unfold ureq. cbn [ur_ask]. unfold ask_user.
    assert (TM : exists T, resolve false (disk c1) (temp_path (ce_pick V) (disk c1)) = Some T /\ lookup (s_nodes (disk c1)) T = None).
    { clear - RF1 NED. destruct dirs as [|d l]; [congruence|]. apply Forall_inv in RF1.
      destruct RF1 as [_ _ _ _ _ [T [A [B _]]]]. eauto. }
    destruct TM as (T & RTT & LT).
    destruct (create_temp_calm (ce_pick V) (disk c1) T NF1 RTT LT) as (s3 & CT & TM & _).
    change (fst (c_a c1)) with (disk c1). rewrite CT. cbn [snd].
    destruct (nothing_asked s3 (cp_force cp) verbose ps c1) as (c3 & Q).
    { intros x I. unfold ps in I. apply in_map_iff in I. destruct I as (it & <- & I). apply in_items in I. destruct I as [I _].
      rewrite Forall_forall in RF1.
      eapply (room_unasked s7 dirs (disk c1) (parse_path output) q0 names _ it (tree_disk _ _ SD T2) PD I (RF1 _ I) T s3 RTT LT).
      - apply (tm_cwd _ _ _ _ TM).
      - apply (tm_nodes _ _ _ _ TM). }
    rewrite Q. reflexivity.
  - eapply INO, ST.
  - rewrite D1. exact DA.
  - destruct hh as [h|], hdr as [l|]; try contradiction; [|exact I].
    destruct HX as (p' & j & -> & SJ & DJ). cbn [h_ino h_plan h_pos]. rewrite D1. split; [eapply INO, SJ|]. auto.
  - exists n. intros sched o c' H. destruct (RUN _ _ _ _ _ H) as (r & a2 & UX & -> & DC).
    fold ureq in UX. unfold unpack_execute in UX. rewrite (surjective_pairing (c_a c1)) in UX.
    destruct (RES _ _ _ UX) as [[-> CP]|[-> K]]; [left|right; split; [reflexivity|exact K]].
    split; [reflexivity|]. rewrite Forall_forall in CP. apply Forall_forall. intros d ID. specialize (CP d ID).
    intros rel. rewrite DC. specialize (CP rel). specialize (SAME d ID rel).
    revert CP SAME. generalize (at_place s7 (snd d ++ rel)), (at_place s (snd d ++ rel)),
      (at_place (fst a2) ((q0 ++ names ++ given_names d) ++ rel)).
    clear. intros a b d. destruct a as [[]|], b as [[]|], d as [[]|]; cbn; intuition congruence.
Qed.

(** ** Packing *)

Lemma wipe_calm_frame : forall h cap passes s T i o s', no_faults s -> h_plan h = [] ->
  resolve false s (h_path h) = Some T -> lookup (s_nodes s) T = Some (NFile i) ->
  wipe_temp h cap passes s = (o, s') ->
  no_faults s' /\ s_cwd s' = s_cwd s /\ s_next s' = s_next s /\ s_nodes s' = remove_node (s_nodes s) T
  /\ forall j, j <> h_ino h -> s_data s' j = s_data s j.
Proof.
  intros h cap passes s T i o s' NF HP RT LT W.
  destruct (wipe_calm h cap passes s T i NF HP RT LT) as (s2 & cs & W2 & WN & _).
  rewrite W in W2. injection W2 as -> <-. pose proof (wipe_any _ _ _ _ _ _ W) as [WD _].
  assert (X : no_faults s' /\ s_cwd s' = s_cwd s /\ s_next s' = s_next s); [|tauto].
  clear WN WD. destruct NF as [N1 N2]. unfold wipe_temp in W.
  destruct (run_handle (overwrite_execute cap passes) h s) as [[o1 h1] s1] eqn:RH.
  apply run_handle_tree in RH. destruct RH as [[T1 [T2 [T3 [T4 [T5 T6]]]]] [I1 [P1 _]]].
  assert (Y : quiet (run (remove_file (EFile h1))) s1 = (Ok tt, s')).
  { destruct o1; try discriminate W; exact W. }
  clear W. unfold quiet, remove_file in Y. rewrite !run_bind, !run_atom in Y. unfold truncate in Y.
  rewrite call_or_calm in Y by congruence. rewrite run_atom in Y. unfold flush in Y.
  rewrite call_or_calm in Y by (cbn; congruence). rewrite run_atom in Y. unfold unlink in Y.
  rewrite call_or_calm in Y by (cbn; congruence). cbn [entry_path] in Y. rewrite P1, I1 in Y.
  rewrite (resolve_nodes false s (with_data (h_ino h) [] [FTrunc (h_ino h)] s1)) in Y by (cbn; congruence).
  rewrite RT in Y. cbn [with_data s_nodes] in Y. rewrite T1, LT in Y. injection Y as <-.
  unfold no_faults. cbn [with_nodes with_data s_faults s_plans s_cwd s_next]. repeat split; congruence.
Qed.

Lemma remove_added : forall ns T i, lookup ns T = None -> T <> [] -> remove_node (ns ++ [(T, NFile i)]) T = ns.
Proof.
  intros ns T i L N. unfold remove_node. rewrite filter_app. cbn [filter fst].
  rewrite cpath_eqb_refl. cbn [negb app]. rewrite app_nil_r.
  unfold lookup in L. destruct T as [|x T]; [congruence|]. clear N.
  induction ns as [|[k v] ns IH]; [reflexivity|]. cbn [find_node] in L. cbn [filter fst].
  destruct (cpath_eqb (x :: T) k) eqn:E; [discriminate|]. cbn [negb]. f_equal. apply IH. exact L.
Qed.

(** After packing, when no call fails. *)
Lemma pack_after : forall E Z pick bs req s tr a', 0 < bs -> h_ino (pr_out req) < s_next s ->
  (forall x, pr_hdr req = Some x -> h_ino x < s_next s) -> no_faults s ->
  pack_execute_bs E Z pick bs req (s, tr) = (Ok tt, a') ->
  s_nodes (fst a') = s_nodes s /\ s_cwd (fst a') = s_cwd s /\ no_faults (fst a').
Proof.
  intros E Z pick bs req s tr a' BS HO HN NF H.
  apply pack_stages in H; [|exact BS|exact HO|exact HN].
  destruct H as [SD X _|T zs oz RT LT TM _ _ _ X1 X2 X3|T s1 RT LT TM SL X
                |T zs h1 a1 h hx a2 cap oe o6 RT LT TM ZE CO TR RG HI1 HP1 RW NP ND SL HI HP HPL CAP W X].
  - discriminate.
  - contradiction.
  - destruct X; discriminate.
  - destruct SL as [[T1 [T2 [T3 [T4 [T5 T6]]]]] SD [es [SL FS]]].
    assert (N2 : no_faults (fst a2)).
    { destruct (tm_calm _ _ _ _ TM NF). split; congruence. }
    assert (R2 : resolve false (fst a2) (h_path h) = Some T).
    { rewrite HP. eapply (resolve_grown false s (fst a2)); [| |exact RT|].
      - rewrite T1, (tm_nodes _ _ _ _ TM). apply grown_add, LT.
      - rewrite T2. apply (tm_cwd _ _ _ _ TM).
      - discriminate. }
    assert (L2 : lookup (s_nodes (fst a2)) T = Some (NFile (s_next s))).
    { rewrite T1, (tm_nodes _ _ _ _ TM), lookup_add, cpath_eqb_refl by exact LT. reflexivity. }
    destruct (wipe_calm_frame _ _ _ _ _ _ _ _ N2 (HPL NF) R2 L2 W) as (WF & WC & WX & WN & WD).
    split; [|split; [|exact WF]].
    + rewrite WN, T1, (tm_nodes _ _ _ _ TM). apply remove_added; [exact LT|]. intros ->. discriminate LT.
    + rewrite WC, T2. apply (tm_cwd _ _ _ _ TM).
Qed.

(** What [pack_main] does after the files to write have been made. *)
Definition pack_rest (V : cenv) (input_files : list entry) (output : string) (p : crypto_params)
  (pp : pack_params) (a : algorithm) (raw_key : bytes) (fo : entry) (fh : option entry) : M cli cli_error unit :=
  lists <- each (fun f => if entry_is_dir f then storage (read_dir f) else ret [f]) input_files ;;
  ho <- try_handle fo ;;
  on_a (if same_opt ho (ok_handle fh) then alias V [h_ino ho] else
        map_err CPack
          (pack_execute (ce_E V) (ce_Z V) (ce_pick V)
             (mkPackReq ho (ok_handle fh) (List.concat lists) (pp_compression pp) raw_key
                        (mkHT V5 a StreamMode) (cp_hashing p)))) ;;
  flush_opt fh ;;
  storage (flush_file fo) ;;
  (if cp_hash p then hash_files V [output] else ret tt).

Record pack_begun (V : cenv) (output : string) (p : crypto_params) (c : cli) (raw : bytes) (ho : handle)
  (fh : option handle) (s4 s5 s7 : sys) : Prop := {
  pb_key : exists c0 t, c_a c0 = c_a c /\ c_tty c0 = c_tty c
    /\ (exists_path (disk c) (os_path output) = false -> c_stdin c0 = c_stdin c)
    /\ yields V c0 (cp_key p) Validate raw t;
  pb_start : same_disk (disk c) s4 /\ (no_faults (disk c) -> no_faults s4);
  pb_secret : exists c0 c2, disk c0 = disk c /\ get_secret V (cp_key p) Validate c0 = (Ok raw, c2) /\ s4 = disk c2;
  pb_output : create_or_write (os_path output) s4 = (Ok (EFile ho), s5);
  pb_header : match cp_header p with
    | None => fh = None /\ s7 = s5
    | Some h => exists hh, fh = Some hh /\ create_or_write (os_path h) s5 = (Ok (EFile hh), s7)
    end
}.

Lemma each_calm : forall {A B} (f : A -> M cli cli_error B) (h : A -> B) l c,
  (forall x, In x l -> f x c = (Ok (h x), c)) -> each f l c = (Ok (map h l), c).
Proof.
  intros A B f h l c. induction l as [|x r IH]; intros F; cbn [each map]; [reflexivity|].
  unfold bind. rewrite (F x (or_introl eq_refl)), IH; [reflexivity|]. intros y I. apply F. right. exact I.
Qed.

Lemma pack_main_begun : forall V inputs output p pp a c c',
  (forall f, In f inputs -> stat (disk c) (os_path f) = Some NDir) ->
  pack_main V inputs output p pp a c = (Ok tt, c') ->
  exists raw ho fh s4 s5 c7, pack_begun V output p c raw ho fh s4 s5 (disk c7)
    /\ pack_rest V (map (fun f => EDir (os_path f)) inputs) output p pp a raw (EFile ho) (option_map EFile fh) c7
       = (Ok tt, c').
Proof.
  intros V inputs output p pp a c c' ST H. unfold pack_main in H.
  unfold bind at 1 in H. destruct (check_or_exit output (cp_force p) c) as [r c0] eqn:CK.
  destruct (check_or_exit_any _ _ _ _ _ CK) as (CA & CT & RES & FREE).
  assert (S0 : disk c0 = disk c) by (unfold disk; rewrite CA; reflexivity).
  destruct RES as [<-|[<-|[<-|[]]]]; try discriminate H.
  unfold bind at 1 in H.
  rewrite (each_calm _ (fun f => EDir (os_path f)) inputs c0) in H.
  2:{ intros f I. rewrite storage_run.
      assert (RF : read_file (os_path f) (disk c0) = (Ok (EDir (os_path f)), disk c0)).
      { unfold read_file, is_dir. rewrite S0, (ST f I). reflexivity. }
      rewrite RF. cbn [fst snd omap]. destruct c0 as [[x y] z w v]. reflexivity. }
  unfold bind at 1 in H. destruct (get_secret V (cp_key p) Validate c0) as [r2 c2] eqn:GS.
  destruct (get_secret_any _ _ _ _ _ _ GS) as (D2 & _ & C2 & _ & _ & Y2 & _).
  destruct r2 as [raw|e| |]; try discriminate H.
  unfold bind at 1 in H. destruct (storage (create_or_write (os_path output)) c2) as [r3 c3] eqn:SC.
  destruct (storage_inv _ _ _ _ SC) as (r & s5 & CW & -> & ->). clear SC.
  destruct r as [eo|e| |]; cbn [omap] in H; try discriminate H.
  assert (HO : exists ho, eo = EFile ho).
  { destruct (create_or_write_any _ _ _ _ CW) as [(e & X & _)|(h & X & _)]; [discriminate|]. exists h. congruence. }
  destruct HO as (ho & ->).
  unfold bind at 1 in H. destruct (open_header p (set_disk s5 c2)) as [r4 c7] eqn:OH.
  destruct r4 as [fe|e| |]; try discriminate H.
  assert (X : exists fh, fe = option_map EFile fh /\ match cp_header p with
    | None => fh = None /\ disk c7 = s5
    | Some h => exists hh, fh = Some hh /\ create_or_write (os_path h) s5 = (Ok (EFile hh), disk c7)
    end).
  { clear H. unfold open_header in OH. destruct (cp_header p) as [hp|].
    2:{ unfold ret in OH. injection OH as <- <-. exists None. rewrite set_disk_disk. auto. }
    unfold bind at 1 in OH. destruct (check_or_exit hp (cp_force p) (set_disk s5 c2)) as [r c5] eqn:CK2.
    destruct (check_or_exit_any _ _ _ _ _ CK2) as (CA2 & _ & RES2 & _).
    destruct RES2 as [<-|[<-|[<-|[]]]]; try discriminate OH.
    assert (S5 : disk c5 = s5) by (unfold disk; rewrite CA2; exact (set_disk_disk s5 c2)).
    unfold bind in OH. destruct (storage (create_or_write (os_path hp)) c5) as [r6 c6] eqn:SC.
    destruct (storage_inv _ _ _ _ SC) as (r & s7 & CW2 & -> & ->).
    destruct r as [eh|e| |]; cbn [omap] in OH; try discriminate OH. unfold ret in OH. injection OH as <- <-.
    destruct (create_or_write_any _ _ _ _ CW2) as [(e & X & _)|(h & X & _)]; [discriminate|]. injection X as ->.
    exists (Some h). split; [reflexivity|]. exists h. split; [reflexivity|]. rewrite set_disk_disk, <- S5. exact CW2. }
  destruct X as (fh & -> & HX). exists raw, ho, fh, (disk c2), s5, c7. split.
  - constructor.
    + exists c0, (c_tty c2). split; [exact CA|]. split; [exact CT|]. split.
      * intros X. destruct (FREE X) as [_ ->]. reflexivity.
      * apply Y2. reflexivity.
    + split; [rewrite <- S0; exact D2|intros NF; apply C2; rewrite S0; exact NF].
    + exists c0, c2. split; [exact S0|]. split; [exact GS|reflexivity].
    + exact CW.
    + exact HX.
  - exact H.
Qed.

Lemma flush_calm : forall o c r c', no_faults (disk c) ->
  match o with Some e => storage (flush_file e) | None => ret tt end c = (r, c') -> disk c' = disk c /\ same_disk (disk c) (disk c').
Proof.
  intros [e|] c r c' NF H.
  - destruct (storage_inv _ _ _ _ H) as (x & s8 & FF & -> & ->).
    destruct (flush_file_any _ _ _ _ FF) as (D8 & _ & _ & C8). rewrite set_disk_disk. split; [apply C8, NF|exact D8].
  - unfold ret in H. injection H as <- <-. split; [reflexivity|apply same_disk_refl].
Qed.

Lemma pack_rest_run : forall V inputs output p pp a raw ho fh c7 c' (l : string -> list entry),
  (forall f, In f inputs -> read_dir (EDir (os_path f)) (disk c7) = (Ok (l f), disk c7)) ->
  (forall hh, fh = Some hh -> h_ino hh <> h_ino ho) ->
  pack_rest V (map (fun f => EDir (os_path f)) inputs) output p pp a raw (EFile ho) (option_map EFile fh) c7
    = (Ok tt, c') ->
  exists a6, pack_execute (ce_E V) (ce_Z V) (ce_pick V)
     (mkPackReq ho fh (List.concat (map l inputs)) (pp_compression pp) raw (mkHT V5 a StreamMode) (cp_hashing p))
     (c_a c7) = (Ok tt, a6)
  /\ (no_faults (fst a6) -> same_disk (fst a6) (disk c')).
Proof.
  intros V inputs output p pp a raw ho fh c7 c' l RD NH H. unfold pack_rest in H.
  unfold bind at 1 in H.
  assert (EA : each (fun f => if entry_is_dir f then storage (read_dir f) else ret [f]) (map (fun f => EDir (os_path f)) inputs) c7
    = (Ok (map l inputs), c7)).
  { clear H. induction inputs as [|x r IH]; [reflexivity|]. cbn [map each entry_is_dir].
    unfold bind at 1. rewrite storage_run, (RD x (or_introl eq_refl)). cbn [fst snd omap].
    replace (set_disk (disk c7) c7) with c7 by (destruct c7 as [[? ?] ? ? ?]; reflexivity).
    unfold bind at 1. rewrite IH; [reflexivity|]. intros f I. apply RD. right. exact I. }
  rewrite EA in H. clear EA.
  unfold bind at 1 in H. cbn [try_handle] in H. unfold ret at 1 in H.
  replace (ok_handle (option_map EFile fh)) with fh in H by (destruct fh; reflexivity).
  assert (SO : same_opt ho fh = false).
  { destruct fh as [hh|]; [|reflexivity]. cbn. unfold same_file. apply Nat.eqb_neq.
    specialize (NH hh eq_refl). congruence. }
  rewrite SO in H. unfold bind at 1 in H. rewrite on_a_run, map_err_run in H.
  match type of H with context [pack_execute ?x1 ?x2 ?x3 ?x4 ?x5] => destruct (pack_execute x1 x2 x3 x4 x5) as [o6 a6] eqn:PE end.
  cbn [fst snd] in H. destruct o6 as [[]|e| |]; cbn [omap] in H; try discriminate H.
  exists a6. split; [reflexivity|]. intros N6.
  unfold bind at 1 in H. destruct (flush_opt (option_map EFile fh) (set_a a6 c7)) as [r7 c8] eqn:F7.
  unfold flush_opt in F7. apply flush_calm in F7; [|rewrite set_a_disk; exact N6]. destruct F7 as [S7 D7]. rewrite set_a_disk in *.
  destruct r7 as [u7|e| |]; try discriminate H.
  unfold bind at 1 in H. destruct (storage (flush_file (EFile ho)) c8) as [r8 c9] eqn:F8.
  apply (flush_calm (Some (EFile ho))) in F8; [|rewrite S7; exact N6]. destruct F8 as [S8 D8].
  destruct r8 as [u8|e| |]; try discriminate H.
  rewrite <- S7, <- S8.
  destruct (cp_hash p).
  - destruct (hash_files_any _ _ _ _ _ H) as (D9 & _). exact D9.
  - unfold ret in H. injection H as <-. apply same_disk_refl.
Qed.

(** ** A new file keeps the tree in order *)

Lemma lookup_key : forall t q n, q <> [] -> lookup t q = Some n -> In q (map fst t).
Proof.
  intros t q n N L. unfold lookup in L. destruct q as [|y l]; [congruence|].
  apply find_in in L. apply (in_map fst) in L. exact L.
Qed.

Lemma parent_dir : forall s a n x, tree_ok s -> lookup (s_nodes s) (a ++ [n]) = Some x ->
  lookup (s_nodes s) a = Some NDir.
Proof.
  intros s a n x (_ & _ & P) L. eapply P. eapply lookup_key; [|exact L]. intros E. apply app_eq_nil in E. destruct E. discriminate.
Qed.

Lemma walk_parent : forall s, tree_ok s -> forall l f cur cs r,
  lookup (s_nodes s) cur = Some NDir -> walk l (s_nodes s) f cur cs = Some r ->
  lookup (s_nodes s) r = None -> exists a n, r = a ++ [n] /\ lookup (s_nodes s) a = Some NDir.
Proof.
  intros s TO l f cur cs. revert l cur cs.
  apply (walk_ind (s_nodes s) (fun l cur cs => forall r,
    lookup (s_nodes s) cur = Some NDir -> walk l (s_nodes s) f cur cs = Some r ->
    lookup (s_nodes s) r = None -> exists a n, r = a ++ [n] /\ lookup (s_nodes s) a = Some NDir)).
  - intros l cur r L. rewrite walk_nil. intros W. congruence.
  - intros l cur r IH x L. rewrite walk_cur. apply IH. exact L.
  - intros l cur r IH x L. rewrite walk_up. apply IH.
    destruct cur as [|m cur] using rev_ind; [exact L|]. rewrite removelast_last. eapply parent_dir; eauto.
  - intros l cur m r HD HL x L. rewrite walk_nm.
    destruct (lookup (s_nodes s) (cur ++ [m])) as [[|j|target]|] eqn:LL.
    + apply (HD eq_refl). reflexivity.
    + destruct r; [|discriminate]. intros W. congruence.
    + intros W X.
      assert (W' : (exists l', l = S l' /\ walk l' (s_nodes s) f (if p_abs target then [] else cur) (p_comps target ++ r) = Some x)
                   \/ x = cur ++ [m]).
      { destruct r as [|c r]; [destruct f|].
        - destruct l as [|l]; [discriminate|]. eauto.
        - right. congruence.
        - destruct l as [|l]; [discriminate|]. eauto. }
      destruct W' as [(l' & -> & W')|E]; [|congruence].
      eapply (HL target l' eq_refl eq_refl); [|exact W'|exact X]. destruct (p_abs target); [reflexivity|exact L].
    + destruct r; [|discriminate]. intros W X. injection W as <-. eauto.
Qed.

Lemma tree_add : forall s s' a n i, tree_ok s -> lookup (s_nodes s) a = Some NDir ->
  lookup (s_nodes s) (a ++ [n]) = None -> s_nodes s' = s_nodes s ++ [(a ++ [n], NFile i)] -> tree_ok s'.
Proof.
  intros s s' a n i (ND & NR & P) LA LN E. unfold tree_ok. rewrite E, map_app. cbn [map fst].
  assert (NE : a ++ [n] <> []) by (intros X; apply app_eq_nil in X; destruct X; discriminate).
  assert (NI : ~ In (a ++ [n]) (map fst (s_nodes s))).
  { intros X. apply in_map_iff in X. destruct X as ([k v] & K & I). cbn in K. subst k.
    unfold lookup in LN. destruct (a ++ [n]) as [|y z]; [congruence|]. clear - I LN.
    induction (s_nodes s) as [|[k w] t IH]; [destruct I|]. cbn [find_node] in LN.
    destruct (cpath_eqb (y :: z) k) eqn:C; [discriminate|]. destruct I as [I|I]; [|auto].
    injection I as -> _. rewrite cpath_eqb_refl in C. discriminate. }
  split; [|split].
  - apply (NoDup_Add (a := a ++ [n]) (l := map fst (s_nodes s))); [|split; assumption].
    pose proof (Add_app (a ++ [n]) (map fst (s_nodes s)) []) as X. rewrite app_nil_r in X. exact X.
  - intros I. apply in_app_or in I. destruct I as [I|[I|[]]]; [exact (NR I)|congruence].
  - intros r m I. apply in_app_or in I.
    assert (L : lookup (s_nodes s) r = Some NDir).
    { destruct I as [I|[I|[]]]; [exact (P _ _ I)|]. apply app_inj_tail in I. destruct I as [<- _]. exact LA. }
    rewrite lookup_add by exact LN. destruct (cpath_eqb r (a ++ [n])) eqn:C; [|exact L].
    apply cpath_eqb_eq in C. congruence.
Qed.

(** A relative path that leads to something starts in a directory. *)
Lemma walk_first : forall s l cur cs q n, tree_ok s -> Forall good_comp cs -> names_of cs <> [] ->
  walk l (s_nodes s) true cur cs = Some q -> lookup (s_nodes s) q = Some n ->
  lookup (s_nodes s) cur = Some NDir.
Proof.
  intros s l cur cs q n TO G. induction G as [|c cs GC G IH]; intros N W L; [contradiction|].
  destruct c as [| |m]; [rewrite walk_cur in W; apply IH; assumption|destruct GC|].
  rewrite walk_nm in W. destruct (lookup (s_nodes s) (cur ++ [m])) as [x|] eqn:LL; [eapply parent_dir; eauto|].
  destruct cs; [|discriminate]. congruence.
Qed.

(** What creating the output does to the tree. *)
Lemma output_created : forall (P : Prop) s s4 p ho s5, tree_ok s -> lookup (s_nodes s) (s_cwd s) = Some NDir ->
  inodes_ok s -> same_disk s s4 -> (P -> no_faults s4) ->
  create_or_write p s4 = (Ok (EFile ho), s5) ->
  tree_ok s5 /\ (P -> no_faults s5) /\ only_writes s [p] s5
  /\ h_ino ho < s_next s5 /\ (P -> h_plan ho = []) /\ s_data s5 (h_ino ho) = []
  /\ (exists qo, resolve true s p = Some qo /\ lookup (s_nodes s5) qo = Some (NFile (h_ino ho))
       /\ (lookup (s_nodes s) qo = Some (NFile (h_ino ho)) \/ lookup (s_nodes s) qo = None /\ resolve false s p = Some qo)
       /\ (forall r, r <> qo -> lookup (s_nodes s5) r = lookup (s_nodes s) r)
       /\ (forall r, lookup (s_nodes s) r = Some (NFile (h_ino ho)) -> stat s p = Some (NFile (h_ino ho)))
       /\ forall j, j <> h_ino ho -> s_data s5 j = s_data s j).
Proof.
  intros P s s4 p ho s5 TO CW IO SD NF C.
  destruct (ow_create_or_write s [p] _ _ _ _ (ow_disk _ _ _ SD) (or_introl eq_refl) C) as [W _].
  pose proof SD as (N4 & D4 & X4 & W4 & T4 & L4).
  destruct (create_or_write_any _ _ _ _ C) as [(e & X & _)|(h & X & HP & PO & DE & CW5 & T5 & G5 & D5 & C5 & NEW)]; [discriminate|].
  injection X as <-. assert (NF5 : P -> no_faults s5) by (intros Y; apply C5, NF, Y).
  assert (PL : P -> h_plan ho = []) by (intros Y; apply C5, NF, Y).
  destruct NEW as [(q & R & L & HI & NX & NN & _)|(ST & NX & NN & _)].
  - rewrite (FSFacts.resolve_disk _ _ _ _ SD) in R. rewrite N4, X4 in *.
    assert (PA : exists a n, q = a ++ [n] /\ lookup (s_nodes s) a = Some NDir).
    { rewrite resolve_eq in R. eapply walk_parent; [exact TO| |exact R|exact L].
      unfold start. destruct (p_abs p); [reflexivity|exact CW]. }
    destruct PA as (a & n & -> & LA).
    assert (LQ : lookup (s_nodes s5) (a ++ [n]) = Some (NFile (h_ino ho))).
    { rewrite NN, HI, lookup_add, cpath_eqb_refl by exact L. reflexivity. }
    split; [eapply tree_add; [exact TO|exact LA|exact L|exact NN]|]. split; [exact NF5|]. split; [exact W|].
    split; [lia|]. split; [exact PL|]. split; [exact DE|].
    exists (a ++ [n]). split.
    { rewrite <- (ow_resolve true _ _ _ p W).
      eapply resolve_same; [rewrite (ow_resolve false _ _ _ p W); exact R|exact LQ|discriminate]. }
    split; [exact LQ|]. split; [right; split; [exact L|exact R]|]. split.
    { intros r N. rewrite NN, lookup_add by exact L. apply cpath_eqb_neq in N. rewrite N. reflexivity. }
    split.
    { intros r LR. apply IO in LR. lia. }
    intros j J. rewrite D5 by exact J. now rewrite D4.
  - rewrite (stat_disk _ _ _ SD) in ST. rewrite N4, X4 in *. pose proof ST as ST0.
    unfold stat in ST. destruct (resolve true s p) as [qo|] eqn:R; [|discriminate].
    split; [unfold tree_ok; rewrite NN; exact TO|]. split; [exact NF5|]. split; [exact W|].
    split; [rewrite NX; exact (IO _ _ ST)|]. split; [exact PL|]. split; [exact DE|].
    exists qo. split; [reflexivity|]. rewrite NN. split; [exact ST|]. split; [left; exact ST|].
    split; [auto|]. split; [auto|]. intros j J. rewrite D5 by exact J. now rewrite D4.
Qed.

(** What making the output and the header does. *)
Record made (P : Prop) (s : sys) (output : path) (header : option path) (s7 : sys) (ho : handle) (fh : option handle) (qo : cpath) : Prop := {
  md_tree : tree_ok s7;
  md_calm : P -> no_faults s7;
  md_writes : only_writes s (output :: match header with Some h => [h] | None => [] end) s7;
  md_ino : h_ino ho < s_next s7;
  md_plan : P -> h_plan ho = [];
  md_data : s_data s7 (h_ino ho) = [];
  md_place : resolve true s output = Some qo /\ lookup (s_nodes s7) qo = Some (NFile (h_ino ho));
  md_header : match header, fh with
    | None, None => True
    | Some h, Some hh => h_ino hh < s_next s7 /\ h_ino hh <> h_ino ho /\ (P -> h_plan hh = []) /\ s_data s7 (h_ino hh) = []
        /\ exists qh, resolve true s h = Some qh /\ lookup (s_nodes s7) qh = Some (NFile (h_ino hh))
    | _, _ => False
    end;
  md_inside : forall q, elsewhere s q output -> (forall h, header = Some h -> elsewhere s q h) ->
    ~ inside q qo /\ (forall h qh, header = Some h -> resolve true s h = Some qh -> ~ inside q qh)
    /\ forall r, inside q r -> at_place s7 r = at_place s r /\ lookup (s_nodes s7) r = lookup (s_nodes s) r
         /\ lookup (s_nodes s) r <> Some (NFile (h_ino ho))
         /\ forall hh, fh = Some hh -> lookup (s_nodes s) r <> Some (NFile (h_ino hh));
  md_others : forall r, r <> qo -> (forall h, header = Some h -> resolve true s h <> Some r) ->
    lookup (s_nodes s7) r = lookup (s_nodes s) r
}.

Lemma files_made : forall (P : Prop) s s4 output header ho fh s5 s7, tree_ok s -> lookup (s_nodes s) (s_cwd s) = Some NDir ->
  inodes_ok s -> same_disk s s4 -> (P -> no_faults s4) ->
  create_or_write output s4 = (Ok (EFile ho), s5) ->
  match header with
  | None => fh = None /\ s7 = s5
  | Some h => exists hh, fh = Some hh /\ create_or_write h s5 = (Ok (EFile hh), s7)
  end ->
  (forall h, header = Some h -> different s output h) ->
  exists qo, made P s output header s7 ho fh qo.
Proof.
  intros P s s4 output header ho fh s5 s7 TO CWD IO SD4 NF4 CW HX DIF.
  destruct (output_created P _ _ _ _ _ TO CWD IO SD4 NF4 CW)
    as (TO5 & NF5 & W5 & HI & HP & HD & qo & RQ & LQ & OLD & NO & AL & DA).
  exists qo.
  assert (OUT : forall q, elsewhere s q output -> ~ inside q qo).
  { intros q [EL1 EL2]. destruct OLD as [LO|[LO RO]]; [|exact (EL1 _ RO)].
    intros IN. apply (EL2 (h_ino ho) qo); auto. unfold stat. rewrite RQ. exact LO. }
  assert (OTHER : forall q, elsewhere s q output -> forall r, inside q r -> lookup (s_nodes s) r <> Some (NFile (h_ino ho))).
  { intros q [EL1 EL2] r IR LR. exact (EL2 _ r (AL r LR) IR LR). }
  assert (IN5 : forall q, elsewhere s q output -> forall r, inside q r ->
    at_place s5 r = at_place s r /\ lookup (s_nodes s5) r = lookup (s_nodes s) r).
  { intros q EL r IR. assert (L : lookup (s_nodes s5) r = lookup (s_nodes s) r).
    { apply NO. intros ->. exact (OUT q EL IR). }
    split; [|exact L]. unfold at_place. rewrite L.
    destruct (lookup (s_nodes s) r) as [[|j|t]|] eqn:LR; try reflexivity.
    rewrite DA; [reflexivity|]. intros ->. exact (OTHER q EL r IR LR). }
  destruct header as [h|].
  - destruct HX as (hh & -> & CH).
    assert (CWD5 : lookup (s_nodes s5) (s_cwd s5) = Some NDir).
    { rewrite (ow_cwd _ _ _ W5). destruct (ow_nodes _ _ _ W5 (s_cwd s)) as [E|[E _]]; congruence. }
    assert (IO5 : inodes_ok s5) by (eapply ow_inodes; eauto).
    destruct (output_created P _ _ _ _ _ TO5 CWD5 IO5 (same_disk_refl s5) NF5 CH)
      as (TO7 & NF7 & W7 & HI7 & HP7 & HD7 & qh & RQ7 & LQ7 & OLD7 & NO7 & AL7 & DA7).
    rewrite (ow_resolve true _ _ _ _ W5) in RQ7. specialize (DIF h eq_refl). destruct DIF as [DR DF].
    assert (NQ : qh <> qo) by congruence.
    assert (STH : forall i, lookup (s_nodes s5) qh = Some (NFile i) -> stat s h = Some (NFile i)).
    { intros i X. rewrite (NO _ NQ) in X. unfold stat. rewrite RQ7. exact X. }
    assert (AH : forall r, r <> qo -> lookup (s_nodes s) r = Some (NFile (h_ino hh)) -> stat s h = Some (NFile (h_ino hh))).
    { intros r N LR. rewrite <- (NO _ N) in LR. pose proof (AL7 r LR) as X. apply STH.
      unfold stat in X. rewrite (ow_resolve true _ _ _ _ W5), RQ7 in X. exact X. }
    assert (NI : h_ino hh <> h_ino ho).
    { intros E. pose proof LQ as X. rewrite <- E in X. apply AL7 in X.
      unfold stat in X. rewrite (ow_resolve true _ _ _ _ W5), RQ7 in X.
      pose proof X as X0. rewrite (NO _ NQ), E in X0. apply AL in X0.
      apply (DF _ X0). rewrite <- E. apply STH, X. }
    assert (HOUT : forall q, elsewhere s q h -> ~ inside q qh).
    { intros q [EL1 EL2]. destruct OLD7 as [LO|[LO RO]].
      - intros IN. apply (EL2 (h_ino hh) qh); auto. rewrite <- (NO _ NQ). exact LO.
      - rewrite (ow_resolve false _ _ _ _ W5) in RO. exact (EL1 _ RO). }
    assert (IN7 : forall q, elsewhere s q output -> elsewhere s q h -> forall r, inside q r ->
      at_place s7 r = at_place s r /\ lookup (s_nodes s7) r = lookup (s_nodes s) r
      /\ lookup (s_nodes s) r <> Some (NFile (h_ino hh))).
    { intros q EL ELH r IR. destruct (IN5 q EL r IR) as [A5 L5].
      assert (NR : r <> qo) by (intros ->; exact (OUT q EL IR)).
      assert (NH : lookup (s_nodes s) r <> Some (NFile (h_ino hh))).
      { intros LR. destruct ELH as [_ EL2]. exact (EL2 _ r (AH r NR LR) IR LR). }
      assert (L7 : lookup (s_nodes s7) r = lookup (s_nodes s5) r).
      { apply NO7. intros ->. exact (HOUT q ELH IR). }
      split; [|split; [congruence|exact NH]]. rewrite <- A5. unfold at_place. rewrite L7.
      destruct (lookup (s_nodes s5) r) as [[|j|t]|] eqn:LR; try reflexivity.
      rewrite DA7; [reflexivity|]. intros ->. congruence. }
    constructor; auto.
    + destruct (ow_create_or_write s [output; h] _ _ _ _ (ow_disk _ _ _ SD4) (or_introl eq_refl) CW) as [X _].
      destruct (ow_create_or_write s [output; h] s5 h _ _ X (or_intror (or_introl eq_refl)) CH) as [X' _]. exact X'.
    + pose proof (ow_next _ _ _ W7). lia.
    + rewrite DA7 by congruence. exact HD.
    + split; [exact RQ|]. rewrite NO7 by congruence. exact LQ.
    + do 4 (split; [assumption|]). exists qh. auto.
    + intros q EL ELH. specialize (ELH h eq_refl). split; [apply OUT, EL|]. split.
      * intros h' qh' X R. injection X as <-. replace qh' with qh by congruence. apply HOUT, ELH.
      * intros r IR. destruct (IN7 q EL ELH r IR) as (A & B & C). do 2 (split; [assumption|]).
        split; [exact (OTHER q EL r IR)|]. intros x X. injection X as <-. exact C.
    + intros r N1 N2. rewrite NO7, NO; [reflexivity|exact N1|]. intros ->. exact (N2 h eq_refl RQ7).
  - destruct HX as [-> ->]. constructor; auto.
    intros q EL _. split; [apply OUT, EL|]. split; [discriminate|].
    intros r IR. destruct (IN5 q EL r IR) as (A & B). do 2 (split; [assumption|]).
    split; [exact (OTHER q EL r IR)|discriminate].
Qed.

(** ** The command *)

Lemma reached_inside : forall s p q i, resolve true s p = Some q -> lookup (s_nodes s) q = Some NDir ->
  no_links_inside s q -> reached s p i -> exists r, inside q r /\ lookup (s_nodes s) r = Some (NFile i).
Proof.
  intros s p q i R L NL (rel & ST). unfold stat in ST.
  destruct (resolve true s (sub p rel)) as [r|] eqn:RR; [|discriminate]. exists r. split; [|exact ST].
  destruct rel as [|x rel _] using rev_ind.
  { rewrite sub_nil in RR. exists []. rewrite app_nil_r. congruence. }
  rewrite resolve_eq in R, RR. unfold sub in RR. cbn [p_comps p_abs] in RR.
  change (start s (mkPath (p_abs p) (p_comps p ++ map Nm (rel ++ [x])))) with (start s p) in RR.
  destruct (walk_app (s_nodes s) true (map Nm (rel ++ [x])) _ _ _ _ R L) as (l' & _ & W).
  { intros X. apply map_eq_nil in X. destruct rel; discriminate. }
  rewrite W in RR. rewrite map_app in RR. cbn [map] in RR.
  apply walk_plain_inv in RR.
  - destruct RR as [-> _]. eexists. reflexivity.
  - apply plain_names.
  - intros a b t _ _. apply NL. exists a. reflexivity.
Qed.

(** Erasing the directory, however it ends, leaves what is elsewhere. *)
Lemma erase_after : forall V dir passes force c o c' q r, tree_ok (disk c) ->
  resolve true (disk c) (os_path dir) = Some q -> lookup (s_nodes (disk c)) q = Some NDir ->
  no_links_inside (disk c) q -> ~ inside q r ->
  (forall i, lookup (s_nodes (disk c)) r = Some (NFile i) -> forall x, inside q x -> lookup (s_nodes (disk c)) x <> Some (NFile i)) ->
  (exists i, lookup (s_nodes (disk c)) r = Some (NFile i)) ->
  secure_erase V dir passes force c = (o, c') -> at_place (disk c') r = at_place (disk c) r.
Proof.
  intros V dir passes force c o c' q r TO R L NL NI AP (i & LR) H.
  assert (ST : stat (disk c) (os_path dir) = Some NDir) by (unfold stat; rewrite R; exact L).
  unfold secure_erase, bind in H. rewrite storage_run in H.
  assert (RF : read_file (os_path dir) (disk c) = (Ok (EDir (os_path dir)), disk c)).
  { unfold read_file, is_dir. rewrite ST. reflexivity. }
  rewrite RF in H. cbn [fst snd omap entry_is_dir] in H.
  destruct (get_answer erase_dir_prompt false force (set_disk (disk c) c)) as [r1 c1] eqn:GA.
  destruct (get_answer_any _ _ _ _ _ _ GA) as (CA & _ & RES).
  assert (D1 : disk c1 = disk c).
  { unfold disk. rewrite CA. reflexivity. }
  destruct RES as [(b & ->)| ->]; [destruct b|]; try (injection H as <- <-; rewrite D1; reflexivity).
  rewrite on_fs_run, map_err_run, D1 in H.
  destruct (erase_dir_execute (ce_sched V) (EDir (os_path dir)) passes (disk c)) as [o2 s2] eqn:ED.
  injection H as <- <-. cbn [snd]. rewrite set_disk_disk.
  destruct (erase_dir_scope (disk c) (os_path dir) q TO R L _ _ _ _ ED) as (CH & _).
  destruct (place_eq_dec (at_place s2 r) (at_place (disk c) r)) as [E|N]; [exact E|]. exfalso.
  destruct (CH r N) as [X|[X|(j & LJ & RJ)]]; [contradiction| |].
  - pose proof (resolve_same _ _ _ _ X LR ltac:(discriminate)) as Y. congruence.
  - destruct (reached_inside _ _ _ _ R L NL RJ) as (x & IX & LX). exact (AP j LJ x IX LX).
Qed.

Lemma erase_trim : forall V dir passes force c o c', tree_ok (disk c) ->
  secure_erase V dir passes force c = (o, c') -> stat (disk c) (os_path dir) = Some NDir -> trimmed (disk c) (disk c').
Proof.
  intros V dir passes force c o c' TO H ST.
  unfold secure_erase, bind in H. rewrite storage_run in H.
  assert (RF : read_file (os_path dir) (disk c) = (Ok (EDir (os_path dir)), disk c)).
  { unfold read_file, is_dir. rewrite ST. reflexivity. }
  rewrite RF in H. cbn [fst snd omap entry_is_dir] in H.
  destruct (get_answer erase_dir_prompt false force (set_disk (disk c) c)) as [r1 c1] eqn:GA.
  destruct (get_answer_any _ _ _ _ _ _ GA) as (CA & _ & RES).
  assert (D1 : disk c1 = disk c).
  { unfold disk. rewrite CA. reflexivity. }
  destruct RES as [(b & ->)| ->]; [destruct b|]; try (injection H as <- <-; rewrite D1; apply trimmed_refl, TO).
  rewrite on_fs_run, map_err_run, D1 in H.
  destruct (erase_dir_execute (ce_sched V) (EDir (os_path dir)) passes (disk c)) as [o2 s2] eqn:ED.
  injection H as <- <-. cbn [snd]. rewrite set_disk_disk. eapply erase_dir_trims; eauto.
Qed.

(** The same for one directory after the other, each as it was in [s1]. *)
Lemma erase_all_after : forall V passes force s1 (keep : cpath -> Prop),
  (forall r, keep r -> exists i, lookup (s_nodes s1) r = Some (NFile i)) ->
  forall dirs inputs, map os_path inputs = map fst dirs ->
  (forall d, In d dirs -> resolve true s1 (fst d) = Some (snd d) /\ lookup (s_nodes s1) (snd d) = Some NDir
     /\ no_links_inside s1 (snd d)
     /\ forall r, keep r -> ~ inside (snd d) r
        /\ forall i, lookup (s_nodes s1) r = Some (NFile i) -> forall x, inside (snd d) x -> lookup (s_nodes s1) x <> Some (NFile i)) ->
  forall c o c', trimmed s1 (disk c) -> (forall r, keep r -> at_place (disk c) r = at_place s1 r) ->
  each_ (fun f => secure_erase V f passes force) inputs c = (o, c') ->
  forall r, keep r -> at_place (disk c') r = at_place s1 r.
Proof.
  intros V passes force s1 keep KF dirs. induction dirs as [|d dirs IH]; intros inputs E PD c o c' TR KP H.
  - destruct inputs; [|discriminate]. cbn [each_] in H. unfold ret in H. injection H as <- <-. exact KP.
  - destruct inputs as [|f inputs]; [discriminate|]. cbn [map] in E. injection E as E1 E2.
    cbn [each_] in H. unfold bind in H. destruct (secure_erase V f passes force c) as [o1 c1] eqn:SE.
    destruct (PD d (or_introl eq_refl)) as (R & L & NL & KD).
    assert (STEP : trimmed s1 (disk c1) /\ forall r, keep r -> at_place (disk c1) r = at_place s1 r).
    { destruct (stat (disk c) (os_path f)) as [n|] eqn:ST.
      - destruct (trimmed_stat _ _ _ _ TR ST) as (q' & R' & L' & R1 & L1).
        rewrite E1 in R1. assert (q' = snd d) by congruence. subst q'. assert (n = NDir) by congruence. subst n.
        split; [eapply trimmed_trans; [exact TR|]; eapply erase_trim; eauto; apply TR|].
        intros r KR. rewrite <- (KP r KR).
        assert (LR : forall x i, lookup (s_nodes (disk c)) x = Some i -> lookup (s_nodes s1) x = Some i) by (apply (tr_grown _ _ TR)).
        assert (LC : exists i, lookup (s_nodes (disk c)) r = Some (NFile i)).
        { destruct (KF r KR) as (i & LI). specialize (KP r KR). unfold at_place in KP. rewrite LI in KP.
          destruct (lookup (s_nodes (disk c)) r) as [[|j|]|]; try discriminate KP. eauto. }
        destruct (KD r KR) as [NI AP].
        eapply erase_after with (q := snd d); [apply TR|exact R'|exact L'| |exact NI| |exact LC|exact SE].
        + intros x t IX LX. exact (NL x t IX (LR _ _ LX)).
        + intros i LI x IX LX. exact (AP i (LR _ _ LI) x IX (LR _ _ LX)).
      - unfold secure_erase, bind in SE. rewrite storage_run in SE.
        destruct (read_file (os_path f) (disk c)) as [r1 s2] eqn:RF.
        destruct (read_file_any _ _ _ _ RF) as (D & _ & X). cbn [fst snd] in SE.
        destruct X as [[_ X]|[(j & plan & _ & X & _)|[-> _]]]; [congruence|congruence|].
        cbn [omap] in SE. injection SE as <- <-. rewrite set_disk_disk. split; [eapply trimmed_disk; eauto|].
        intros r KR. rewrite <- (KP r KR). unfold at_place. destruct D as (N & DD & _). rewrite N, DD. reflexivity. }
    destruct STEP as [TR1 KP1].
    destruct o1; try (injection H as <- <-; exact KP1).
    eapply IH; eauto. intros d' I. apply PD. right. exact I.
Qed.

Lemma to_pack_stat : forall g s output dirs, to_pack g s output dirs ->
  forall f, In f (g "input"%string) -> stat s (os_path f) = Some NDir.
Proof.
  intros g s output dirs TP f I. destruct TP as [EI _ PD _ _ _].
  apply (in_map os_path) in I. rewrite EI in I. apply in_map_iff in I. destruct I as (d & E & ID).
  rewrite Forall_forall in PD. destruct (PD d ID) as [_ R L _ _]. unfold stat. rewrite <- E, R. exact L.
Qed.

(** How a successful [pack_main] gets to the library, and what it hands over. *)
Record pack_course (V : cenv) (output : string) (p : crypto_params) (pp : pack_params) (c : cli)
  (dirs : list (path * cpath)) (s1 : sys) (raw : bytes) (ho : handle) (fh : option handle) (s4 s5 s7 : sys)
  (req : pack_request) (tr : trace) (a6 : asys) : Prop := {
  pc_begun : pack_begun V output p c raw ho fh s4 s5 s7;
  pc_req : pr_out req = ho /\ pr_hdr req = fh /\ pr_compression req = pp_compression pp;
  pc_files : listed s7 dirs (pr_files req);
  pc_run : pack_execute (ce_E V) (ce_Z V) (ce_pick V) req (s7, tr) = (Ok tt, a6);
  pc_end : same_disk (fst a6) s1;
  pc_state : tree_ok s7 /\ no_faults s7 /\ inodes_ok s7;
  pc_dirs : Forall (packable_dir s7) dirs;
  pc_same : forall d r, In d dirs -> inside (snd d) r -> at_place s7 r = at_place (disk c) r;
  pc_apart : forall hh, fh = Some hh -> h_ino hh <> h_ino ho;
  pc_writes : only_writes (disk c) (os_path output :: header_targets p) s7
}.

Lemma pack_path : forall V g c o c' output dirs,
  env_ok (ce_E V) -> zip_ok (ce_Z V) ->
  tree_ok (disk c) -> no_faults (disk c) -> inodes_ok (disk c) ->
  given g "output" output -> to_pack g (disk c) output dirs ->
  run_command V CmdPack g c = (o, c') ->
  (o = Ok tt -> kept_packed V g c output (disk c') dirs)
  /\ (Forall (fun d => unchanged_inside (disk c) (snd d) (disk c')) dirs
      \/ kept_packed V g c output (disk c') dirs)
  /\ ((o <> Ok tt /\ same_disk (disk c) (disk c'))
      \/ exists p pp a n o1 c1, pack_main V (g "input"%string) output p pp a (printed n c) = (o1, c1)
         /\ os_path output :: header_targets p = write_targets g output
         /\ ((o1 <> Ok tt /\ o = o1 /\ c' = c1)
             \/ (o1 = Ok tt /\ pack_finish V (g "input"%string) p pp c1 = (o, c')
                 /\ kept_packed V g c output (disk c') dirs
                 /\ (forall t q, In t (write_targets g output) -> resolve true (disk c) t = Some q ->
                      at_place (disk c') q = at_place (disk c1) q)
                 /\ exists raw ho fh s4 s5 s7 req tr a6,
                      pack_course V output p pp (printed n c) dirs (disk c1) raw ho fh s4 s5 s7 req tr a6))).
Proof.
  intros V g c o c' output dirs EO ZO TO NF IO GO TP H.
  pose proof (to_pack_stat _ _ _ _ TP) as ST. destruct TP as [EI NED PD AP EL ELH].
  remember (g "input"%string) as inputs eqn:GI.
  assert (NEI : inputs <> []).
  { intros X. rewrite X in EI. destruct dirs; [congruence|discriminate]. }
  destruct (pack_cmd_run V g c inputs output NEI (eq_sym GI) GO) as (p & pp & n & PO & _ & _ & RC).
  rewrite RC in H. clear RC.
  pose proof (po_header _ _ _ _ PO) as HN.
  assert (HG : forall h, cp_header p = Some h -> given g "header" h).
  { intros h X. rewrite HN in X. unfold given. destruct (g "header"%string) as [|y l]; [discriminate|].
    injection X as ->. eauto. }
  assert (SAMES : forall s', same_disk (disk c) s' -> Forall (fun d => unchanged_inside (disk c) (snd d) s') dirs).
  { intros s' (A & B & _). apply Forall_forall. intros d _ r _ _. unfold at_place. rewrite A, B. reflexivity. }
  destruct (existsb (fun f => String.eqb f output) inputs) eqn:N1.
  { unfold pack_cli in H. rewrite N1 in H. injection H as <- <-. split; [discriminate|]. rewrite printed_disk.
    split; left; [apply SAMES|split; [discriminate|]]; apply same_disk_refl. }
  assert (N2 : existsb (fun f => is_file (disk (printed n c)) (os_path f)) inputs = false).
  { rewrite printed_disk. clear - ST. induction inputs as [|f l IH]; [reflexivity|]. cbn [existsb].
    rewrite IH by (intros x I; apply ST; right; exact I). unfold is_file. rewrite (ST f (or_introl eq_refl)). reflexivity. }
  rewrite pack_cli_eq in H by assumption. clear N1 N2. unfold bind in H.
  rewrite Forall_forall in EL.
  destruct (pack_main V inputs output p pp (algorithm_asked g) (printed n c)) as [o1 c1] eqn:PM.
  destruct (o1) as [[]|e| |] eqn:O1.
  2-4: injection H as <- <-; split; [discriminate|];
       (split; [|right; exists p, pp, (algorithm_asked g), n; do 2 eexists;
          split; [exact PM|split; [exact (header_targets_of _ _ _ _ output PO)|]]; left; split; [discriminate|split; reflexivity]]); left;
       apply pack_main_any in PM; [|rewrite printed_disk; exact IO]; rewrite printed_disk in PM;
       apply Forall_forall; intros d ID r IR NR;
       destruct (place_eq_dec (at_place (disk c1) r) (at_place (disk c) r)) as [E|N]; [exact E|]; exfalso;
       destruct (PM r N) as [X|(t & i & IT & ST' & LR)]; [exact (NR X)|];
       destruct IT as [<-|IT]; [exact (proj2 (EL d ID) i r ST' IR LR)|];
       unfold header_targets in IT; destruct (cp_header p) as [h|] eqn:CP; [|destruct IT];
       destruct IT as [<-|[]]; destruct (ELH h (HG h eq_refl)) as [_ EH]; rewrite Forall_forall in EH;
       exact (proj2 (EH d ID) i r ST' IR LR).
  pose proof (header_targets_of _ _ _ _ output PO) as HTS.
  assert (NFp : no_faults (disk (printed n c))) by (rewrite printed_disk; exact NF).
  destruct (pack_main_begun V inputs output p pp _ (printed n c) c1
     ltac:(rewrite printed_disk; exact ST) PM) as (raw & ho & fh & s4 & s5 & c7 & PB & PR).
  pose proof PB as PB0. destruct PB as [KT [SD4 NF4] _ CW HX]. specialize (NF4 NFp). rewrite printed_disk in KT, SD4.
  assert (CWD : lookup (s_nodes (disk c)) (s_cwd (disk c)) = Some NDir).
  { clear - TO PD NED. destruct dirs as [|d l]; [congruence|]. apply Forall_inv in PD.
    destruct PD as [(AB & GC & a & x & PC) R L _ _]. rewrite resolve_eq in R.
    replace (start (disk c) (fst d)) with (s_cwd (disk c)) in R by (unfold start; rewrite AB; reflexivity).
    eapply walk_first; [exact TO|exact GC| |exact R|exact L].
    rewrite PC, nm_app. cbn. destruct (names_of a); discriminate. }
  destruct (files_made True (disk c) s4 (os_path output) (option_map os_path (cp_header p)) ho fh s5 (disk c7)
    TO CWD IO SD4 (fun _ => NF4) CW) as (qo & MD).
  { destruct (cp_header p) as [h|]; exact HX. }
  { intros h X. destruct (cp_header p) as [h'|] eqn:CP; [|discriminate]. injection X as <-. apply (ELH h' (HG h' eq_refl)). }
  set (s7 := disk c7) in *.
  pose proof MD as [TO7 NF7 W7 HI HP HD [RQ LQ] MH MI]. specialize (NF7 I). specialize (HP I).
  assert (INS : forall d, In d dirs ->
    ~ inside (snd d) qo /\ (forall h qh, option_map os_path (cp_header p) = Some h -> resolve true (disk c) h = Some qh -> ~ inside (snd d) qh)
    /\ forall r, inside (snd d) r -> at_place s7 r = at_place (disk c) r /\ lookup (s_nodes s7) r = lookup (s_nodes (disk c)) r
         /\ lookup (s_nodes (disk c)) r <> Some (NFile (h_ino ho))
         /\ forall hh, fh = Some hh -> lookup (s_nodes (disk c)) r <> Some (NFile (h_ino hh))).
  { intros d ID. apply MI; [exact (EL d ID)|]. intros h X. destruct (cp_header p) as [h'|] eqn:CP; [|discriminate].
    injection X as <-. destruct (ELH h' (HG h' eq_refl)) as [_ EH]. rewrite Forall_forall in EH. exact (EH d ID). }
  assert (PD7 : Forall (packable_dir s7) dirs).
  { apply Forall_forall. intros d ID. rewrite Forall_forall in PD. destruct (PD d ID) as [PK R L NL GN].
    destruct (INS d ID) as (_ & _ & IN).
    assert (IQ : inside (snd d) (snd d)) by (exists []; symmetry; apply app_nil_r).
    constructor.
    - exact PK.
    - rewrite (ow_resolve true _ _ _ _ W7). exact R.
    - rewrite (proj1 (proj2 (IN _ IQ))). exact L.
    - intros r t IR. rewrite (proj1 (proj2 (IN r IR))). apply NL, IR.
    - intros rel AT. rewrite (proj1 (IN (snd d ++ rel) (ex_intro _ rel eq_refl))) in AT. exact (GN rel AT). }
  assert (IO7 : inodes_ok s7) by (eapply ow_inodes; [exact IO|exact W7]).
  set (lst := fun f => match fst (read_dir (EDir (os_path f)) s7) with Ok l => l | _ => [] end).
  assert (RDS : forall d, In d dirs -> exists l, read_dir (EDir (fst d)) s7 = (Ok l, s7)).
  { intros d ID. rewrite Forall_forall in PD7. destruct (PD7 d ID) as [_ K2 K3 K4 _]. eexists.
    apply (tree_entries s7 (fst d) (snd d) TO7 NF7 K2 K3 K4). }
  assert (RDL : forall f, In f inputs -> read_dir (EDir (os_path f)) s7 = (Ok (lst f), s7)).
  { intros f I. apply (in_map os_path) in I. rewrite EI in I. apply in_map_iff in I. destruct I as (d & E & ID).
    destruct (RDS d ID) as (l & RL). unfold lst. rewrite <- E, RL. reflexivity. }
  assert (NHO : forall hh, fh = Some hh -> h_ino hh < s_next s7 /\ h_ino hh <> h_ino ho /\ h_plan hh = [] /\ s_data s7 (h_ino hh) = []).
  { intros hh ->. destruct (option_map os_path (cp_header p)); [|contradiction]. tauto. }
  destruct (pack_rest_run V inputs output p pp _ raw ho fh c7 c1 lst RDL
    (fun hh X => proj1 (proj2 (NHO hh X))) PR) as (a6 & PE & SD1).
  set (preq := mkPackReq ho fh (List.concat (map lst inputs)) (pp_compression pp) raw
      (mkHT V5 (algorithm_asked g) StreamMode) (cp_hashing p)) in *.
  rewrite (surjective_pairing (c_a c7)) in PE. change (fst (c_a c7)) with s7 in PE.
  assert (LI : listed s7 dirs (pr_files preq)).
  { exists (map lst inputs). split; [|reflexivity]. clearbody lst. clear - EI RDL. revert inputs EI RDL.
    induction dirs as [|d l IH]; intros [|f is] E R; try discriminate; cbn [map] in *; [constructor|].
    injection E as E1 E2. constructor; [rewrite <- E1; apply R; left; reflexivity|]. apply IH; [exact E2|].
    intros x I. apply R. right. exact I. }
  assert (BS : 0 < BLOCK_SIZE) by (apply Nat.ltb_lt; vm_compute; reflexivity).
  destruct (pack_after _ _ _ _ preq _ _ _ BS HI (fun hh X => proj1 (NHO hh X)) NF7 PE) as (N6 & C6 & NF6).
  specialize (SD1 NF6). pose proof SD1 as (N7 & D7 & X7 & C7 & _).
  assert (NODES : s_nodes (disk c1) = s_nodes s7) by congruence.
  assert (CWDS : s_cwd (disk c1) = s_cwd s7) by congruence.
  assert (TO1 : tree_ok (disk c1)) by (unfold tree_ok; rewrite NODES; exact TO7).
  (* the two files stay *)
  set (keep := fun r => r = qo \/ exists h, option_map os_path (cp_header p) = Some h /\ resolve true (disk c) h = Some r).
  assert (KF : forall r, keep r -> (exists i, lookup (s_nodes s7) r = Some (NFile i)
     /\ (i = h_ino ho \/ exists hh, fh = Some hh /\ i = h_ino hh))
     /\ forall d, In d dirs -> ~ inside (snd d) r).
  { intros r [->|(h & X & R)].
    - split; [eauto|]. intros d ID. apply (INS d ID).
    - rewrite X in MH. destruct fh as [hh|]; [|contradiction]. destruct MH as (_ & _ & _ & _ & qh & RH & LH).
      replace r with qh by congruence. split; [eauto 6|]. intros d ID. eapply (proj1 (proj2 (INS d ID))); eauto. }
  assert (KEEP : forall r, keep r -> at_place (disk c') r = at_place (disk c1) r).
  { unfold pack_finish in H. destruct (pp_erase pp); [|unfold ret in H; injection H as <- <-; reflexivity].
    eapply (erase_all_after V 1%Z (cp_force p) (disk c1) keep) with (inputs := inputs) (dirs := dirs); [| exact EI| | | | exact H].
    - intros r KR. destruct (KF r KR) as [(i & LI' & _) _]. exists i. rewrite NODES. exact LI'.
    - intros d ID. rewrite Forall_forall in PD7. destruct (PD7 d ID) as [_ K2 K3 K4 _].
      split; [rewrite (resolve_nodes true s7 (disk c1) _ NODES CWDS); exact K2|].
      split; [rewrite NODES; exact K3|]. split; [intros r t IR; rewrite NODES; apply K4, IR|].
      intros r KR. destruct (KF r KR) as [(i & LI' & OR) NI]. split; [exact (NI d ID)|].
      intros j LJ x IX. rewrite NODES in *. assert (j = i) by congruence. subst j.
      destruct (INS d ID) as (_ & _ & IN). destruct (IN x IX) as (_ & LX & NO & NH). rewrite LX.
      destruct OR as [->|(hh & E & ->)]; [exact NO|exact (NH hh E)].
    - apply trimmed_refl, TO1.
    - reflexivity. }
  (* what they give *)
  assert (UN : forall hdr, match fh, hdr with
      | None, None => True
      | Some hh, Some l => l = s_data (fst a6) (h_ino hh)
          /\ (let start := firstn 416 (s_data (fst a6) (h_ino ho)) in start <> repeat x00 (List.length start))
      | _, _ => False end ->
    unpacks_to (ce_E V) (ce_Z V) raw (s_data (fst a6) (h_ino ho)) hdr (disk c) dirs).
  { intros hdr HH. eapply unpacks_by_path with (s7 := s7); [exact PD7|exact NED| |].
    - intros d ID rel. destruct (INS d ID) as (_ & _ & IN).
      rewrite (proj1 (IN (snd d ++ rel) (ex_intro _ rel eq_refl))).
      destruct (at_place (disk c) (snd d ++ rel)) as [[]|]; cbn; auto.
    - intros pick2 s2 ureq q0 names tr2 T2 NF2 UK AG II IP IPOS ID HU RF.
      eapply (round_trip_many (ce_E V) (ce_Z V) (ce_pick V) BLOCK_SIZE s7 dirs preq (snd (c_a c7)) a6); auto.
      + unfold header_too. cbn [preq pr_hdr pr_out].
        destruct fh as [hh|], hdr as [l|], (ur_hdr ureq) as [hu|]; try contradiction; [|exact I].
        destruct HH as [-> HZ]. destruct (NHO hh eq_refl) as (A1 & A2 & A3 & A4). destruct HU as (B1 & B2 & B3 & B4).
        auto 12. }
  assert (KP : kept_packed V g c output (disk c') dirs).
  { exists raw, qo, (h_ino ho), (s_data (fst a6) (h_ino ho)). split; [|split; [exact RQ|split]].
    - destruct KT as (c0 & t & A & B & C & Y). exists (cp_key p), c0, t. split; [exact (po_key _ _ _ _ PO)|].
      auto.
    - rewrite KEEP by (left; reflexivity). unfold at_place. rewrite NODES, LQ, D7. reflexivity.
    - destruct (g "header"%string) as [|h l] eqn:GH; cbn [hd_error] in HN; rewrite HN in *; cbn [option_map] in *.
      + destruct fh; [contradiction|]. apply UN. exact I.
      + destruct fh as [hh|]; [|contradiction]. destruct MH as (_ & _ & _ & _ & qh & RH & LH).
        exists qh, (h_ino hh), (s_data (fst a6) (h_ino hh)). split; [exact RH|]. split.
        * rewrite KEEP by (right; exists (os_path h); split; [rewrite HN; reflexivity|exact RH]). unfold at_place. rewrite NODES, LH, D7. reflexivity.
        * intros Z. apply UN. split; [reflexivity|exact Z]. }
  split; [auto|split; [right; exact KP|right]].
  exists p, pp, (algorithm_asked g), n. do 2 eexists. split; [exact PM|]. rewrite <- HTS.
  split; [reflexivity|]. right. split; [reflexivity|]. split; [exact H|]. split; [exact KP|].
  split.
  { intros t q [<-|IT] R; apply KEEP; [left; congruence|right].
    unfold header_targets in IT. destruct (cp_header p) as [h|]; [|destruct IT]. destruct IT as [<-|[]].
    exists (os_path h). split; [reflexivity|exact R]. }
  exists raw, ho, fh, s4, s5, s7, preq, (snd (c_a c7)), a6.
  constructor; [exact PB0|repeat split|exact LI|exact PE|exact SD1|exact (conj TO7 (conj NF7 IO7))|exact PD7| | |].
  - rewrite printed_disk. intros d r ID IR. destruct (INS d ID) as (_ & _ & IN). apply (IN r IR).
  - intros hh X. apply (NHO hh X).
  - rewrite printed_disk. replace (os_path output :: header_targets p)
      with (os_path output :: match option_map os_path (cp_header p) with Some h => [h] | None => [] end); [exact W7|].
    unfold header_targets. destruct (cp_header p); reflexivity.
Qed.

Lemma pack_path_ok : forall V g c c' output dirs,
  env_ok (ce_E V) -> zip_ok (ce_Z V) ->
  tree_ok (disk c) -> no_faults (disk c) -> inodes_ok (disk c) ->
  given g "output" output -> to_pack g (disk c) output dirs ->
  run_command V CmdPack g c = (Ok tt, c') ->
  kept_packed V g c output (disk c') dirs.
Proof. intros V g c c' output dirs A B C D E F G H. exact (proj1 (pack_path _ _ _ _ _ _ _ A B C D E F G H) eq_refl). Qed.

Lemma pack_path_any : forall V g c o c' output dirs,
  env_ok (ce_E V) -> zip_ok (ce_Z V) ->
  tree_ok (disk c) -> no_faults (disk c) -> inodes_ok (disk c) ->
  given g "output" output -> to_pack g (disk c) output dirs ->
  run_command V CmdPack g c = (o, c') ->
  Forall (fun d => unchanged_inside (disk c) (snd d) (disk c')) dirs
  \/ kept_packed V g c output (disk c') dirs.
Proof. intros V g c o c' output dirs A B C D E F G H. exact (proj1 (proj2 (pack_path _ _ _ _ _ _ _ A B C D E F G H))). Qed.
