(** What a run of pack by path leaves, also if calls fail. *)
From Coq Require Import List Arith NArith ZArith Ascii String Bool Lia.
From Verif Require Import Bytes Outcome IO IOFacts Primitives Crypto Header Stream KeyModel EncDec.
From Verif Require Import Overwrite Hash FS Erase Archive Cli.
From Verif Require Import BytesFacts IOSpec FileSpec FileFacts FSSpec FSFacts EraseProofs EraseDirProofs EraseSched EraseMany ArchiveSpec
  ArchiveProofs UnpackProofs PackProofs RestoreSpec RestoreManySpec RestoreNames RestoreDirs RestorePack RestoreProofs ToolSpec CliSpec CliKeys CliRuns
  CliProofs CliPack CliCommands ArchiveWalk PackPathSpec PackPath WorldFrames WorksMore.
From Verif Require NamesSpec.
From Verif Require Import FaultsSpec FaultsRuns FaultsPack.
Import ListNotations.
Local Open Scope nat_scope.
Local Open Scope list_scope.
Strategy 1000 [walk MAX_LINKS resolve].

(** ** The files listed *)

Lemma read_all_an : forall ps s es s', read_all ps s = (Ok es, s') -> all_or_nothing s ->
  Forall from_start es /\ all_or_nothing s'.
Proof.
  induction ps as [|p ps IH]; intros s es s' H A; cbn [read_all] in H.
  - unfold ret in H. injection H as <- <-. split; [constructor|exact A].
  - unfold bind at 1 in H. destruct (read_file p s) as [r s1] eqn:RF.
    destruct (oa_read_file _ _ _ _ RF A) as [A1 X].
    destruct (CliRuns.read_file_any _ _ _ _ RF) as (_ & _ & RES).
    destruct r as [e|e| |]; try discriminate H.
    unfold bind at 1 in H. destruct (read_all ps s1) as [r2 s2] eqn:RA.
    destruct r2 as [es2|e2| |]; try discriminate H. unfold ret in H. injection H as <- <-.
    destruct (IH _ _ _ RA A1) as [F A2]. split; [|exact A2]. constructor; [|exact F].
    destruct RES as [[E _]|[(i & plan & E & _)|[E _]]]; try discriminate E; injection E as ->; [exact I|].
    split; [reflexivity|]. apply X. reflexivity.
Qed.

Lemma read_dir_an : forall p s es s', read_dir (EDir p) s = (Ok es, s') -> all_or_nothing s ->
  Forall from_start es /\ all_or_nothing s'.
Proof.
  intros p s es s' H A. cbn [read_dir] in H. unfold call_or in H. pose proof (next_fault_plans s) as R.
  destruct (next_fault s) as [b s1]. cbn in R. pose proof (an_same _ _ R A) as A1. destruct b; [discriminate|].
  eapply read_all_an; eauto.
Qed.

Definition found (s : sys) (p : path) (l : list entry) : Prop :=
  Forall2 (opened s) (listing s p) l /\ Forall from_start l.

Lemma lists_an : forall s inputs c lists c', same_disk s (disk c) -> all_or_nothing (disk c) ->
  each (fun f => if entry_is_dir f then storage (read_dir f) else ret [f]) (map (fun f => EDir (os_path f)) inputs) c
    = (Ok lists, c') ->
  same_disk s (disk c') /\ all_or_nothing (disk c') /\ Forall2 (fun f l => found s (os_path f) l) inputs lists.
Proof.
  intros s inputs. induction inputs as [|f inputs IH]; intros c lists c' SD A H; cbn [map each] in H.
  - unfold ret in H. injection H as <- <-. split; [exact SD|]. split; [exact A|constructor].
  - cbn [entry_is_dir] in H. unfold bind at 1 in H.
    destruct (storage (read_dir (EDir (os_path f))) c) as [r c1] eqn:SR.
    destruct (storage_inv _ _ _ _ SR) as (r1 & s1 & RD & -> & ->). clear SR.
    destruct r1 as [l|e| |]; cbn [omap] in H; try discriminate H.
    destruct (read_dir_any _ _ _ _ RD) as (D1 & OP & _). specialize (OP l eq_refl).
    destruct (read_dir_an _ _ _ _ RD A) as [FS A1].
    unfold bind at 1 in H.
    match type of H with context [each ?x1 ?x2 ?x3] => destruct (each x1 x2 x3) as [r2 c2] eqn:EA end.
    destruct r2 as [ls|e| |]; try discriminate H. unfold ret in H. injection H as <- <-.
    destruct (IH (set_disk s1 c) ls c2) as (D2 & A2 & F2); [| |exact EA|].
    { rewrite set_disk_disk. eapply same_disk_trans; eauto. }
    { rewrite set_disk_disk. exact A1. }
    split; [exact D2|]. split; [exact A2|]. constructor; [|exact F2]. split; [|exact FS].
    rewrite (listing_disk _ _ _ SD) in OP. clear - OP SD. induction OP as [|x e xs es (O1 & O2 & O3) OP IH]; constructor; auto.
    split; [exact O1|]. unfold is_dir in *. rewrite (stat_disk _ _ _ SD) in *. split; [exact O2|].
    exact O3.
Qed.

Lemma opened_item : forall s x e, stat s x = Some NDir \/ (exists i, stat s x = Some (NFile i)) -> opened s x e ->
  NamesSpec.item s e = NamesSpec.item s (entry_of s x).
Proof.
  intros s x e K (O1 & O2 & O3). unfold entry_of, is_dir in *. destruct e as [h|p]; cbn [entry_path entry_is_dir] in *.
  - rewrite (O3 h eq_refl). cbn [NamesSpec.item h_path h_ino]. rewrite O1. reflexivity.
  - destruct K as [K|[i K]]; rewrite K in *; [|discriminate O2]. cbn [NamesSpec.item]. rewrite O1. reflexivity.
Qed.

Lemma found_items : forall s d l, tree_ok s -> packable_dir s d -> found s (fst d) l ->
  map (NamesSpec.item s) l = map (zent_it s) (map (pair d) (all_rels s (snd d))).
Proof.
  intros s d l TO [K1 K2 K3 K4 K5] [OP _]. rewrite (listing_rels s _ _ K2) in OP.
  assert (E : fst d :: map (sub (fst d)) (rels (s_nodes s) (snd d)) = map (sub (fst d)) (all_rels s (snd d))).
  { unfold all_rels. cbn [map]. f_equal. unfold sub. cbn [map]. rewrite app_nil_r. destruct (fst d); reflexivity. }
  rewrite E in OP. clear E.
  assert (IN : forall rel, In rel (all_rels s (snd d)) -> In rel (all_rels s (snd d))) by auto. revert IN OP.
  generalize (all_rels s (snd d)) at 1 3 4. intros rs. revert l.
  induction rs as [|rel rs IH]; intros l IN OP; inversion OP as [|x e xs es O1 O2]; subst; [reflexivity|].
  cbn [map]. f_equal; [|apply IH; [intros r I; apply IN; right; exact I|exact O2]].
  pose proof (IN rel (or_introl eq_refl)) as I1.
  pose proof (rel_stat s (fst d) (snd d) TO K2 K3 K4 rel I1) as ST.
  pose proof (rel_kind s (snd d) TO K3 K4 rel I1) as KD.
  rewrite (opened_item s _ e) with (2 := O1) by (rewrite ST; exact KD).
  unfold entry_of. rewrite ST. unfold zent_it, zent_of, stored_data, ip, iq, ir. cbn [fst snd].
  destruct KD as [KD|[i KD]]; rewrite KD; reflexivity.
Qed.

Lemma lists_items : forall s dirs inputs lists, tree_ok s -> Forall (packable_dir s) dirs ->
  map os_path inputs = map fst dirs -> Forall2 (fun f l => found s (os_path f) l) inputs lists ->
  map (NamesSpec.item s) (List.concat lists) = map (zent_it s) (items s dirs)
  /\ Forall from_start (List.concat lists)
  /\ (inodes_ok s -> forall h, In (EFile h) (List.concat lists) -> h_ino h < s_next s).
Proof.
  intros s dirs. induction dirs as [|d dirs IH]; intros inputs lists TO PD E F.
  - destruct inputs; [|discriminate]. inversion F. subst. cbn. split; [reflexivity|]. split; [constructor|]. intros _ h [].
  - destruct inputs as [|f inputs]; [discriminate|]. cbn [map] in E. injection E as E1 E2.
    inversion F as [|x l xs ls F1 F2]; subst. inversion PD as [|x2 y2 P1 P2]; subst.
    destruct (IH inputs ls TO P2 E2 F2) as (A & B & C). rewrite E1 in F1. cbn [List.concat]. split; [|split].
    + rewrite map_app, A. unfold items. cbn [flat_map]. rewrite map_app. f_equal. apply found_items; assumption.
    + apply Forall_app. split; [apply F1|exact B].
    + intros IO h I. apply in_app_or in I. destruct I as [I|I]; [|exact (C IO h I)].
      destruct F1 as [OP _]. clear - OP I IO. induction OP as [|x e xs es (O1 & O2 & O3) OP IH]; [destruct I|].
      destruct I as [->|I]; [|exact (IH I)]. specialize (O3 h eq_refl). unfold stat in O3.
      destruct (resolve true s x) as [y|]; [|discriminate]. exact (IO y _ O3).
Qed.

(** ** The places after packing *)

Lemma wipe_frame : forall h cap passes s o s', wipe_temp h cap passes s = (o, s') -> s_cwd s' = s_cwd s.
Proof.
  intros h cap passes s o s' W. unfold wipe_temp in W.
  destruct (run_handle (overwrite_execute cap passes) h s) as [[o1 h1] s1] eqn:RH.
  apply run_handle_tree in RH. destruct RH as [[_ [T2 _]] _]. rewrite <- T2. clear T2.
  assert (Y : s' = s1 \/ exists o2, run (remove_file (EFile h1)) s1 = (o2, s')).
  { unfold quiet in W. destruct (run (remove_file (EFile h1)) s1) as [o2 s2].
    destruct o1; try (left; congruence); right; exists o2; f_equal; destruct o2; congruence. }
  destruct Y as [->|(o2 & Y)]; [reflexivity|]. clear W.
  unfold remove_file in Y. rewrite !run_bind, !run_atom in Y.
  destruct (truncate h1 s1) as [r s2] eqn:TR. destruct (truncate_any _ _ _ _ TR) as (_ & C2 & _). rewrite <- C2. clear C2.
  destruct r as [u|e| |]; try (injection Y as _ <-; reflexivity).
  rewrite run_atom in Y. destruct (flush s2) as [r s3] eqn:FL.
  pose proof (UnpackProofs.flush_any _ _ _ FL) as (_ & _ & _ & C3 & _). rewrite <- C3. clear C3.
  destruct r as [u1|e| |]; try (injection Y as _ <-; reflexivity).
  rewrite run_atom in Y. unfold unlink in Y. apply call_or_inv in Y.
  destruct Y as (s4 & (_ & _ & _ & C4 & _) & _ & _ & _ & X). rewrite <- C4. clear C4.
  destruct X as [(X1 & X2 & _)|X]; [subst; reflexivity|].
  destruct (resolve false s4 _) as [q|]; [|injection X as _ <-; reflexivity].
  destruct (lookup (s_nodes s4) q) as [[| |]|]; injection X as _ <-; reflexivity.
Qed.

Lemma pack_places : forall E Z pick bs req s tr a', 0 < bs -> h_ino (pr_out req) < s_next s ->
  (forall x, pr_hdr req = Some x -> h_ino x < s_next s) ->
  pack_execute_bs E Z pick bs req (s, tr) = (Ok tt, a') ->
  s_cwd (fst a') = s_cwd s
  /\ (s_nodes (fst a') = s_nodes s
      \/ exists T, resolve false s (temp_path pick s) = Some T /\ lookup (s_nodes s) T = None
           /\ s_nodes (fst a') = s_nodes s ++ [(T, NFile (s_next s))]).
Proof.
  intros E Z pick bs req s tr a' BS HO HN H.
  apply pack_stages in H; [|exact BS|exact HO|exact HN].
  destruct H as [SD X _|T zs oz RT LT TM _ _ _ X1 X2 X3|T s1 RT LT TM SL X
                |T zs h1 a1 h hx a2 cap oe o6 RT LT TM ZE CO TR RG HI1 HP1 RW NP ND SL HI HP HPL CAP W X].
  - discriminate.
  - contradiction.
  - destruct X; discriminate.
  - destruct SL as [[T1 [T2 [T3 [T4 [T5 T6]]]]] SD [es [SL FS]]].
    split. { rewrite (wipe_frame _ _ _ _ _ _ W), T2. apply (tm_cwd _ _ _ _ TM). }
    apply wipe_any in W. destruct W as (_ & N & _).
    destruct N as [N|(q & RQ & N)].
    + right. exists T. split; [exact RT|]. split; [exact LT|]. rewrite N, T1. apply (tm_nodes _ _ _ _ TM).
    + left. assert (q = T).
      { rewrite HP in RQ. assert (X0 : resolve false (fst a2) (temp_path pick s) = Some T); [|congruence].
        eapply (resolve_grown false s (fst a2)); [| |exact RT|].
        - rewrite T1, (tm_nodes _ _ _ _ TM). apply grown_add, LT.
        - rewrite T2. apply (tm_cwd _ _ _ _ TM).
        - discriminate. }
      subst q. rewrite N, T1, (tm_nodes _ _ _ _ TM). apply remove_added; [exact LT|]. intros ->. discriminate LT.
Qed.

(** ** After the output and the header were made *)

Lemma pack_rest_an : forall V inputs output p pp a raw ho fh c7 c',
  all_or_nothing (disk c7) -> (forall hh, fh = Some hh -> h_ino hh <> h_ino ho) ->
  pack_rest V (map (fun f => EDir (os_path f)) inputs) output p pp a raw (EFile ho) (option_map EFile fh) c7
    = (Ok tt, c') ->
  exists lists s8 tr a6, same_disk (disk c7) s8 /\ all_or_nothing s8
  /\ Forall2 (fun f l => found (disk c7) (os_path f) l) inputs lists
  /\ pack_execute (ce_E V) (ce_Z V) (ce_pick V)
       (mkPackReq ho fh (List.concat lists) (pp_compression pp) raw (mkHT V5 a StreamMode) (cp_hashing p))
       (s8, tr) = (Ok tt, a6)
  /\ same_disk (fst a6) (disk c').
Proof.
  intros V inputs output p pp a raw ho fh c7 c' A NH H. unfold pack_rest in H.
  unfold bind at 1 in H.
  match type of H with context [each ?x1 ?x2 ?x3] => destruct (each x1 x2 x3) as [r8 c8] eqn:EA end.
  destruct r8 as [lists|e| |]; try discriminate H.
  destruct (lists_an (disk c7) inputs c7 lists c8 (same_disk_refl _) A EA) as (SD8 & A8 & F).
  unfold bind at 1 in H. cbn [try_handle] in H. unfold ret at 1 in H.
  replace (ok_handle (option_map EFile fh)) with fh in H by (destruct fh; reflexivity).
  assert (SO : same_opt ho fh = false).
  { destruct fh as [hh|]; [|reflexivity]. cbn. unfold same_file. apply Nat.eqb_neq.
    specialize (NH hh eq_refl). congruence. }
  rewrite SO in H. unfold bind at 1 in H. rewrite on_a_run, map_err_run in H.
  match type of H with context [pack_execute ?x1 ?x2 ?x3 ?x4 ?x5] => destruct (pack_execute x1 x2 x3 x4 x5) as [o6 a6] eqn:PE end.
  cbn [fst snd] in H. destruct o6 as [[]|e| |]; cbn [omap] in H; try discriminate H.
  exists lists, (disk c8), (snd (c_a c8)), a6. do 3 (split; [assumption|]).
  split. { rewrite (surjective_pairing (c_a c8)) in PE. exact PE. }
  assert (FL : forall o c r cx, match o with Some e => storage (flush_file e) | None => ret tt end c = (r, cx) -> same_disk (disk c) (disk cx)).
  { clear. intros [e|] c r c' H.
    - destruct (storage_inv _ _ _ _ H) as (x & s8 & FF & -> & ->). rewrite set_disk_disk.
      apply (flush_file_any _ _ _ _ FF).
    - unfold ret in H. injection H as <- <-. apply same_disk_refl. }
  unfold bind at 1 in H. destruct (flush_opt (option_map EFile fh) (set_a a6 c8)) as [r7 c9] eqn:F7.
  unfold flush_opt in F7. apply FL in F7. rewrite set_a_disk in F7.
  destruct r7 as [u7|e| |]; try discriminate H.
  unfold bind at 1 in H. destruct (storage (flush_file (EFile ho)) c9) as [r8 c10] eqn:F8.
  apply (FL (Some (EFile ho))) in F8. destruct r8 as [u8|e| |]; try discriminate H.
  eapply same_disk_trans; [exact F7|]. eapply same_disk_trans; [exact F8|].
  destruct (cp_hash p).
  - apply (hash_files_any _ _ _ _ _ H).
  - unfold ret in H. injection H as <-. apply same_disk_refl.
Qed.

(** ** The command *)

Lemma pack_path_an : forall V g c o c' output dirs,
  env_ok (ce_E V) -> zip_ok (ce_Z V) ->
  tree_ok (disk c) -> all_or_nothing (disk c) -> inodes_ok (disk c) ->
  given g "output" output -> to_pack g (disk c) output dirs ->
  run_command V CmdPack g c = (o, c') ->
  (o = Ok tt -> kept_packed V g c output (disk c') dirs)
  /\ (Forall (fun d => unchanged_inside (disk c) (snd d) (disk c')) dirs
      \/ kept_packed V g c output (disk c') dirs).
Proof.
  intros V g c o c' output dirs EO ZO TO AN IO GO TP H.
  pose proof (to_pack_stat _ _ _ _ TP) as ST. destruct TP as [EI NED PD AP EL ELH].
  remember (g "input"%string) as inputs eqn:GI.
  assert (NEI : inputs <> []).
  { intros X. rewrite X in EI. destruct dirs; [congruence|discriminate]. }
  destruct (pack_cmd_run V g c inputs output NEI (eq_sym GI) GO) as (p & pp & n & PO & _ & _ & RC).
  rewrite RC in H. clear RC.
  pose proof (po_header _ _ _ _ PO) as HN.
  assert (HG : forall h, cp_header p = Some h -> given g "header" h).
  { intros h X. rewrite HN in X. unfold given. destruct (g "header"%string) as [|y l]; [discriminate|].
    injection X as ->. eauto. }
  destruct (existsb (fun f => String.eqb f output) inputs) eqn:N1.
  { unfold pack_cli in H. rewrite N1 in H. injection H as <- <-. split; [discriminate|]. rewrite printed_disk.
    left. apply Forall_forall. intros d _ r _ _. reflexivity. }
  assert (N2 : existsb (fun f => is_file (disk (printed n c)) (os_path f)) inputs = false).
  { rewrite printed_disk. clear - ST. induction inputs as [|f l IH]; [reflexivity|]. cbn [existsb].
    rewrite IH by (intros x I; apply ST; right; exact I). unfold is_file. rewrite (ST f (or_introl eq_refl)). reflexivity. }
  rewrite pack_cli_eq in H by assumption. clear N1 N2. unfold bind in H.
  rewrite Forall_forall in EL.
  destruct (pack_main V inputs output p pp (algorithm_asked g) (printed n c)) as [o1 c1] eqn:PM.
  destruct (o1) as [[]|e| |] eqn:O1.
  2-4: injection H as <- <-; split; [discriminate|]; left;
       apply pack_main_any in PM; [|rewrite printed_disk; exact IO]; rewrite printed_disk in PM;
       apply Forall_forall; intros d ID r IR NR;
       destruct (ArchiveResults.place_eq_dec (at_place (disk c1) r) (at_place (disk c) r)) as [E|N]; [exact E|]; exfalso;
       destruct (PM r N) as [X|(t & i & IT & ST' & LR)]; [exact (NR X)|];
       destruct IT as [<-|IT]; [exact (proj2 (EL d ID) i r ST' IR LR)|];
       unfold header_targets in IT; destruct (cp_header p) as [h|] eqn:CP; [|destruct IT];
       destruct IT as [<-|[]]; destruct (ELH h (HG h eq_refl)) as [_ EH]; rewrite Forall_forall in EH;
       exact (proj2 (EH d ID) i r ST' IR LR).
  assert (KP : kept_packed V g c output (disk c') dirs); [|auto].
  destruct (pack_main_begun V inputs output p pp _ (printed n c) c1
     ltac:(rewrite printed_disk; exact ST) PM) as (raw & ho & fh & s4 & s5 & c7 & PB & PR).
  destruct PB as [KT [SD4 _] (c0 & c2 & S0 & GS & E4) CW HX]. rewrite printed_disk in KT, SD4, S0.
  assert (A4 : all_or_nothing s4).
  { rewrite E4. apply (an_secret _ _ _ _ _ _ GS). rewrite S0. exact AN. }
  destruct (oa_create_or_write _ _ _ _ CW A4) as [A5 PHO]. specialize (PHO ho eq_refl).
  assert (A7 : all_or_nothing (disk c7) /\ forall hh, fh = Some hh -> no_short (h_plan hh)).
  { destruct (cp_header p) as [h|].
    - destruct HX as (hh & -> & CH). destruct (oa_create_or_write _ _ _ _ CH A5) as [A7 X]. split; [exact A7|].
      intros x Y. injection Y as <-. apply X. reflexivity.
    - destruct HX as [-> ->]. split; [exact A5|discriminate]. }
  destruct A7 as [A7 PHH].
  assert (CWD : lookup (s_nodes (disk c)) (s_cwd (disk c)) = Some NDir).
  { clear - TO PD NED. destruct dirs as [|d l]; [congruence|]. apply Forall_inv in PD.
    destruct PD as [(AB & GC & a & x & PC) R L _ _]. rewrite resolve_eq in R.
    replace (start (disk c) (fst d)) with (s_cwd (disk c)) in R by (unfold start; rewrite AB; reflexivity).
    eapply walk_first; [exact TO|exact GC| |exact R|exact L].
    rewrite PC, nm_app. cbn. destruct (names_of a); discriminate. }
  destruct (files_made False (disk c) s4 (os_path output) (option_map os_path (cp_header p)) ho fh s5 (disk c7)
    TO CWD IO SD4 (fun X => match X with end) CW) as (qo & MD).
  { destruct (cp_header p) as [h|]; exact HX. }
  { intros h X. destruct (cp_header p) as [h'|] eqn:CP; [|discriminate]. injection X as <-. apply (ELH h' (HG h' eq_refl)). }
  set (s7 := disk c7) in *.
  pose proof MD as [TO7 _ W7 HI _ HD [RQ LQ] MH MI].
  assert (ELH' : forall h, option_map os_path (cp_header p) = Some h -> Forall (fun d => elsewhere (disk c) (snd d) h) dirs).
  { intros h X. destruct (cp_header p) as [h'|] eqn:CP; [|discriminate]. injection X as <-. apply (ELH h' (HG h' eq_refl)). }
  assert (INS : forall d, In d dirs ->
    ~ inside (snd d) qo /\ (forall h qh, option_map os_path (cp_header p) = Some h -> resolve true (disk c) h = Some qh -> ~ inside (snd d) qh)
    /\ forall r, inside (snd d) r -> at_place s7 r = at_place (disk c) r /\ lookup (s_nodes s7) r = lookup (s_nodes (disk c)) r
         /\ lookup (s_nodes (disk c)) r <> Some (NFile (h_ino ho))
         /\ forall hh, fh = Some hh -> lookup (s_nodes (disk c)) r <> Some (NFile (h_ino hh))).
  { intros d ID. apply MI; [exact (EL d ID)|]. intros h X. specialize (ELH' h X). rewrite Forall_forall in ELH'. exact (ELH' d ID). }
  destruct (dirs_made _ _ _ _ _ _ _ _ dirs MD) as [PD7 _]; [apply Forall_forall; exact EL|exact ELH'|exact PD|].
  assert (IO7 : inodes_ok s7) by (eapply ow_inodes; [exact IO|exact W7]).
  assert (NHO : forall hh, fh = Some hh -> h_ino hh < s_next s7 /\ h_ino hh <> h_ino ho /\ s_data s7 (h_ino hh) = []).
  { intros hh ->. destruct (option_map os_path (cp_header p)); [|contradiction]. tauto. }
  destruct (pack_rest_an V inputs output p pp _ raw ho fh c7 c1 A7 (fun hh X => proj1 (proj2 (NHO hh X))) PR)
    as (lists & s8 & tr & a6 & SD8 & A8 & FO & PE & SD1). fold s7 in SD8, FO.
  destruct (lists_items s7 dirs inputs lists TO7 PD7 EI FO) as (IT & FS & FI).
  specialize (FI IO7).
  set (preq := mkPackReq ho fh (List.concat lists) (pp_compression pp) raw
      (mkHT V5 (algorithm_asked g) StreamMode) (cp_hashing p)) in *.
  pose proof SD8 as (N8 & D8 & X8 & C8 & _).
  assert (BS : 0 < BLOCK_SIZE) by (apply Nat.ltb_lt; vm_compute; reflexivity).
  assert (HI8 : h_ino (pr_out preq) < s_next s8) by (rewrite X8; exact HI).
  assert (HH8 : forall hh, pr_hdr preq = Some hh -> h_ino hh < s_next s8 /\ h_ino hh <> h_ino (pr_out preq)
     /\ s_data s8 (h_ino hh) = [] /\ no_short (h_plan hh)).
  { intros hh X. destruct (NHO hh X) as (Y1 & Y2 & Y3). rewrite X8, D8. auto 6. }
  destruct (pack_places _ _ _ _ preq _ _ _ BS HI8 (fun hh X => proj1 (HH8 hh X)) PE) as (C6 & PL).
  destruct (pack_back (ce_E V) (ce_Z V) (ce_pick V) preq s8 tr a6 EO A8 eq_refl FS) as (_ & BK); auto.
  { intros h I. rewrite X8. apply FI, I. }
  { rewrite D8. exact HD. }
  assert (IT8 : map (NamesSpec.item s8) (pr_files preq) = map (zent_it s7) (items s7 dirs)).
  { rewrite <- IT. cbn [preq pr_files]. apply map_ext. intros [h|q]; cbn [NamesSpec.item]; [|reflexivity]. rewrite D8. reflexivity. }
  rewrite IT8 in BK. clear IT8.
  (* the places *)
  pose proof SD1 as (N7 & D7 & X7 & C7 & _).
  assert (CWDS : s_cwd (disk c1) = s_cwd s7) by congruence.
  assert (GR : grown (s_nodes s7) (s_nodes (disk c1))).
  { destruct PL as [PL|(T & RT & LT & PL)]; rewrite N7, PL, N8 in *; [intros r x X; exact X|]. apply grown_add, LT. }
  assert (NEW : forall r x, lookup (s_nodes (disk c1)) r = Some x -> lookup (s_nodes s7) r = Some x \/ x = NFile (s_next s7)).
  { intros r x L. destruct PL as [PL|(T & RT & LT & PL)]; rewrite N7, PL, N8 in *; [left; exact L|].
    rewrite lookup_add in L by exact LT. destruct (cpath_eqb r T); [right; congruence|left; exact L]. }
  assert (TO1 : tree_ok (disk c1)).
  { destruct PL as [PL|(T & RT & LT & PL)].
    - unfold tree_ok. rewrite N7, PL, N8. exact TO7.
    - rewrite N8 in LT. rewrite (FSFacts.resolve_disk _ _ _ _ SD8), resolve_eq in RT.
      assert (WP : exists a m, T = a ++ [m] /\ lookup (s_nodes s7) a = Some NDir).
      { eapply walk_parent; [exact TO7| |exact RT|exact LT].
        unfold start. destruct (p_abs _); [reflexivity|]. rewrite (ow_cwd _ _ _ W7).
        destruct (ow_nodes _ _ _ W7 (s_cwd (disk c))) as [E|[E _]]; congruence. }
      destruct WP as (a & m & -> & LA).
      eapply (tree_add s7 (disk c1)); [exact TO7|exact LA|exact LT|]. rewrite N7, PL, N8. reflexivity. }
  (* the two files stay *)
  set (keep := fun r => r = qo \/ exists h, option_map os_path (cp_header p) = Some h /\ resolve true (disk c) h = Some r).
  assert (KF : forall r, keep r -> (exists i, lookup (s_nodes s7) r = Some (NFile i) /\ i < s_next s7
     /\ (i = h_ino ho \/ exists hh, fh = Some hh /\ i = h_ino hh))
     /\ forall d, In d dirs -> ~ inside (snd d) r).
  { intros r [->|(h & X & R)].
    - split; [eauto 6|]. intros d ID. apply (INS d ID).
    - rewrite X in MH. destruct fh as [hh|]; [|contradiction]. destruct MH as (HL & _ & _ & _ & qh & RH & LH).
      replace r with qh by congruence. split; [eauto 8|]. intros d ID. eapply (proj1 (proj2 (INS d ID))); eauto. }
  assert (KEEP : forall r, keep r -> at_place (disk c') r = at_place (disk c1) r).
  { unfold pack_finish in H. destruct (pp_erase pp); [|unfold ret in H; injection H as <- <-; reflexivity].
    eapply (erase_all_after V 1%Z (cp_force p) (disk c1) keep) with (inputs := inputs) (dirs := dirs); [| exact EI| | | | exact H].
    - intros r KR. destruct (KF r KR) as [(i & LI' & _) _]. exists i. apply GR, LI'.
    - intros d ID. rewrite Forall_forall in PD7. destruct (PD7 d ID) as [_ K2 K3 K4 _].
      split; [exact (resolve_grown_some true s7 (disk c1) _ _ _ GR CWDS K2 K3)|].
      split; [apply GR, K3|]. split.
      { intros r t IR L. destruct (NEW _ _ L) as [L'|L']; [exact (K4 r t IR L')|discriminate L']. }
      intros r KR. destruct (KF r KR) as [(i & LI' & LT' & OR) NI]. split; [exact (NI d ID)|].
      intros j LJ x IX LX. rewrite (GR _ _ LI') in LJ. injection LJ as <-.
      destruct (NEW _ _ LX) as [LX'|LX']; [|injection LX' as ->; lia].
      destruct (INS d ID) as (_ & _ & IN). destruct (IN x IX) as (_ & LX2 & NO & NH). rewrite LX2 in LX'.
      destruct OR as [->|(hh & E & ->)]; [exact (NO LX')|exact (NH hh E LX')].
    - apply trimmed_refl, TO1.
    - reflexivity. }
  (* what they give *)
  assert (UN : forall hdr, match fh, hdr with
      | None, None => True
      | Some hh, Some l => l = s_data (fst a6) (h_ino hh)
          /\ (let start := firstn 416 (s_data (fst a6) (h_ino ho)) in start <> repeat x00 (List.length start))
      | _, _ => False end ->
    unpacks_to (ce_E V) (ce_Z V) raw (s_data (fst a6) (h_ino ho)) hdr (disk c) dirs).
  { intros hdr HH. eapply unpacks_by_path with (s7 := s7); [exact PD7|exact NED| |].
    - intros d ID rel. destruct (INS d ID) as (_ & _ & IN).
      rewrite (proj1 (IN (snd d ++ rel) (ex_intro _ rel eq_refl))).
      destruct (at_place (disk c) (snd d ++ rel)) as [[]|]; cbn; auto.
    - intros pick2 s2 ureq q0 names tr2 T2 NF2 UK AG II IP IPOS ID HU RF.
      eapply (unpack_many (ce_E V) (ce_Z V) BLOCK_SIZE s7 dirs (pp_compression pp)); eauto.
      + intros hu X. rewrite X in HU. destruct hdr; [tauto|contradiction].
      + intros v VI VH VO. rewrite UK.
        destruct (BK hdr HH v) as (v' & DE & WR); auto.
        * rewrite VI. exact IP.
        * rewrite VH. destruct (ur_hdr ureq) as [hu|], hdr; try contradiction; [apply HU|reflexivity].
        * rewrite VI. exact IPOS.
        * rewrite VI. exact ID.
        * intros h ->. rewrite VH. destruct (ur_hdr ureq) as [hu|]; [|contradiction]. destruct HU as (_ & _ & U1 & U2). auto.
        * exists v'. split; [|exact WR]. cbn [preq pr_raw_key] in DE. rewrite <- DE. unfold decrypt_execute. f_equal.
          destruct (ur_hdr ureq), hdr; try contradiction; reflexivity. }
  exists raw, qo, (h_ino ho), (s_data (fst a6) (h_ino ho)). split; [|split; [exact RQ|split]].
  - destruct KT as (ck & t & KA & KB & KC & Y). exists (cp_key p), ck, t. split; [exact (po_key _ _ _ _ PO)|].
    auto.
  - rewrite KEEP by (left; reflexivity). unfold at_place. rewrite (GR _ _ LQ), D7. reflexivity.
  - destruct (g "header"%string) as [|h l] eqn:GH; cbn [hd_error] in HN; rewrite HN in *; cbn [option_map] in *.
    + destruct fh; [contradiction|]. apply UN. exact I.
    + destruct fh as [hh|]; [|contradiction]. destruct MH as (_ & _ & _ & _ & qh & RH & LH).
      exists qh, (h_ino hh), (s_data (fst a6) (h_ino hh)). split; [exact RH|]. split.
      * rewrite KEEP by (right; exists (os_path h); split; [rewrite HN; reflexivity|exact RH]). unfold at_place. rewrite (GR _ _ LH), D7. reflexivity.
      * intros Z. apply UN. split; [reflexivity|exact Z].
Qed.
