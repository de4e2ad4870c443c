(** What a run of pack makes is complete, also if calls fail. *)
From Coq Require Import List Arith NArith ZArith Ascii String Bool Lia.
From Verif Require Import Bytes Outcome IO IOFacts Primitives Crypto Header Stream KeyModel EncDec.
From Verif Require Import Overwrite Hash FS Erase Archive Cli.
From Verif Require Import BytesFacts HeaderSpec HeaderFacts IOSpec FileSpec FileFacts FileProofs FSSpec FSFacts EraseProofs ArchiveSpec
  ArchiveProofs UnpackProofs PackProofs RestorePack RestoreProofs ToolSpec ToolProofs CliSpec CliKeys CliRuns CliProofs WorldFrames.
From Verif Require Import NamesSpec FaultsSpec FaultsRuns.
Import ListNotations.
Local Open Scope nat_scope.
Local Open Scope list_scope.

Lemma pack_read_all : forall n bs acc d l d', 0 < bs -> no_short (d_plan d) ->
  pack_read n bs acc d = ((Ok tt, l), d') -> l = acc ++ rest d.
Proof.
  induction n as [|n IH]; intros bs acc d l d' B NS H; cbn [pack_read] in H; [discriminate|].
  destruct (dev_read bs d) as [o d1] eqn:R. apply dev_read_spec in R. destruct R as (P & D & _ & R).
  destruct o as [got|e| |]; try discriminate; try contradiction.
  destruct R as (_ & _ & R3 & _ & R5). specialize (R5 NS).
  destruct (List.length got =? bs) eqn:E.
  - apply IH in H; [|exact B|eapply plan_step_no_short; eauto]. rewrite H, <- app_assoc. f_equal.
    apply Nat.eqb_eq in E. unfold rest. rewrite D, R3, E, R5.
    rewrite <- (firstn_skipn bs (skipn (d_pos d) (d_data d))) at 2. f_equal. rewrite skipn_skipn'. reflexivity.
  - injection H as <- <-. f_equal. unfold rest. rewrite R5. apply firstn_all2.
    apply Nat.eqb_neq in E. rewrite R5, firstn_length in E. lia.
Qed.

Lemma pack_add_all : forall bs s es acc zs s', 0 < bs -> Forall from_start es -> NoDup (map ze_name acc) ->
  pack_add bs es acc s = ((Ok tt, zs), s') -> zs = acc ++ map (item s) es /\ NoDup (map ze_name zs).
Proof.
  intros bs s. induction es as [|e es IH]; intros acc zs s' B F ND H; cbn [pack_add map] in *.
  - injection H as <- <-. rewrite app_nil_r. auto.
  - apply Forall_cons_iff in F. destruct F as [F1 F].
    assert (X : has_name (ze_name (item s e)) acc = false ->
                NoDup (map ze_name (acc ++ [item s e]))).
    { intros HN. rewrite map_app. cbn [map]. apply (NoDup_Add (a := ze_name (item s e)) (l := map ze_name acc)); [rewrite <- (app_nil_r (map ze_name acc)) at 1; apply Add_app|].
      split; [exact ND|]. intros I. assert (has_name (ze_name (item s e)) acc = true); [|congruence].
      unfold has_name. apply existsb_exists. apply in_map_iff in I. destruct I as (z & E & I). exists z. split; [exact I|].
      apply String.eqb_eq. exact E. }
    destruct e as [h|p]; cbn [item ze_name] in X.
    + destruct (has_name (render (h_path h)) acc); [discriminate|].
      destruct (pack_read _ bs [] (handle_dev s h)) as [[o data] d1] eqn:PR.
      destruct o as [[]|e| |]; try discriminate.
      destruct F1 as [F0 F1]. apply pack_read_all in PR; [|exact B|exact F1]. cbn [app] in PR.
      unfold rest in PR. cbn [handle_dev d_pos d_data] in PR. rewrite F0 in PR. cbn [skipn] in PR. subst data.
      destruct (IH _ _ _ B F (X eq_refl) H) as [-> Y]. split; [|exact Y]. rewrite <- app_assoc. reflexivity.
    + destruct (has_name (dir_name (render p)) acc); [discriminate|].
      destruct (IH _ _ _ B F (X eq_refl) H) as [-> Y]. split; [|exact Y]. rewrite <- app_assoc. reflexivity.
Qed.

(** ** The parts of a run that succeeds *)

Lemma temp_an : forall pick s h s1, create_temp_file pick s = (Ok (EFile h), s1) -> all_or_nothing s ->
  no_short (h_plan h).
Proof.
  intros pick s h s1 H A. unfold create_temp_file in H. destruct (pick (s_rng s)) as [n g].
  destruct (oa_create_file _ _ _ _ H A) as [_ X]. apply X. reflexivity.
Qed.

Lemma write_all_an : forall n l d o d', write_all_loop n l d = (o, d') ->
  no_short (d_plan d) -> no_short (d_plan d').
Proof.
  induction n as [|n IH]; intros l d o d' H NS; destruct l as [|b l]; cbn [write_all_loop] in H;
    try (injection H as <- <-; exact NS).
  destruct (dev_write (b :: l) d) as [r d1] eqn:W. apply dev_write_spec in W. destruct W as [P _].
  pose proof (plan_step_no_short _ _ P NS) as N1.
  destruct r as [[|k]|[]| |]; try (injection H as <- <-; exact N1); eapply IH; eauto.
Qed.

Lemma put_archive_ok : forall l h s h' s', h_pos h = 0 -> s_data s (h_ino h) = [] -> no_short (h_plan h) ->
  put_archive l h s = ((Ok tt, h'), s') ->
  s_data s' (h_ino h) = l /\ h_ino h' = h_ino h /\ no_short (h_plan h')
  /\ (forall j, j <> h_ino h -> s_data s' j = s_data s j).
Proof.
  intros l h s h' s' P D NS H. unfold put_archive in H. pose proof H as T. apply run_handle_tree in T.
  destruct T as (_ & HI & _ & DD & _). unfold run_handle in H.
  destruct (ow_dev (dev_write_all l) (handle_dev s h, s_rng s)) as [ot [d g]] eqn:OD.
  apply ow_dev_inv in OD. destruct OD as [OD _]. cbn [fst] in OD. injection H as -> <- <-.
  pose proof (write_all_an _ _ _ _ _ OD NS) as NS'.
  apply dev_write_all_spec in OD. destruct OD as [_ [OD _]].
  cbn [handle_dev d_data d_pos] in OD. rewrite P, D, write_at_empty in OD.
  split. { cbn [with_rng put_handle with_data s_data]. unfold set_data. rewrite Nat.eqb_refl. exact OD. }
  split; [exact HI|]. split; [exact NS'|exact DD].
Qed.

Section Made.
Variables (E : env) (Z : zip_env) (pick : rng -> string * rng) (bs : nat) (req : pack_request).

Lemma pack_made : forall s tr a', 0 < bs -> all_or_nothing s ->
  Forall from_start (pr_files req) -> (forall h, In (EFile h) (pr_files req) -> h_ino h < s_next s) ->
  h_ino (pr_out req) < s_next s -> s_data s (h_ino (pr_out req)) = [] ->
  (forall hh, pr_hdr req = Some hh -> h_ino hh < s_next s /\ h_ino hh <> h_ino (pr_out req)
     /\ s_data s (h_ino hh) = []) ->
  pack_execute_bs E Z pick bs req (s, tr) = (Ok tt, a') ->
  let zs := map (item s) (pr_files req) in
  NoDup (map ze_name zs)
  /\ exists w w', encrypt_execute_bs E bs (encreq req) w = (Ok tt, w')
    /\ d_data (w_in w) = z_encode Z (pr_compression req) zs
    /\ no_short (d_plan (w_in w)) /\ d_data (w_out w) = [] /\ d_plan (w_out w) = h_plan (pr_out req)
    /\ (forall hh, pr_hdr req = Some hh -> d_data (w_hdr w) = [] /\ d_plan (w_hdr w) = h_plan hh)
    /\ s_data (fst a') (h_ino (pr_out req)) = d_data (w_out w')
    /\ forall hh, pr_hdr req = Some hh -> s_data (fst a') (h_ino hh) = d_data (w_hdr w').
Proof.
  intros s tr a' B AN FS FO HO DO HH H zs. unfold pack_execute_bs in H.
  apply bind_inv in H. destruct H as [(tmp & a1 & H1 & H)|[(e & _ & X)|[[_ X]|[_ X]]]]; try discriminate X.
  apply map_err_inv in H1. destruct H1 as [(tmp' & H1 & X)|[(e & _ & X)|[[_ X]|[_ X]]]]; try discriminate X.
  apply Ok_inj in X. subst tmp'.
  apply zoom_inv in H1. destruct H1 as (s1 & H1 & ->). cbn [fst snd] in H1.
  pose proof (create_temp_any True _ _ _ _ H1) as CT.
  destruct CT as [[_ X]|(T & plan & _ & _ & X & TM & ZD & _)]; [discriminate|]. apply Ok_inj in X. subst tmp.
  pose proof (temp_an _ _ _ _ H1 AN) as NP. cbn [h_plan] in NP.
  set (h0 := mkHandle (temp_path pick s) (s_next s) 0 plan) in *.
  (* the archive *)
  apply bind_inv in H. destruct H as [(r1 & a2 & H2 & H)|[(e & _ & X)|[[_ X]|[_ X]]]]; try discriminate X.
  cbn [fst snd] in H2. unfold lift_h in H2.
  destruct (pack_archive Z bs req h0 s1) as [[o2 h2] s2] eqn:PK.
  destruct o2 as [[]|e| |]; try discriminate H2. injection H2 as <- <-.
  unfold pack_archive in PK. destruct (pack_add bs (pr_files req) [] s1) as [[o zs'] s3] eqn:ADD.
  pose proof (pack_add_state _ _ _ _ _ _ _ ADD) as ES. subst s3.
  destruct (put_archive (z_encode Z (pr_compression req) zs') h0 s1) as [[w h3] s3] eqn:PUT.
  destruct o as [[]|e| |]; try discriminate PK. destruct w as [[]|e| |]; try discriminate PK.
  injection PK as -> ->.
  apply pack_add_all in ADD; [|exact B|exact FS|constructor]. destruct ADD as [EZ ND]. cbn [app] in EZ.
  assert (EI : map (item s1) (pr_files req) = zs).
  { apply map_ext_in. intros e I. destruct e as [h|p]; [|reflexivity]. unfold item. f_equal.
    apply (tm_data _ _ _ _ TM). pose proof (FO _ I). lia. }
  rewrite EI in EZ. subst zs'. split; [exact ND|].
  apply put_archive_ok in PUT; [|reflexivity|exact ZD|exact NP]. destruct PUT as (PD & PI & PN & PO).
  cbn [h0 h_ino] in PD, PI, PO.
  assert (DS : forall j, j <> s_next s -> s_data s2 j = s_data s j).
  { intros j NE. rewrite PO by exact NE. apply (tm_data _ _ _ _ TM). exact NE. }
  (* the length *)
  cbn [snd fst] in H. apply bind_inv in H. destruct H as [(cap & a3 & H3 & H)|[(e & _ & X)|[[_ X]|[_ X]]]]; try discriminate X.
  apply map_err_inv in H3. destruct H3 as [(cap' & H3 & _)|[(e & _ & X)|[[_ X]|[_ X]]]]; try discriminate X.
  apply zoom_inv in H3. destruct H3 as (s3 & H3 & ->). cbn [fst snd] in H3.
  unfold file_len in H3. apply call_or_inv in H3. destruct H3 as (s4 & SD & _ & _ & _ & X).
  assert (D3 : s_data s3 = s_data s2).
  { destruct X as [(X1 & X2 & _)|X]; [first [discriminate X1|discriminate X2]|]. injection X as _ <-. apply SD. }
  clear X SD.
  (* encrypting *)
  match type of H with context [run_world ?m h2 ?b ?c ?d] => destruct (run_world m h2 b c d) as [[oe [h4 hx]] a4] eqn:RW end.
  assert (OE : oe = Ok tt /\ exists o6, wipe_temp h4 cap 2 (fst a4) = (o6, fst a')).
  { destruct oe as [[]|e| |]; try discriminate H.
    - split; [reflexivity|]. apply bind_inv in H.
      destruct H as [(u & a5 & H4 & H)|[(e & _ & X)|[[_ X]|[_ X]]]]; try discriminate X.
      injection H as <-. apply zoom_inv in H4. destruct H4 as (s5 & H4 & ->). cbn [fst].
      unfold map_err in H4. destruct (wipe_temp h4 cap 2 (fst a4)) as [o6 s6]. exists o6.
      destruct o6; injection H4; intros; subst; reflexivity.
    - apply bind_inv in H. destruct H as [(u & a5 & H4 & H)|[(x & _ & X)|[[_ X]|[_ X]]]]; try discriminate X. discriminate H. }
  destruct OE as (-> & o6 & WT). clear H.
  apply wipe_any in WT. destruct WT as [WD _].
  unfold run_world in RW. cbn [fst snd] in RW.
  set (w0 := mkWorld (handle_dev s3 h2) (handle_dev s3 (pr_out req)) (opt_dev s3 (pr_hdr req)) (s_rng s3) tr) in RW.
  fold (encreq req) in RW.
  destruct (encrypt_execute_bs E bs (encreq req) w0) as [oo w1] eqn:EN.
  injection RW as R1 R2 R3 R4. subst oo.
  assert (HI4 : h_ino h4 = s_next s) by (rewrite <- R2; cbn [move_handle h_ino]; exact PI).
  rewrite HI4 in WD.
  exists w0, w1. split; [exact EN|]. unfold w0. cbn [w_in w_out w_hdr handle_dev d_data d_plan].
  split; [rewrite PI, D3; exact PD|]. split; [exact PN|].
  split; [rewrite D3, DS by lia; exact DO|]. split; [reflexivity|]. split.
  { intros hh X. rewrite X. cbn [opt_dev handle_dev d_data d_plan]. split; [|reflexivity].
    destruct (HH hh X) as (L & _ & EM). rewrite D3, DS by lia. exact EM. }
  split; [|intros hh X; destruct (HH hh X) as (L & _ & _)]; rewrite WD by lia; rewrite <- R4; cbn [fst with_rng s_data put_opt].
  - destruct (pr_hdr req) as [hh|] eqn:PH; cbn [put_opt].
    + destruct (HH hh eq_refl) as (_ & N & _). unfold put_handle; cbn [with_data s_data]; unfold set_data.
      destruct (Nat.eqb_spec (h_ino (pr_out req)) (h_ino hh)) as [Y|Y]; [congruence|].
      rewrite Nat.eqb_refl. reflexivity.
    + unfold put_handle; cbn [with_data s_data]; unfold set_data. rewrite Nat.eqb_refl. reflexivity.
  - rewrite X. cbn [put_opt]. unfold put_handle at 1; cbn [with_data s_data]; unfold set_data. rewrite Nat.eqb_refl. reflexivity.
Qed.
End Made.

(** ** What was encrypted can be got back *)

Lemma pack_back : forall E Z pick req s tr a', env_ok E -> all_or_nothing s ->
  ht_version (pr_header_type req) = V5 ->
  Forall from_start (pr_files req) -> (forall h, In (EFile h) (pr_files req) -> h_ino h < s_next s) ->
  h_ino (pr_out req) < s_next s -> s_data s (h_ino (pr_out req)) = [] -> no_short (h_plan (pr_out req)) ->
  (forall hh, pr_hdr req = Some hh -> h_ino hh < s_next s /\ h_ino hh <> h_ino (pr_out req)
     /\ s_data s (h_ino hh) = [] /\ no_short (h_plan hh)) ->
  pack_execute E Z pick req (s, tr) = (Ok tt, a') ->
  let zs := map (item s) (pr_files req) in
  let archive := s_data (fst a') (h_ino (pr_out req)) in
  NoDup (map ze_name zs)
  /\ forall hdr,
     match pr_hdr req, hdr with
     | None, None => True
     | Some hh, Some l => l = s_data (fst a') (h_ino hh)
         /\ firstn 416 archive <> repeat x00 (List.length (firstn 416 archive))
     | _, _ => False
     end ->
     forall v, d_plan (w_in v) = [] -> d_plan (w_out v) = [] -> d_plan (w_hdr v) = [] ->
     d_pos (w_in v) = 0 -> d_data (w_in v) = archive ->
     (forall h, hdr = Some h -> d_pos (w_hdr v) = 0 /\ d_data (w_hdr v) = h) ->
     exists v', decrypt_execute E (is_some hdr) (pr_raw_key req) v = (Ok tt, v')
       /\ wrote (w_out v) (w_out v') (z_encode Z (pr_compression req) zs).
Proof.
  intros E Z pick req s tr a' HE AN V5' FS FO HO DO PO HH H zs archive.
  pose proof BLOCK_SIZE_pos as BP.
  destruct (pack_made E Z pick BLOCK_SIZE req s tr a' BLOCK_SIZE_pos AN FS FO HO DO) as (ND & w & w' & EN & DI & PI & DOW & POW & HW & OUT & OUTH);
    [intros hh X; destruct (HH hh X) as (A & B & C & _); auto|exact H|].
  split; [exact ND|]. fold zs in DI. fold archive in OUT.
  destruct (made_back E BLOCK_SIZE (encreq req) w w' HE BLOCK_SIZE_pos V5' PI)
    as (h & b & aad & ct & cs & WF & HM & SZ & LB & CA & UN & SB & R); auto.
  { rewrite POW. exact PO. }
  { intros DT. unfold encreq in DT. cbn [er_detached] in DT. destruct (pr_hdr req) as [hh|]; [|discriminate DT].
    destruct (HW hh eq_refl) as [A ->]. split; [|exact A]. apply (HH hh eq_refl). }
  rewrite DI in SB. unfold encreq in R, UN. cbn [er_detached er_raw_key] in R, UN.
  intros hdr HX v A1 A2 A3 A4 A5 A6.
  destruct (pr_hdr req) as [hh|], hdr as [l|]; try contradiction.
  - destruct R as [OH OB]. destruct HX as [-> AZ].
    destruct (A6 _ eq_refl) as [P6 D6].
    eapply (decrypt_detached_honest E BLOCK_SIZE (pr_raw_key req) h b aad); try exact BP; eauto.
    + exists []. rewrite P6, D6, (OUTH hh eq_refl), OH, app_nil_r. reflexivity.
    + right. rewrite OUT, OB in *. split; [exact A5|]. rewrite LB.
      destruct (all_zero (firstn 416 ct)) eqn:Q; [|reflexivity]. apply all_zero_repeat in Q. contradiction.
  - eapply (decrypt_embedded_honest E BLOCK_SIZE (pr_raw_key req) h b aad); try exact BP; eauto.
    unfold rest. rewrite A4, A5, OUT. exact R.
Qed.

Lemma pack_faults : forall E Z pick req s tr a', env_ok E -> all_or_nothing s ->
  ht_version (pr_header_type req) = V5 ->
  Forall from_start (pr_files req) -> (forall h, In (EFile h) (pr_files req) -> h_ino h < s_next s) ->
  h_ino (pr_out req) < s_next s -> s_data s (h_ino (pr_out req)) = [] -> no_short (h_plan (pr_out req)) ->
  (forall hh, pr_hdr req = Some hh -> h_ino hh < s_next s /\ h_ino hh <> h_ino (pr_out req)
     /\ s_data s (h_ino hh) = [] /\ no_short (h_plan hh)) ->
  pack_execute E Z pick req (s, tr) = (Ok tt, a') ->
  let zs := map (item s) (pr_files req) in
  let archive := s_data (fst a') (h_ino (pr_out req)) in
  NoDup (map ze_name zs)
  /\ match pr_hdr req with
     | None => recovers E (pr_raw_key req) archive None (z_encode Z (pr_compression req) zs)
     | Some hh => firstn 416 archive <> repeat x00 (List.length (firstn 416 archive)) ->
         recovers E (pr_raw_key req) archive (Some (s_data (fst a') (h_ino hh))) (z_encode Z (pr_compression req) zs)
     end.
Proof.
  intros E Z pick req s tr a' HE AN V5' FS FO HO DO PO HH H zs archive.
  destruct (pack_back E Z pick req s tr a' HE AN V5' FS FO HO DO PO HH H) as [ND BK]. fold zs archive in ND, BK.
  split; [exact ND|]. destruct (pr_hdr req) as [hh|].
  - intros AZ. apply recovers_of. intros v A1 A2 A3 A4 _ A5 A6 _ _. apply BK; auto.
  - apply recovers_of. intros v A1 A2 A3 A4 _ A5 A6 _ _. apply BK; auto.
Qed.
