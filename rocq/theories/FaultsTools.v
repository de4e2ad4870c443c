(** Key and header commands while calls fail. *)
From Coq Require Import List Arith NArith ZArith Ascii String Bool Lia.
From Verif Require Import Bytes Outcome IO Primitives Crypto Header Stream KeyModel EncDec KeyOps HeaderOps.
From Verif Require Import Overwrite Hash FS Erase Archive Cli CliTools.
From Verif Require Import BytesFacts HeaderSpec HeaderFacts IOSpec IOFacts FileFacts FileProofs.
From Verif Require Import KeySpec KeyFacts KeyProofs DecSim KeyResults HeaderOpsProofs WorldFrames.
From Verif Require Import FSSpec FSFacts ArchiveSpec EraseProofs UnpackProofs PackProofs.
From Verif Require Import CliSpec CliKeys CliRuns CliToolsSpec CliToolsRuns CliToolsHeader FaultsSpec FaultsRuns.
Import ListNotations.
Local Open Scope nat_scope.
Local Open Scope list_scope.

(** ** What succeeds would have succeeded without failures, with the same result *)

Definition ok_sim {S E A} (R : S -> S -> Prop) (m : M S E A) : Prop :=
  forall s e a s', R s e -> m s = (Ok a, s') -> exists e', m e = (Ok a, e') /\ R s' e'.

Lemma os_bind : forall {S E A B} (R : S -> S -> Prop) (m : M S E A) (k : A -> M S E B),
  ok_sim R m -> (forall a, ok_sim R (k a)) -> ok_sim R (bind m k).
Proof.
  intros S E A B R m k H K s e b s' HR X.
  apply bind_inv in X as [(a & s1 & X1 & X2)|[(e0 & _ & Y)|[(_ & Y)|(_ & Y)]]]; try discriminate.
  destruct (H _ _ _ _ HR X1) as (e1 & Y1 & R1). destruct (K a _ _ _ _ R1 X2) as (e2 & Y2 & R2).
  exists e2. unfold bind. rewrite Y1. auto.
Qed.
Lemma os_map_err : forall {S E E' A} (R : S -> S -> Prop) (f : E -> E') (m : M S E A),
  ok_sim R m -> ok_sim R (map_err f m).
Proof.
  intros S E E' A R f m H s e b s' HR X.
  apply map_err_inv in X as [(a & X1 & X2)|[(e0 & _ & Y)|[(_ & Y)|(_ & Y)]]]; try discriminate.
  injection X2 as ->. destruct (H _ _ _ _ HR X1) as (e1 & Y1 & R1). exists e1. unfold map_err. rewrite Y1. auto.
Qed.
Lemma os_lift : forall {S E A} (R : S -> S -> Prop) (o : outcome E A), ok_sim R (lift o).
Proof. intros S E A R o s e a s' HR X. unfold lift in *. injection X as -> ->. eauto. Qed.
Lemma os_ret : forall {S E A} (R : S -> S -> Prop) (a : A), ok_sim R (@ret S E A a).
Proof. intros S E A R a s e b s' HR X. injection X as -> ->. eexists. split; [reflexivity|exact HR]. Qed.
Lemma os_no : forall {S E A} (R : S -> S -> Prop) (m : M S E A), (forall s, exists o, m s = (o, s) /\ forall a, o <> Ok a) ->
  ok_sim R m.
Proof. intros S E A R m H s e a s' HR X. destruct (H s) as (o & Y & N). rewrite Y in X. injection X as -> _. destruct (N a). reflexivity. Qed.
Lemma os_err : forall {S E A} (R : S -> S -> Prop) (e : E), ok_sim R (@err S E A e).
Proof. intros. apply os_no. intros s. eexists. split; [reflexivity|discriminate]. Qed.
Lemma os_panic : forall {S E A} (R : S -> S -> Prop), ok_sim R (@panic S E A).
Proof. intros. apply os_no. intros s. eexists. split; [reflexivity|discriminate]. Qed.

(** The same file, on a device that fails and on one that does not. *)
Definition calm_of (d e : dev) : Prop :=
  d_data e = d_data d /\ d_pos e = d_pos d /\ d_plan e = [] /\ no_short (d_plan d).

Lemma os_read_exact : forall n, ok_sim calm_of (dev_read_exact n).
Proof.
  intros n d e b d' (D & P & L & N) X.
  assert (PS : plan_suffix d d') by (eapply read_exact_loop_suffix; exact X).
  apply dev_read_exact_spec in X as (A & _ & _ & -> & B & C).
  exists (set_pos (d_pos e + n) e). destruct (Nat.eq_dec n 0) as [->|NZ].
  - rewrite Nat.add_0_r in *. cbn [firstn]. split.
    + unfold dev_read_exact. cbn. unfold ret. destruct e; reflexivity.
    + unfold calm_of. cbn [set_pos d_data d_pos d_plan]. repeat (split; [congruence|]). eapply plan_suffix_no_short; eauto.
  - rewrite dev_read_exact_ok by (rewrite ?D, ?P; auto; lia). rewrite D, P. split; [reflexivity|].
    unfold calm_of. cbn [set_pos d_data d_pos d_plan]. rewrite D, A, C. repeat (split; [auto|]). eapply plan_suffix_no_short; eauto.
Qed.
Lemma os_seek_back : forall n, ok_sim calm_of (dev_seek_back n).
Proof.
  intros n d e [] d' (D & P & L & N) X. apply dev_seek_back_spec in X as (S & A & _ & B & C).
  exists (set_pos (d_pos e - n) e). rewrite dev_seek_back_ok by (auto; lia). split; [reflexivity|].
  unfold calm_of. cbn [set_pos d_data d_pos d_plan]. rewrite D, P, A, C. repeat (split; [auto|]).
  eapply plan_step_no_short; eauto.
Qed.
Lemma os_write : forall l, ok_sim calm_of (dev_write l).
Proof.
  intros l d e k d' (D & P & L & N) X. pose proof (dev_write_no_short _ _ _ _ X N) as ->.
  assert (DW : exists d1, d' = put_at l d1 /\ d_data d1 = d_data d /\ d_pos d1 = d_pos d /\ no_short (d_plan d1)).
  { unfold dev_write, next_ev in X. destruct (d_plan d) as [|v p] eqn:E.
    - injection X as <-. exists d. rewrite E. auto.
    - assert (NP : no_short p) by (intros k I; apply (N k); right; exact I).
      destruct v; try discriminate X.
      + injection X as <-. eexists. split; [reflexivity|]. auto.
      + destruct (N k). left. reflexivity. }
  destruct DW as (d1 & -> & A & B & C). exists (put_at l e). unfold dev_write, next_ev. rewrite L. split; [reflexivity|].
  unfold calm_of, put_at. cbn [d_data d_pos d_plan]. rewrite D, P, A, B. auto.
Qed.
Lemma os_deserialize : ok_sim calm_of deserialize.
Proof.
  unfold deserialize. apply os_bind; [apply os_map_err, os_read_exact|]. intros vb.
  apply os_bind; [apply os_map_err, os_seek_back|]. intros u.
  apply os_bind; [unfold lift_opt; destruct (parse_version vb); [apply os_ret|apply os_err]|]. intros v.
  apply os_bind; [apply os_map_err, os_read_exact|]. intros full. apply os_lift.
Qed.
Lemma os_header_write : forall h, ok_sim calm_of (header_write h).
Proof.
  intros h. unfold header_write. apply os_bind; [apply os_lift|]. intros b.
  apply os_bind; [apply os_map_err, os_write|]. intros k. apply os_ret.
Qed.

(** ** The key operations *)

Definition calm_in (w v : world) : Prop := calm_of (w_in w) (w_in v) /\ w_rng w = w_rng v.

Lemma ow_in : forall {E A} (m : M dev E A), ok_sim calm_of m -> ok_sim calm_in (on_in m).
Proof.
  intros E A m H w v a w' [R1 R2] X. unfold on_in, zoom in *. destruct (m (w_in w)) as [o d] eqn:Y.
  injection X as -> <-. destruct (H _ _ _ _ R1 Y) as (e & Z & R). rewrite Z. eexists. split; [reflexivity|].
  split; [exact R|exact R2].
Qed.
Lemma ow_fill : forall {E} n, ok_sim calm_in (@fill_bytes E n).
Proof.
  intros E n w v a w' [R1 R2] X. unfold fill_bytes in *. rewrite R2 in X.
  injection X as <- <-. eexists. split; [reflexivity|]. split; auto.
Qed.
Lemma ow_tr : forall {E A} (m : M trace E A), (forall t1 t2, fst (m t1) = fst (m t2)) -> ok_sim calm_in (on_tr m).
Proof.
  intros E A m H w v a w' [R1 R2] X. unfold on_tr, zoom in *. specialize (H (w_tr w) (w_tr v)).
  destruct (m (w_tr w)) as [o1 t1], (m (w_tr v)) as [o2 t2]. cbn [fst] in H. subst o2. injection X as -> <-.
  eexists. split; [reflexivity|]. split; auto.
Qed.
Lemma ow_open : ok_sim calm_in KeyOps.open_header.
Proof.
  unfold KeyOps.open_header. apply os_bind; [apply os_map_err, ow_in, os_deserialize|]. intros ha. cbv zeta.
  destruct (below_v5 _); [apply os_err|]. apply os_bind; [apply os_map_err, ow_in, os_seek_back|]. intros u.
  destruct (h_keyslots (fst ha)); [apply os_ret|apply os_panic].
Qed.
Lemma ow_rewrite : forall h l, ok_sim calm_in (rewrite_header h l).
Proof. intros h l. unfold rewrite_header. apply os_map_err, ow_in, os_header_write. Qed.

Lemma run_op_calm : forall E op, ok_sim calm_in (run_op E op).
Proof.
  intros E op. destruct op as [old new ha|old new ha|old|pw]; cbn [run_op].
  - unfold key_add. apply os_bind; [apply ow_open|]. intros [h slots].
    apply os_bind; [apply ow_tr; intros; apply master_indep|]. intros mk.
    destruct (_ =? _); [apply os_err|]. apply os_bind; [apply ow_fill|]. intros salt.
    apply os_bind; [apply ow_fill|]. intros nonce.
    apply os_bind; [apply os_map_err, os_lift|]. intros k.
    apply os_bind; [apply ow_tr; intros; apply wrap_indep|]. intros e. apply ow_rewrite.
  - unfold key_change. apply os_bind; [apply ow_open|]. intros [h slots].
    apply os_bind; [apply ow_tr; intros; apply master_indep|]. intros mk.
    apply os_bind; [apply ow_fill|]. intros salt.
    apply os_bind; [apply os_map_err, os_lift|]. intros k.
    apply os_bind; [apply ow_fill|]. intros nonce.
    apply os_bind; [apply ow_tr; intros; apply wrap_indep|]. intros e.
    destruct (_ <? _); [apply ow_rewrite|apply os_panic].
  - unfold key_delete. apply os_bind; [apply ow_open|]. intros [h slots].
    apply os_bind; [apply ow_tr; intros; apply master_indep|]. intros mk.
    destruct (_ <? _); [apply ow_rewrite|apply os_panic].
  - unfold key_verify. apply os_bind; [apply os_map_err, ow_in, os_deserialize|]. intros ha. cbv zeta.
    destruct (below_v5 _); [apply os_err|]. destruct (h_keyslots (fst ha)); [|apply os_panic].
    apply os_bind; [apply ow_tr; intros; apply master_indep|]. intros mk. apply os_ret.
Qed.

(** ** By path *)

Lemma open_rw_an : forall p s h s', open_rw p s = (Ok h, s') -> all_or_nothing s -> no_short (h_plan h).
Proof.
  intros p s h s' H A. unfold open_rw in H.
  destruct (call_or_inv _ _ _ _ _ H) as (s1 & D & RG & PL & C & [(X & _)|HM]); [discriminate|].
  assert (A1 : all_or_nothing s1) by (unfold all_or_nothing in *; rewrite PL; exact A).
  pose proof (next_plan_an s1 A1) as [N _].
  destruct (stat s1 p) as [[|i|t]|]; try discriminate HM.
  destruct (next_plan s1) as [plan s2]. injection HM as <- _. exact N.
Qed.

Lemma open_v5_an : forall input c h c1, open_v5 input c = (Ok h, c1) -> all_or_nothing (disk c) -> no_short (h_plan h).
Proof.
  intros input c h c1 H A. unfold open_v5 in H. unfold bind at 1 in H. rewrite on_fs_run in H.
  destruct (open_rw (os_path input) (disk c)) as [r s1] eqn:OR. cbn [fst snd] in H.
  destruct r as [h0|e| |]; try discriminate H.
  pose proof (open_rw_an _ _ _ _ OR A) as N0.
  unfold bind at 1 in H. set (c2 := set_disk s1 c) in *.
  destruct (on_handle _ h0 c2) as [r2 c3] eqn:D2.
  destruct (on_handle_reads _ _ _ _ _ _ still_deserialize D2) as (o0 & d & DS & -> & _).
  destruct o0 as [[hd aad]|e| |]; try discriminate H. cbn [fst snd] in H.
  destruct (below_v5 (ht_version (h_type hd))); [discriminate H|].
  unfold bind in H. destruct (on_handle _ (move_handle d h0) c3) as [r3 c4] eqn:D3.
  destruct (on_handle_reads _ _ _ _ _ _ still_rewind D3) as (o3 & d3 & DS3 & -> & _).
  destruct o3 as [[]|e| |]; try discriminate H. injection H as <- _.
  cbn [move_handle h_plan]. apply dev_seek_start_spec in DS3 as (PS & _).
  eapply plan_step_no_short; [exact PS|]. cbn [handle_dev move_handle h_plan d_plan].
  assert (DD : exists e, calm_of (handle_dev (disk c2) h0) e).
  { exists (mkDev (d_data (handle_dev (disk c2) h0)) (d_pos (handle_dev (disk c2) h0)) [] []).
    unfold calm_of. cbn [d_data d_pos d_plan handle_dev]. auto. }
  destruct DD as (e & R). destruct (os_deserialize _ _ _ _ R DS) as (e' & _ & (_ & _ & _ & N)). exact N.
Qed.

Lemma tool_done : forall V input t c c', env_ok (ce_E V) -> all_or_nothing (disk c) ->
  run_tool V input t c = (Ok tt, c') ->
  exists i op, stat (disk c) (os_path input) = Some (NFile i) /\ supplies V c t op
    /\ run_on (ce_E V) (op, s_rng (disk c)) (s_data (disk c) i) = (Ok tt, s_data (disk c') i).
Proof.
  intros V input t c c' HE AN H. rewrite run_tool_eq in H. unfold bind at 1 in H.
  destruct (open_v5 input c) as [r1 c1] eqn:OV.
  destruct (open_v5_any _ _ _ _ OV) as (U1 & G1 & N1 & T1 & (A1 & B1) & O1 & CASES).
  destruct CASES as [(h & i & plan & hd & aad & d' & -> & HI & HP & HQ & ST & _)
                    |[(e & -> & _)|(e & -> & _)]]; try discriminate H.
  pose proof (open_v5_an _ _ _ _ OV AN) as NS.
  unfold bind at 1 in H. destruct (take_keys V t c1) as [r2 c2] eqn:TK.
  destruct (take_keys_any _ _ _ _ _ TK) as ([D2 T2 R2 N2] & ND2 & NP2 & OK2 & ER2).
  assert (U2 : unchanged (disk c) (disk c2)) by (eapply un_trans; [exact U1|apply un_disk; exact D2]).
  destruct r2 as [op|e| |]; try discriminate H.
  specialize (OK2 op eq_refl).
  exists i, op. split; [exact ST|].
  assert (S : supplies V c t op) by (revert OK2; apply supplies_un; assumption).
  split; [exact S|].
  destruct (run_op (ce_E V) op (one_world h c2)) as [ro w] eqn:RO.
  assert (RM : map_err TKey (run_op (ce_E V) op) (one_world h c2) = (omap TKey ro, w)).
  { rewrite map_err_run, RO. reflexivity. }
  unfold bind in H. rewrite (on_handle_run _ _ _ _ _ RM) in H.
  destruct ro as [[]|e| |]; cbn [omap] in H; try discriminate H. injection H as <-.
  assert (DATA : s_data (disk (after_one w h c2)) i = d_data (w_in w)).
  { change (disk (after_one w h c2)) with (with_rng (w_rng w) (put_handle (w_in w) h (disk c2))).
    cbn [with_rng put_handle with_data s_data]. rewrite <- HI. apply set_data_eq. }
  set (w0 := mkWorld (dev_at (s_data (disk c) i) 0) (dev_of []) (dev_of []) (s_rng (disk c)) []).
  assert (SI : calm_in (one_world h c2) w0).
  { split; cbn [one_world w0 w_in w_rng]; [|congruence].
    unfold calm_of, handle_dev, dev_at. cbn [d_data d_pos d_plan]. rewrite HI, HP, (un_data _ _ _ U2). auto. }
  destruct (run_op_calm (ce_E V) op _ _ _ _ SI RO) as (v' & RV & ((DV & _) & _)).
  unfold run_on. cbn [fst snd]. fold w0. rewrite RV. cbn [fst snd]. rewrite DATA, DV. reflexivity.
Qed.

(** ** Headers *)

(** A header that was read while calls failed is the header of the file. *)
Lemma read_is : forall l plan h aad d', deserialize (mkDev l 0 plan []) = (Ok (h, aad), d') -> header_is l h aad.
Proof.
  intros l plan h aad d' H. apply deserialize_spec in H as (_ & _ & _ & A & B & C & _). cbn [d_pos d_data] in A, B, C.
  eexists. eapply (deserialize_ok (dev_at l 0)); [reflexivity|reflexivity|exact A|exact B|exact C].
Qed.

Lemma strip_done : forall input c c', strip input c = (Ok tt, c') ->
  exists i h aad, stat (disk c) (os_path input) = Some (NFile i) /\ header_is (s_data (disk c) i) h aad
    /\ let n := get_size (version_of h) in s_data (disk c') i = zeros n ++ skipn n (s_data (disk c) i).
Proof.
  intros input c c' H. destruct (strip_path _ _ _ _ H) as (_ & _ & _ & _ & [(X & _)|(i & plan & h & aad & d' & ST & _ & DS & _ & OKD)] & _);
    [congruence|].
  exists i, h, aad. split; [exact ST|]. split; [eapply read_is; exact DS|]. exact (OKD eq_refl).
Qed.

Lemma restore_done : forall input output c c', all_or_nothing (disk c) -> restore input output c = (Ok tt, c') ->
  exists i j h aad b, stat (disk c) (os_path input) = Some (NFile i) /\ stat (disk c) (os_path output) = Some (NFile j)
    /\ header_is (s_data (disk c) i) h aad /\ serialize h = Ok b
    /\ s_data (disk c') j = b ++ skipn (List.length b) (s_data (disk c) j)
    /\ firstn (List.length b) (s_data (disk c) j)
       = zeros (List.length (firstn (List.length b) (s_data (disk c) j))).
Proof.
  intros input output c c' AN H. unfold restore in H. unfold bind at 1, up at 1 in H. rewrite map_err_run, storage_run in H.
  destruct (read_file (os_path input) (disk c)) as [r s1] eqn:RF. cbn [fst snd] in H.
  destruct (oa_read_file _ _ _ _ RF AN) as [AN1 _].
  destruct (read_file_any _ _ _ _ RF) as (D & CA & CASES). apply un_disk in D.
  destruct r as [fi|e| |]; cbn [omap] in H; try discriminate H.
  unfold bind at 1 in H. rewrite on_fs_run, set_disk_disk in H.
  destruct (open_rw (os_path output) s1) as [r2 s2] eqn:OR. cbn [fst snd] in H.
  destruct (open_rw_any _ _ _ _ OR) as (D2 & RG & CA2 & CASES2). apply un_disk in D2.
  assert (U2 : unchanged (disk c) s2) by (eapply un_trans; eauto).
  change (set_disk s2 (set_disk s1 c)) with (set_disk s2 c) in H.
  destruct CASES2 as [(j & plan2 & -> & STJ & PL2)|(-> & NO)]; [|discriminate H].
  pose proof (open_rw_an _ _ _ _ OR AN1) as NS2. cbn [h_plan] in NS2.
  rewrite (un_stat _ _ _ D) in STJ.
  destruct CASES as [(X & ST)|[(i & plan & X & ST & PL)|[X _]]]; [| |discriminate X];
    injection X as ->; unfold bind, up in H; rewrite map_err_run in H; cbn [try_handle ret err fst snd omap] in H;
    [discriminate H|].
  set (hi := mkHandle (os_path input) i 0 plan) in *. set (ho := mkHandle (os_path output) j 0 plan2) in *.
  set (c2 := set_disk s2 c) in *.
  destruct (header_restore (two_world hi ho c2)) as [ro w] eqn:HR.
  assert (RM : map_err THop header_restore (two_world hi ho c2) = (omap THop ro, w)) by (rewrite map_err_run, HR; reflexivity).
  rewrite (on_handles_run _ _ _ _ _ _ RM) in H. injection H as E <-.
  destruct ro as [[]|e| |]; try discriminate E. clear E.
  pose proof (restore_holds _ _ _ HR) as (_ & _ & OKS).
  destruct (OKS eq_refl) as (hd & aad & d' & b & n & got & DS & SR & LB & _ & _ & NB & WR & NS & _).
  destruct (restore_any _ _ _ HR) as (_ & _ & [(e & X & _)|[(X & _)|(h2 & a2 & d2 & b2 & n2 & got2 & DS2 & SR2 & _ & Z2 & GL & _)]]);
    try discriminate X.
  change (w_in (two_world hi ho c2)) with (mkDev (s_data s2 i) 0 plan []) in *.
  change (w_out (two_world hi ho c2)) with (mkDev (s_data s2 j) 0 plan2 []) in *.
  rewrite !(un_data _ _ _ U2) in *. cbn [d_data d_pos d_plan] in *.
  rewrite DS in DS2. injection DS2 as <- <- <-.
  assert (DATA : s_data (disk (after_two w hi ho c2)) j = d_data (w_out w)).
  { change (disk (after_two w hi ho c2)) with (with_rng (w_rng w) (put_handle (w_out w) ho (put_handle (w_in w) hi s2))).
    cbn [with_rng put_handle with_data s_data]. apply set_data_eq. }
  exists i, j, hd, aad, b. split; [exact ST|]. split; [exact STJ|]. split; [eapply read_is; exact DS|].
  split; [exact SR|]. split.
  - rewrite DATA, WR, (NS NS2), firstn_all. unfold write_at. destruct b; reflexivity.
  - specialize (GL NS2). rewrite Nat.sub_0_r, <- LB in GL.
    unfold slice in Z2. rewrite skipn_O in Z2. rewrite firstn_length, <- GL.
    rewrite <- Z2, GL. destruct (Nat.le_ge_cases (List.length b) (List.length (s_data (disk c) j))).
    + rewrite Nat.min_l by assumption. reflexivity.
    + rewrite Nat.min_r by assumption. rewrite firstn_all, firstn_all2 by assumption. reflexivity.
Qed.
