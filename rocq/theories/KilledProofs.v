(** Key commands, header commands and unpack that are cut off. *)
From Coq Require Import List Arith NArith ZArith String Lia Bool.
From Verif Require Import Bytes Outcome IO Primitives Crypto Header KeyModel EncDec KeyOps HeaderOps FS Erase Archive Cli CliTools.
From Verif Require Import BytesFacts IOSpec IOFacts KeySpec KeyProofs KeyResults KeyCrash FSSpec FSFacts ArchiveSpec EraseProofs UnpackProofs ArchiveResults CliSpec CliRuns FreshSpec.
From Verif Require Import CliToolsSpec CliToolsRuns CliToolsHeader CliToolsUnpack CliToolsResults CrashSpec CrashLib CrashLog CrashProofs KilledSpec.
Import ListNotations.
Local Open Scope nat_scope.
Local Open Scope list_scope.

(** ** Writes to one file *)

Definition header_write_event (i n : nat) (e : fsev) : Prop :=
  match e with FWrite j off l => j = i /\ off + List.length l <= n | _ => False end.

Lemma shuffled_one : forall i n es es', shuffled es es' -> Forall (header_write_event i n) es -> es' = es.
Proof.
  intros i n es es' H. induction H as [es|a x p l j q m b es N H IH]; intros F; [reflexivity|].
  exfalso. apply Forall_app in F as [_ F]. inversion F as [|? ? F1 F2]; subst. inversion F2 as [|? ? F3 F4]; subst.
  cbn in F1, F3. destruct F1, F3. congruence.
Qed.
Lemma cut_header : forall i n es es', cut es es' -> Forall (header_write_event i n) es -> Forall (header_write_event i n) es'.
Proof.
  intros i n es es' H F. destruct H as [a b|a j p l b m].
  - apply Forall_app in F as [F _]. exact F.
  - apply Forall_app in F as [F G]. apply Forall_app. split; [exact F|]. inversion G as [|? ? G1 _]; subst.
    constructor; [|constructor]. cbn in *. destruct G1 as [G1 G2]. split; [exact G1|]. rewrite firstn_length. lia.
Qed.
Lemma redo_tail : forall i n es, Forall (header_write_event i n) es -> forall s, tail_kept i n s (redo es s).
Proof.
  intros i n es F. induction F as [|e es He F IH]; intros s; [repeat split|].
  change (redo (e :: es) s) with (redo es (redo1 s e)).
  destruct (IH (redo1 s e)) as [[A B] C].
  destruct e as [x j|x|j|j off l|x|x]; try contradiction. destruct He as [-> L].
  split; [split|].
  - rewrite A. reflexivity.
  - intros j J. rewrite B by exact J. cbn [redo1 s_data content_after].
    destruct (Nat.eqb_spec j i); [contradiction|reflexivity].
  - rewrite C. cbn [redo1 s_data content_after]. rewrite Nat.eqb_refl. apply write_at_skipn, L.
Qed.
Lemma redo_grows : forall i n es, Forall (header_write_event i n) es -> forall s,
  List.length (s_data s i) <= List.length (s_data (redo es s) i).
Proof.
  intros i n es F. induction F as [|e es He F IH]; intros s; [reflexivity|].
  change (redo (e :: es) s) with (redo es (redo1 s e)). etransitivity; [|apply IH].
  destruct e as [x j|x|j|j off l|x|x]; try contradiction. destruct He as [-> L].
  cbn [redo1 s_data content_after]. rewrite Nat.eqb_refl, write_at_length. destruct l; lia.
Qed.
Lemma cut_shorter : forall i n es es', cut es es' -> Forall (header_write_event i n) es -> forall s,
  List.length (s_data (redo es' s) i) <= List.length (s_data (redo es s) i).
Proof.
  intros i n es es' H F s. destruct H as [a b|a j p l b m]; apply Forall_app in F as [F G]; rewrite !redo_app.
  - eapply redo_grows. exact G.
  - inversion G as [|? ? G1 G2]; subst. cbn in G1. destruct G1 as [-> G1].
    change (redo (FWrite i p l :: b) (redo a s)) with (redo b (redo1 (redo a s) (FWrite i p l))).
    etransitivity; [|eapply redo_grows; exact G2].
    cbn [redo fold_left redo1 s_data content_after]. rewrite Nat.eqb_refl, !write_at_length, firstn_length.
    destruct l as [|x l]; [rewrite firstn_nil; lia|]. destruct m; cbn [firstn]; lia.
Qed.

Lemma killed_events : forall s s' k es, killed s s' k -> added s s' es ->
  exists es1 es2, shuffled es es1 /\ cut es1 es2 /\ k = redo es2 s.
Proof.
  intros s s' k es (es0 & es1 & es2 & A & S & C & E) AD. rewrite (added_inj _ _ _ _ AD A). eauto.
Qed.
Lemma killed_none : forall s s' k, killed s s' k -> s_log s' = s_log s -> k = s.
Proof.
  intros s s' k K L. destruct (killed_events _ _ _ [] K) as (es1 & es2 & S & C & ->).
  { unfold added. rewrite app_nil_r. exact L. }
  assert (es1 = []) by (inversion S as [|a]; [reflexivity|]; destruct a; discriminate). subst es1.
  inversion C as [a b E|a j p l b n E].
  - apply app_eq_nil in E as [-> _]. subst es2. reflexivity.
  - destruct a; discriminate.
Qed.
Lemma killed_file : forall i n s s' k, only_file i n s s' -> killed s s' k -> tail_kept i n s k.
Proof.
  intros i n s s' k (_ & _ & _ & _ & _ & es & AD & F) K.
  destruct (killed_events _ _ _ _ K AD) as (es1 & es2 & S & C & ->).
  change (Forall (header_write_event i n) es) in F.
  rewrite (shuffled_one i n _ _ S F) in C. apply redo_tail. exact (cut_header _ _ _ _ C F).
Qed.
Lemma killed_header : forall i n s s' k, told s s' -> only_header i n s s' -> killed s s' k -> rest_kept i n s k.
Proof.
  intros i n s s' k (es' & T) [OF (LEN & _)] K. destruct (killed_file _ _ _ _ _ OF K) as [O T2].
  split; [exact O|]. destruct OF as (_ & _ & _ & _ & _ & es & AD & F).
  destruct (killed_events _ _ _ _ K AD) as (es1 & es2 & S & C & ->).
  change (Forall (header_write_event i n) es) in F. rewrite (shuffled_one i n _ _ S F) in C.
  assert (es' = es).
  { destruct T as (_ & _ & _ & _ & _ & L). rewrite redo_log in L. unfold added in AD. rewrite AD in L.
    apply app_inv_head in L. auto. }
  subst es'. destruct T as (_ & D & _).
  split; [|split; [reflexivity|exact T2]].
  pose proof (cut_shorter _ _ _ _ C F s) as X. rewrite <- D, LEN in X.
  pose proof (redo_grows _ _ _ (cut_header _ _ _ _ C F) s). lia.
Qed.

(** ** Header commands *)

Lemma rest_same : forall i n s, rest_kept i n s s.
Proof. intros i n s. repeat split. Qed.

Lemma key_killed_rest : forall V input t c o c' i k, env_ok (ce_E V) ->
  stat (disk c) (os_path input) = Some (NFile i) ->
  run_tool V input t c = (o, c') -> killed (disk c) (disk c') k -> rest_kept i 416 (disk c) k.
Proof.
  intros V input t c o c' i k HE ST H K.
  pose proof (c_tool V input t c _ _ H) as TD.
  destruct (run_tool_any _ _ _ _ _ _ HE H) as (_ & _ & [(_ & U)|(_ & j & SJ & OH)] & _).
  - rewrite (killed_none _ _ _ K) by apply U. apply rest_same.
  - rewrite ST in SJ. injection SJ as <-. exact (killed_header _ _ _ _ _ TD OH K).
Qed.
Lemma strip_killed_rest : forall input c o c' i k,
  stat (disk c) (os_path input) = Some (NFile i) ->
  strip input c = (o, c') -> killed (disk c) (disk c') k -> rest_kept i 416 (disk c) k.
Proof.
  intros input c o c' i k ST H K. pose proof (c_strip input c _ _ H) as TD.
  destruct (strip_safe _ _ _ _ H) as (_ & _ & [(_ & U)|(j & n & SJ & IN & OH)] & _).
  - rewrite (killed_none _ _ _ K) by apply U. apply rest_same.
  - rewrite ST in SJ. injection SJ as <-. destruct (killed_header _ _ _ _ _ TD OH K) as [A (L & _ & B)].
    split; [exact A|]. split; [exact L|]. split; [reflexivity|]. cbn [Nat.add] in *.
    assert (N : exists m, 416 = n + m) by (destruct IN as [<-|[<-|[<-|[]]]]; [exists 352|exists 288|exists 0]; reflexivity).
    destruct N as (m & ->). rewrite <- (skipn_skipn' m n (s_data k i)), <- (skipn_skipn' m n (s_data (disk c) i)), B. reflexivity.
Qed.
Lemma restore_killed_tail : forall input output c o c' j k,
  stat (disk c) (os_path output) = Some (NFile j) ->
  restore input output c = (o, c') -> killed (disk c) (disk c') k -> tail_kept j 416 (disk c) k.
Proof.
  intros input output c o c' j k ST H K.
  destruct (restore_safe _ _ _ _ _ H) as (_ & _ & U & OK & _).
  destruct o as [[]|e| |].
  - destruct (OK eq_refl) as (i & SI & OF). rewrite ST in SI. injection SI as <-. exact (killed_file _ _ _ _ _ OF K).
  - rewrite (killed_none _ _ _ K) by (apply U; discriminate). repeat split.
  - rewrite (killed_none _ _ _ K) by (apply U; discriminate). repeat split.
  - rewrite (killed_none _ _ _ K) by (apply U; discriminate). repeat split.
Qed.

(** ** The passwords *)

Lemma run_tool_log : forall V input t c c', env_ok (ce_E V) -> no_faults (disk c) ->
  run_tool V input t c = (Ok tt, c') ->
  exists i op w w', stat (disk c) (os_path input) = Some (NFile i) /\ supplies V c t op
    /\ w_in w = dev_at (s_data (disk c) i) 0 /\ run_op (ce_E V) op w = (Ok tt, w')
    /\ s_data (disk c') i = d_data (w_in w')
    /\ added (disk c) (disk c') (map (fun x => FWrite i (fst x) (snd x)) (d_log (w_in w'))).
Proof.
  intros V input t c c' HE NF H. rewrite run_tool_eq in H. unfold bind at 1 in H.
  destruct (open_v5 input c) as [r1 c1] eqn:OV.
  destruct (open_v5_any _ _ _ _ OV) as (U1 & G1 & N1 & T1 & (A1 & B1) & O1 & CASES).
  destruct CASES as [(h & i & plan & hd & aad & d' & -> & HI & HP & HQ & ST & DS & V5H & PL)
                    |[(e & -> & IE & WHY)|(e & -> & WHY)]]; [|discriminate H..].
  unfold bind at 1 in H.
  destruct (take_keys V t c1) as [r2 c2] eqn:TK.
  destruct (take_keys_any _ _ _ _ _ TK) as ([D2 T2 R2 N2] & ND2 & NP2 & OK2 & ER2).
  assert (U2 : unchanged (disk c) (disk c2)) by (eapply un_trans; [exact U1|apply un_disk; exact D2]).
  assert (SB : forall op, supplies V c1 t op -> supplies V c t op) by (intros op; apply supplies_un; assumption).
  destruct r2 as [op|e| |]; [|discriminate H..].
  specialize (OK2 op eq_refl). apply SB in OK2.
  destruct (run_op (ce_E V) op (one_world h c2)) as [ro w] eqn:RO.
  assert (RM : map_err TKey (run_op (ce_E V) op) (one_world h c2) = (omap TKey ro, w)).
  { rewrite map_err_run, RO. reflexivity. }
  unfold bind in H. rewrite (on_handle_run _ _ _ _ _ RM) in H.
  destruct ro as [[]|e| |]; try discriminate H. cbn [omap] in H. injection H as <-.
  exists i, op, (one_world h c2), w. split; [exact ST|]. split; [exact OK2|].
  destruct (PL NF) as [_ HPL].
  split. { cbn [one_world w_in]. unfold handle_dev, dev_at. rewrite HI, HP, HPL, (un_data _ _ _ U2). reflexivity. }
  split; [exact RO|].
  assert (DD : disk (after_one w h c2) = with_rng (w_rng w) (put_handle (w_in w) h (disk c2))) by reflexivity.
  rewrite DD. split.
  - cbn [with_rng put_handle with_data s_data]. rewrite <- HI. apply set_data_eq.
  - destruct U2 as (UA & UB & UC & UD & UE & UF). unfold added. cbn [with_rng put_handle with_data s_log].
    rewrite UF, HI. reflexivity.
Qed.

(** A part of writes that follow each other. *)
Lemma redo_chunks : forall i cs p s, 
  s_data (redo (map (fun x => FWrite i (fst x) (snd x)) (chunk_log p cs)) s) i
  = write_at (s_data s i) p (List.concat cs).
Proof.
  intros i cs. induction cs as [|c cs IH]; intros p s; [reflexivity|].
  cbn [chunk_log map fst snd List.concat].
  rewrite <- write_at_app. match goal with |- s_data (redo (?e :: ?es) s) i = _ => change (redo (e :: es) s) with (redo es (redo1 s e)) end.
  rewrite IH. cbn [redo1 s_data content_after]. rewrite Nat.eqb_refl. reflexivity.
Qed.
Lemma chunks_split : forall cs p a b i, map (fun x => FWrite i (fst x) (snd x)) (chunk_log p cs) = a ++ b ->
  exists ca cb, cs = ca ++ cb /\ a = map (fun x => FWrite i (fst x) (snd x)) (chunk_log p ca)
    /\ b = map (fun x => FWrite i (fst x) (snd x)) (chunk_log (p + List.length (List.concat ca)) cb).
Proof.
  induction cs as [|c cs IH]; intros p a b i H.
  - cbn in H. symmetry in H. apply app_eq_nil in H as [-> ->]. exists [], []. auto.
  - destruct a as [|e a].
    + exists [], (c :: cs). cbn in *. rewrite Nat.add_0_r. auto.
    + cbn [chunk_log map] in H. injection H as <- H. destruct (IH _ _ _ _ H) as (ca & cb & -> & -> & ->).
      exists (c :: ca), cb. cbn [app chunk_log map List.concat]. rewrite app_length, Nat.add_assoc. auto.
Qed.
Lemma cut_chunks : forall i cs p es s, cut (map (fun x => FWrite i (fst x) (snd x)) (chunk_log p cs)) es ->
  exists m, m <= List.length (List.concat cs)
    /\ s_data (redo es s) i = write_at (s_data s i) p (firstn m (List.concat cs)).
Proof.
  intros i cs p es s C.
  remember (map (fun x => FWrite i (fst x) (snd x)) (chunk_log p cs)) as l eqn:EL.
  destruct C as [a b|a j q l b n]; destruct (chunks_split _ _ _ _ _ (eq_sym EL)) as (ca & cb & -> & -> & EB);
    rewrite concat_app.
  - exists (List.length (List.concat ca)). rewrite app_length, firstn_app_exact by reflexivity.
    split; [lia|apply redo_chunks].
  - destruct cb as [|c cb]; [discriminate EB|]. cbn [chunk_log map fst snd] in EB. injection EB as -> -> -> _.
    exists (List.length (List.concat ca) + List.length (firstn n c)). cbn [List.concat].
    rewrite !app_length, firstn_length. split; [lia|].
    rewrite redo_app. cbn [redo fold_left redo1 s_data content_after]. rewrite Nat.eqb_refl.
    fold (redo (map (fun x => FWrite i (fst x) (snd x)) (chunk_log p ca)) s). rewrite redo_chunks.
    rewrite firstn_app_2, firstn_app. 
    replace (Nat.min n (List.length c) - List.length c) with 0 by lia. cbn [firstn]. rewrite app_nil_r.
    rewrite <- write_at_app. f_equal. 
    destruct (Nat.le_gt_cases n (List.length c)); [rewrite Nat.min_l by lia; reflexivity|].
    rewrite Nat.min_r, !firstn_all2 by lia. reflexivity.
Qed.

Lemma key_killed : forall V input t c c' i k, env_ok (ce_E V) -> no_faults (disk c) ->
  (forall key, t <> ToolVerify key) ->
  stat (disk c) (os_path input) = Some (NFile i) ->
  run_tool V input t c = (Ok tt, c') -> killed (disk c) (disk c') k ->
  let data := s_data (disk c) i in let data' := s_data (disk c') i in
  exists op n h slots slots', supplies V c t op /\ n <= 416 /\ s_data k i = torn 0 n data data'
    /\ v5_header (dev_at data 0) h slots /\ v5_header (dev_at data' 0) (with_slots h slots') slots'
    /\ (canonical_at data 0 h -> ~ bad_cut op (List.length slots) n ->
        passwords_kept (ce_E V) data data' (s_data k i) h slots slots').
Proof.
  intros V input t c c' i k HE NF NV ST H K data data'.
  destruct (run_tool_log _ _ _ _ _ HE NF H) as (i' & op & w & w' & ST' & SU & WI & RO & DA & AD).
  rewrite ST in ST'. injection ST' as <-.
  assert (NVO : not_verify op).
  { destruct t as [ko kn ha|ko kn ha|ky|ky], op; cbn in SU |- *; try contradiction; try exact Logic.I. exact (NV ky eq_refl). }
  assert (NS : no_short (d_plan (w_in w))) by (rewrite WI; intros e []).
  destruct (killed_events _ _ _ _ K AD) as (es1 & es2 & SH & CU & EK).
  pose proof (op_cases _ _ _ _ _ HE RO) as (_ & _ & _ & C).
  destruct C as [(x & X & _)|[(X & _)|(_ & h & slots & si & key & mk & ks & new & b & n & P & _ & _ & _ & _ & LB & LN & W & _ & FULL & _)]];
    [discriminate X|contradiction|].
  rewrite (FULL eq_refl NS) in W. rewrite firstn_all2 in W by lia.
  destruct W as (W1 & _ & cs & W3 & _ & W5). rewrite WI in W1, W5. cbn [dev_at d_data d_pos d_log app] in W1, W5.
  rewrite W5 in SH.
  assert (F : Forall (header_write_event i 416) (map (fun x => FWrite i (fst x) (snd x)) (chunk_log 0 cs))).
  { apply Forall_forall. intros e IE. apply in_map_iff in IE as ([q x] & <- & IQ). apply chunk_log_inside in IQ.
    cbn. rewrite W3 in IQ. split; [reflexivity|lia]. }
  rewrite (shuffled_one _ _ _ _ SH F) in CU.
  destruct (cut_chunks _ _ _ _ (disk c) CU) as (m & LM & DK). rewrite W3, LB in LM. rewrite W3 in DK.
  assert (TORN : s_data k i = torn 0 m data data').
  { subst k. rewrite DK. unfold data'. rewrite DA, W1. unfold torn. cbn [Nat.add]. rewrite !write_at_0.
    rewrite firstn_length, LB, Nat.min_l by lia. rewrite firstn_app.
    replace (m - List.length b) with 0 by lia. cbn [firstn]. rewrite app_nil_r. reflexivity. }
  destruct (crash_holds _ _ _ _ m HE NVO NS RO LM) as (h' & sl & sl' & V1 & V2 & CR).
  rewrite WI in V1, V2, CR. cbn [dev_at d_data d_pos] in V2, CR. rewrite <- DA in V2, CR.
  exists op, m, h', sl, sl'. do 3 (split; [assumption|]). split; [exact V1|]. split; [exact V2|].
  intros CN BC. destruct (CR CN BC) as (sn & V3 & _ & _ & KEPT). fold data data' in V3, KEPT.
  rewrite <- TORN in V3, KEPT. exists sn. split; [exact V3|exact KEPT].
Qed.

(** ** Unpack *)

Lemma lookup_more : forall t q n x, x <> q -> lookup (t ++ [(q, n)]) x = lookup t x.
Proof.
  intros t q n x NE. destruct x as [|y x]; [reflexivity|]. unfold lookup. rewrite find_app.
  destruct (find_node t (y :: x)); [reflexivity|]. cbn [find_node].
  destruct (cpath_eqb (y :: x) q) eqn:E; [apply cpath_eqb_eq in E; congruence|reflexivity].
Qed.
Lemma lookup_less : forall t q x, x <> q -> lookup (remove_node t q) x = lookup t x.
Proof.
  intros t q x NE. destruct x as [|y x]; [reflexivity|]. unfold lookup, remove_node.
  induction t as [|[r n] t IH]; [reflexivity|]. cbn [filter fst].
  destruct (cpath_eqb q r) eqn:E; cbn [negb find_node].
  - apply cpath_eqb_eq in E. subst r. destruct (cpath_eqb (y :: x) q) eqn:E; [apply cpath_eqb_eq in E; congruence|exact IH].
  - rewrite IH. reflexivity.
Qed.
Lemma cut_confined : forall s t q0 names es es', cut es es' ->
  Forall (confined_event s t q0 names) es -> Forall (confined_event s t q0 names) es'.
Proof.
  intros s t q0 names es es' H F. destruct H as [a b|a j p l b m].
  - apply Forall_app in F as [F _]. exact F.
  - apply Forall_app in F as [F G]. apply Forall_app. split; [exact F|]. inversion G as [|? ? G1 _]; subst.
    constructor; [exact G1|constructor].
Qed.

Lemma confined_places : forall s temp q0 names es, inodes_ok s -> no_outside_names s (q0 ++ names) ->
  Forall (confined_event s temp q0 names) es ->
  forall x, ~ inside (q0 ++ names) x -> resolve false s temp <> Some x ->
  at_place (redo es s) x = at_place s x
  \/ (on_the_way q0 names x /\ at_place s x = None /\ at_place (redo es s) x = Some SDir).
Proof.
  intros s temp q0 names es IO NO F x NI NT.
  set (mine := fun i => s_next s <= i \/ exists r, inside (q0 ++ names) r /\ lookup (s_nodes s) r = Some (NFile i)).
  assert (INV : forall es, Forall (confined_event s temp q0 names) es -> forall s1,
     (lookup (s_nodes s1) x = lookup (s_nodes s) x
      \/ (on_the_way q0 names x /\ lookup (s_nodes s) x = None /\ lookup (s_nodes s1) x = Some NDir)) ->
     (forall j, ~ mine j -> s_data s1 j = s_data s j) ->
     (lookup (s_nodes (redo es s1)) x = lookup (s_nodes s) x
      \/ (on_the_way q0 names x /\ lookup (s_nodes s) x = None /\ lookup (s_nodes (redo es s1)) x = Some NDir))
     /\ forall j, ~ mine j -> s_data (redo es s1) j = s_data s j).
  { clear es F. intros es F. induction F as [|e es He F IH]; intros s1 L D; [split; assumption|].
    change (redo (e :: es) s1) with (redo es (redo1 s1 e)). apply IH.
    - destruct e as [r i|r|i|i off l|r|r]; cbn [redo1 s_nodes names_after confined_event] in *; try exact L; try contradiction.
      + destruct He as [_ He]. rewrite lookup_more; [exact L|]. intros ->. destruct He as [He|He]; contradiction.
      + destruct (list_eq_dec string_dec x r) as [->|NE]; [|rewrite lookup_more by exact NE; exact L].
        destruct He as [He|He]; [|contradiction].
        destruct (lookup (s_nodes s1) r) as [n|] eqn:E1.
        * assert (E2 : lookup (s_nodes s1 ++ [(r, NDir)]) r = Some n).
          { destruct r as [|y r]; [exact E1|]. unfold lookup in *. rewrite find_app, E1. reflexivity. }
          rewrite E2. exact L.
        * right. split; [exact He|]. split.
          -- destruct L as [L|(_ & _ & L)]; [symmetry; exact L|discriminate L].
          -- rewrite lookup_add, cpath_eqb_refl by exact E1. reflexivity.
      + rewrite lookup_less; [exact L|]. intros ->. contradiction.
    - intros j NM. rewrite <- (D j NM).
      destruct e as [r i|r|i|i off l|r|r]; cbn [redo1 s_data content_after confined_event] in *; try reflexivity;
        destruct (Nat.eqb_spec j i) as [->|]; try reflexivity; exfalso; apply NM.
      + left. apply He.
      + exact He.
      + exact He. }
  destruct (INV es F s (or_introl eq_refl) (fun _ _ => eq_refl)) as [L D].
  destruct L as [L|(W & L1 & L2)].
  - left. apply at_place_ext; [exact L|]. intros i LK. apply D. intros [X|(r & IR & LR)].
    + pose proof (IO _ _ LK). lia.
    + exact (NO r x i IR NI LR LK).
  - right. split; [exact W|]. unfold at_place. rewrite L1, L2. auto.
Qed.

Lemma unpack_killed : forall V input output verbose p c o c' q0 names k,
  tree_ok (disk c) -> lookup (s_nodes (disk c)) (s_cwd (disk c)) = Some NDir -> inodes_ok (disk c) ->
  output_at (disk c) (parse_path output) q0 names -> no_outside_names (disk c) (q0 ++ names) ->
  unpack_cli V input output verbose p c = (o, c') -> killed (disk c) (disk c') k ->
  forall x, at_place k x <> at_place (disk c) x ->
     inside (q0 ++ names) x
     \/ resolve false (disk c) (temp_path (ce_pick V) (disk c)) = Some x
     \/ (on_the_way q0 names x /\ at_place (disk c) x = None /\ at_place k x = Some SDir).
Proof.
  intros V input output verbose p c o c' q0 names k TO CW IO OA NO H K x CH.
  destruct (unpack_cli_any _ _ _ _ _ _ _ _ H) as [(SD & _)|(c1 & hi & hh & raw & r & a2 & RD & UX & SD & _)].
  { rewrite (killed_none _ _ _ K) in CH by apply SD. contradiction. }
  pose proof (rd_disk _ _ _ _ _ _ _ _ RD) as SD1. pose proof SD1 as (N1 & D1 & X1 & W1 & T1 & L1).
  destruct (c_a c1) as [s1 tr] eqn:CA. assert (DC : disk c1 = s1) by (unfold disk; rewrite CA; reflexivity).
  pose proof (rd_rng _ _ _ _ _ _ _ _ RD) as RN.
  rewrite DC in *. unfold unpack_execute in UX.
  assert (CW1 : lookup (s_nodes s1) (s_cwd s1) = Some NDir) by (rewrite N1, W1; exact CW).
  assert (TP : temp_path (ce_pick V) s1 = temp_path (ce_pick V) (disk c)) by (unfold temp_path; rewrite T1, RN; reflexivity).
  assert (OA1 : output_at s1 (ur_out (mkUnpackReq hi hh raw (parse_path output) (ask_user V (cp_force p) verbose c1))) q0 names)
    by (cbn [ur_out]; eapply output_disk; eauto).
  destruct (unpack_does _ _ _ _ _ _ _ _ _ _ _ _ (tree_disk _ _ SD1 TO) CW1 (inodes_disk _ _ SD1 IO) OA1 UX)
    as (paths & answers & es & _ & AD & _ & _).
  destruct (unpack_confined _ _ _ _ _ _ _ _ _ _ _ _ _ (tree_disk _ _ SD1 TO) CW1 (inodes_disk _ _ SD1 IO) OA1 UX AD) as [CF _].
  assert (NO1 : no_outside_names s1 (q0 ++ names)) by (unfold no_outside_names; rewrite N1; exact NO).
  assert (ADC : added (disk c) (disk c') es).
  { destruct SD as (_ & _ & _ & _ & _ & L2). unfold added in *. rewrite L2, AD, L1. reflexivity. }
  destruct (killed_events _ _ _ _ K ADC) as (es1 & es2 & SH & CU & ->).
  pose proof (cut_confined _ _ _ _ _ _ CU (shuffled_forall _ _ _ SH CF)) as CF2.
  assert (AL : alike (disk c) s1) by (apply alike_files, same_disk_files, SD1).
  rewrite <- (alike_place _ _ x (redo_alike es2 _ _ AL)) in *. rewrite <- (alike_place _ _ x AL) in *.
  destruct (strip_prefix (q0 ++ names) x) as [w|] eqn:SP.
  { left. apply strip_prefix_spec in SP. exists w. exact SP. }
  assert (NI : ~ inside (q0 ++ names) x) by (intros [w W]; apply strip_prefix_spec in W; congruence).
  right. rewrite <- TP, <- (FSFacts.resolve_disk _ _ _ _ SD1).
  assert (DEC : resolve false s1 (temp_path (ce_pick V) s1) = Some x \/ resolve false s1 (temp_path (ce_pick V) s1) <> Some x).
  { destruct (resolve false s1 (temp_path (ce_pick V) s1)) as [y|]; [|right; discriminate].
    destruct (list_eq_dec string_dec y x) as [->|NE]; [left; reflexivity|right; congruence]. }
  destruct DEC as [E|NT]; [left; exact E|right].
  destruct (confined_places _ _ _ _ _ (inodes_disk _ _ SD1 IO) NO1 CF2 x NI NT) as [X|X]; [contradiction|exact X].
Qed.
