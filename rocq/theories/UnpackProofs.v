(** Where unpacking makes changes: the whole run. *)
From Coq Require Import List Arith NArith ZArith Ascii String Bool Lia.
From Verif Require Import Bytes Outcome IO Primitives Crypto Header Stream KeyModel EncDec.
From Verif Require Import Overwrite FS Archive.
From Verif Require Import IOSpec IOFacts FileProofs StreamFacts ToolProofs WorldFrames.
From Verif Require Import FSSpec FSFacts EraseProofs EraseDirProofs ArchiveSpec ArchiveWalk ArchiveProofs.
Import ListNotations.
Local Open Scope nat_scope.
Local Open Scope list_scope.

(** *** What is asked about and accepted *)

Lemma entities_spec : forall o zs e, In e (entities o zs) ->
  exists p, enclosed_name (zr_name (snd e)) = Some p /\ zr_open (snd e) = true
    /\ In (snd e) zs /\ p_abs p = false /\ depth_ok 0 (p_comps p) = true
    /\ fst e = mkPath (p_abs o) (p_comps o ++ p_comps p).
Proof.
  intros o zs e H. unfold entities in H. apply in_flat_map in H. destruct H as [z [Hz H]].
  destruct (zr_open z) eqn:ZO; [|destruct H].
  destruct (enclosed_name (zr_name z)) as [p|] eqn:EN; [|destruct H].
  destruct H as [H|[]]. subst e. cbn [fst snd]. exists p.
  pose proof EN as EN'. unfold enclosed_name in EN'.
  destruct (has_nul (zr_name z)); [discriminate|].
  destruct (p_abs (parse_path (zr_name z))) eqn:PA; [discriminate|].
  destruct (depth_ok 0 (p_comps (parse_path (zr_name z)))) eqn:DO; [|discriminate].
  injection EN' as EN'. subst p. unfold path_push. rewrite PA. auto 7.
Qed.

Lemma accepted_nth : forall es answers e, In e (accepted es answers) ->
  exists j, nth_error es j = Some e /\ nth_error answers j = Some true.
Proof.
  intros es. induction es as [|x es IH]; intros answers e H.
  - destruct H.
  - destruct answers as [|b answers]; [destruct H|].
    unfold accepted in H. cbn [combine filter snd] in H. destruct b.
    + cbn [map fst] in H. destruct H as [H|H].
      * subst. exists 0. auto.
      * destruct (IH answers e H) as [j [J1 J2]]. exists (S j). auto.
    + destruct (IH answers e H) as [j [J1 J2]]. exists (S j). auto.
Qed.

Lemma accepted_all : forall o zs answers,
  Forall (fun e => exists cs,
    (accepted_below (map fst (entities o zs)) answers o cs /\ depth_ok 0 cs = true)
    /\ fst e = mkPath (p_abs o) (p_comps o ++ cs)) (accepted (entities o zs) answers).
Proof.
  intros o zs answers. apply Forall_forall. intros e H.
  apply accepted_nth in H. destruct H as [j [J1 J2]].
  pose proof (nth_error_In _ _ J1) as Hin.
  apply entities_spec in Hin. destruct Hin as [p [_ [_ [_ [_ [D E]]]]]].
  exists (p_comps p). split; [|exact E]. split; [|exact D].
  exists j. split; [|exact J2]. erewrite map_nth_error by exact J1. congruence.
Qed.

(** *** The steps before and after the extraction *)

Definition same_tree (s s' : sys) : Prop :=
  s_nodes s' = s_nodes s /\ s_cwd s' = s_cwd s /\ s_tmp s' = s_tmp s
  /\ s_next s' = s_next s /\ s_faults s' = s_faults s /\ s_plans s' = s_plans s.

Lemma same_tree_refl : forall s, same_tree s s.
Proof. repeat split. Qed.
Lemma same_tree_trans : forall a b c, same_tree a b -> same_tree b c -> same_tree a c.
Proof. unfold same_tree. intros a b c H1 H2. decompose [and] H1. decompose [and] H2. repeat split; congruence. Qed.

Lemma run_handle_tree : forall {E A} (m : M ow_state E A) h s o h' s',
  run_handle m h s = ((o, h'), s') ->
  same_tree s s' /\ h_ino h' = h_ino h /\ h_path h' = h_path h
  /\ (forall j, j <> h_ino h -> s_data s' j = s_data s j)
  /\ (exists ws, s_log s' = s_log s ++ map (fun w => FWrite (h_ino h) (fst w) (snd w)) ws).
Proof.
  intros E A m h s o h' s' H. unfold run_handle in H.
  destruct (m (handle_dev s h, s_rng s)) as [ot [d g]]. injection H as H1 H2 H3. subst.
  split; [repeat split|]. split; [reflexivity|]. split; [reflexivity|]. split.
  - intros j J. cbn. apply set_data_neq. exact J.
  - exists (d_log d). reflexivity.
Qed.

Lemma decrypt_world : forall E bs detached pw hi ho hh a o hi' ho' a',
  run_world (decrypt_execute_bs E bs detached pw) hi ho hh a = ((o, (hi', ho')), a') ->
  same_tree (fst a) (fst a') /\ h_ino ho' = h_ino ho /\ h_path ho' = h_path ho
  /\ (h_plan ho = [] -> h_plan ho' = [])
  /\ (forall j, j <> h_ino ho -> s_data (fst a') j = s_data (fst a) j)
  /\ (exists ws, s_log (fst a') = s_log (fst a) ++ map (fun w => FWrite (h_ino ho) (fst w) (snd w)) ws
        /\ ((forall x, hh = Some x -> h_ino x <> h_ino ho) ->
            List.length (s_data (fst a) (h_ino ho)) <= List.length (s_data (fst a') (h_ino ho))
            /\ Forall (fits (List.length (s_data (fst a') (h_ino ho)))) ws)).
Proof.
  intros E bs detached pw hi ho hh a o hi' ho' a' H. unfold run_world in H.
  destruct (decrypt_execute_bs _ _ _ _ _) as [o1 w] eqn:D.
  injection H as H1 H2 H3 H4. subst.
  apply dec_execute_frame in D. destruct D as [[DI [LI _]] [[DH [LH _]] MO]]. cbn [w_in w_hdr w_out] in *.
  cbn [fst]. split; [destruct hh; repeat split|]. split; [reflexivity|]. split; [reflexivity|].
  split; [apply MO|]. split.
  - intros j J. destruct hh as [hh|]; cbn [put_opt opt_dev handle_dev] in *;
      cbn [put_handle with_rng with_data s_data].
    + unfold set_data. destruct (j =? h_ino hh) eqn:E1.
      * apply Nat.eqb_eq in E1. subst. rewrite DH. reflexivity.
      * destruct (j =? h_ino ho) eqn:E2; [apply Nat.eqb_eq in E2; contradiction|].
        destruct (j =? h_ino hi) eqn:E3; [|reflexivity].
        apply Nat.eqb_eq in E3. subst. rewrite DI. reflexivity.
    + unfold set_data. destruct (j =? h_ino ho) eqn:E2; [apply Nat.eqb_eq in E2; contradiction|].
      destruct (j =? h_ino hi) eqn:E3; [|reflexivity].
      apply Nat.eqb_eq in E3. subst. rewrite DI. reflexivity.
  - exists (d_log (w_out w)). split.
    2:{ intros HH. destruct MO as [_ [GL [ws [WL F]]]]. cbn [handle_dev d_log d_data app] in WL, GL. subst ws.
        assert (ED : s_data (with_rng (w_rng w) (put_opt (w_hdr w) hh
                       (put_handle (w_out w) ho (put_handle (w_in w) hi (fst a))))) (h_ino ho)
                     = d_data (w_out w)).
        { destruct hh as [hh|]; cbn [put_opt put_handle with_rng with_data s_data].
          - rewrite set_data_neq by (intros X; apply (HH hh eq_refl); congruence).
            unfold set_data. rewrite Nat.eqb_refl. reflexivity.
          - unfold set_data. rewrite Nat.eqb_refl. reflexivity. }
        rewrite ED. auto. }
    cbn [handle_dev d_log] in LI.
    destruct hh as [hh|]; cbn [put_opt opt_dev handle_dev d_log] in *;
      cbn [put_handle with_rng with_data s_log]; rewrite LI; [rewrite LH|]; cbn [map].
    + rewrite !app_nil_r. reflexivity.
    + rewrite app_nil_r. reflexivity.
Qed.

(** *** Temporary files *)

(** The state in which the temporary file exists, perhaps with content. *)
Record temp_made (P : Prop) (s : sys) (T : cpath) (s1 : sys) : Prop := {
  tm_nodes : s_nodes s1 = s_nodes s ++ [(T, NFile (s_next s))];
  tm_next : s_next s1 = S (s_next s);
  tm_cwd : s_cwd s1 = s_cwd s;
  tm_tmp : s_tmp s1 = s_tmp s;
  tm_data : forall j, j <> s_next s -> s_data s1 j = s_data s j;
  tm_log : exists ws, s_log s1 = s_log s ++ FCreate T (s_next s)
                        :: map (fun w => FWrite (s_next s) (fst w) (snd w)) ws
                      /\ (P -> Forall (fits (List.length (s_data s1 (s_next s)))) ws);
  tm_calm : no_faults s -> no_faults s1
}.

Lemma create_temp_any : forall P pick s o s1, create_temp_file pick s = (o, s1) ->
  (same_disk s s1 /\ o = Err StCreateFile)
  \/ exists T plan, resolve false s (temp_path pick s) = Some T /\ lookup (s_nodes s) T = None
     /\ o = Ok (EFile (mkHandle (temp_path pick s) (s_next s) 0 plan))
     /\ temp_made P s T s1 /\ s_data s1 (s_next s) = [] /\ (no_faults s -> plan = []).
Proof.
  intros P pick s o s1 C. unfold create_temp_file in C. destruct (pick (s_rng s)) as [n g] eqn:PK.
  assert (EP : path_push (s_tmp s) (mkPath false [Nm n]) = temp_path pick s).
  { unfold path_push, temp_path. cbn. rewrite PK. reflexivity. }
  rewrite EP in C. apply create_file_any in C.
  destruct C as [[E1 [SD _]]|[T [plan [R [L [E1 [E2 [E3 [E4 [E5 [E6 [E7 [E8 E9]]]]]]]]]]]]].
  - left. split; [exact SD|exact E1].
  - right. exists T, plan.
    cbn [with_rng s_nodes s_data s_next s_cwd s_tmp s_rng s_log] in *.
    rewrite (resolve_nodes false s (with_rng g s) _ eq_refl eq_refl) in R.
    split; [exact R|]. split; [exact L|]. split; [exact E1|].
    assert (N9 : no_faults s -> plan = [] /\ no_faults s1).
    { intros N. apply E9. exact N. }
    split; [|split; [rewrite E3; unfold set_data; rewrite Nat.eqb_refl; reflexivity|apply N9]].
    constructor; auto.
    + intros j J. rewrite E3. apply set_data_neq, J.
    + exists []. split; [exact E8|]. intros _. constructor.
    + apply N9.
Qed.

Lemma temp_made_more : forall (P : Prop) s T s1 s2, temp_made P s T s1 -> same_tree s1 s2 ->
  (forall j, j <> s_next s -> s_data s2 j = s_data s1 j) ->
  (exists ws, s_log s2 = s_log s1 ++ map (fun w => FWrite (s_next s) (fst w) (snd w)) ws
     /\ (P -> List.length (s_data s1 (s_next s)) <= List.length (s_data s2 (s_next s))
             /\ Forall (fits (List.length (s_data s2 (s_next s)))) ws)) ->
  temp_made P s T s2.
Proof.
  intros P s T s1 s2 [N X C M D [ws [L FT]] F] [T1 [T2 [T3 [T4 [T5 T6]]]]] D2 [ws2 [L2 FT2]].
  constructor; try congruence.
  - intros j J. rewrite D2 by exact J. auto.
  - exists (ws ++ ws2). split; [rewrite L2, L, map_app, <- app_assoc; reflexivity|].
    intros p. destruct (FT2 p) as [LE F2]. apply Forall_app. split; [|exact F2].
    eapply Forall_impl; [|exact (FT p)]. intros w Hw. unfold fits in *. lia.
  - intros H. destruct (F H). split; congruence.
Qed.

Lemma temp_made_disk : forall P s T s1 s2, temp_made P s T s1 -> same_disk s1 s2 ->
  (no_faults s1 -> no_faults s2) -> temp_made P s T s2.
Proof.
  intros P s T s1 s2 [N X C M D [ws [L FT]] F] [T1 [T2 [T3 [T4 [T5 T6]]]]] H.
  constructor; try congruence.
  - intros j J. rewrite T2. auto.
  - exists ws. split; [congruence|]. rewrite T2. exact FT.
  - auto.
Qed.

(** The end of a temporary file, whatever fails. *)
Definition gone_event (i : nat) (q : option cpath) (e : fsev) : Prop :=
  match e with
  | FTrunc j | FWrite j _ _ => j = i
  | FUnlink r => q = Some r
  | _ => False
  end.

Lemma unlink_any : forall p s o s', unlink p s = (o, s') ->
  s_data s' = s_data s
  /\ ((s_nodes s' = s_nodes s) \/
      exists q, resolve false s p = Some q /\ s_nodes s' = remove_node (s_nodes s) q)
  /\ (exists es, s_log s' = s_log s ++ es /\ forall i, Forall (gone_event i (resolve false s p)) es).
Proof.
  intros p s o s' H. unfold unlink in H. apply call_or_inv in H.
  assert (NO : exists es, s_log s = s_log s ++ es
            /\ forall i, Forall (gone_event i (resolve false s p)) es).
  { exists []. rewrite app_nil_r. auto. }
  destruct H as [s1 [SD [_ [_ [_ [[_ [E _]]|H]]]]]].
  - subst. destruct SD as [D1 [D2 [_ [_ [_ D6]]]]]. rewrite D6. auto.
  - rewrite (resolve_disk false s s1 p SD) in H. destruct SD as [D1 [D2 [_ [_ [_ D6]]]]].
    destruct (resolve false s p) as [q|].
    + destruct (lookup (s_nodes s1) q) as [[|i|t]|]; injection H as _ H; subst;
        cbn [with_nodes s_nodes s_data s_log]; rewrite D6;
        try (split; [exact D2|split; [left; exact D1|exact NO]]);
        (split; [exact D2|split; [right; exists q; split; [reflexivity|rewrite D1; reflexivity]|]];
         exists [FUnlink q]; split; [reflexivity|]; intros j; repeat constructor).
    + injection H as _ H. subst. rewrite D6. auto.
Qed.

Lemma truncate_any : forall h s o s', truncate h s = (o, s') ->
  s_nodes s' = s_nodes s /\ s_cwd s' = s_cwd s
  /\ (forall j, j <> h_ino h -> s_data s' j = s_data s j)
  /\ (exists es, s_log s' = s_log s ++ es /\ forall q, Forall (gone_event (h_ino h) q) es).
Proof.
  intros h s o s' H. unfold truncate in H. apply call_or_inv in H.
  destruct H as [s1 [[D1 [D2 [D3 [D4 [_ D6]]]]] [_ [_ [_ [[_ [E _]]|H]]]]]].
  - subst. rewrite D1, D2, D4, D6. do 3 (split; [auto|]). exists []. rewrite app_nil_r. auto.
  - injection H as _ H. subst. cbn [with_data s_nodes s_cwd s_data s_log]. rewrite D1, D4, D6.
    split; [reflexivity|]. split; [reflexivity|]. split.
    + intros j J. rewrite set_data_neq by exact J. rewrite D2. reflexivity.
    + eexists. split; [reflexivity|]. intros q. repeat constructor.
Qed.

Lemma flush_any : forall s o s', flush s = (o, s') -> same_disk s s'.
Proof.
  intros s o s' H. unfold flush in H. apply call_or_inv in H.
  destruct H as [s1 [SD [_ [_ [_ [[_ [E _]]|H]]]]]]; [subst; exact SD|].
  injection H as _ H. subst. exact SD.
Qed.

(** What the last steps may do to the state. *)
Definition wiped (i : nat) (p : path) (s s' : sys) : Prop :=
  (forall j, j <> i -> s_data s' j = s_data s j)
  /\ ((s_nodes s' = s_nodes s) \/
      exists q, resolve false s p = Some q /\ s_nodes s' = remove_node (s_nodes s) q)
  /\ exists es, s_log s' = s_log s ++ es /\ Forall (gone_event i (resolve false s p)) es.

Lemma wiped_after : forall i p s s1 s', s_nodes s1 = s_nodes s -> s_cwd s1 = s_cwd s ->
  (forall j, j <> i -> s_data s1 j = s_data s j) ->
  (exists es, s_log s1 = s_log s ++ es /\ Forall (gone_event i (resolve false s p)) es) ->
  wiped i p s1 s' -> wiped i p s s'.
Proof.
  intros i p s s1 s' N C D [es [L F]] [D2 [N2 [es2 [L2 F2]]]].
  rewrite (resolve_nodes false s s1 p N C) in *. rewrite N in N2.
  split; [intros j J; rewrite D2 by exact J; auto|]. split; [exact N2|].
  exists (es ++ es2). split; [rewrite L2, L, app_assoc; reflexivity|apply Forall_app; auto].
Qed.

Lemma wiped_refl : forall i p s, wiped i p s s.
Proof.
  intros i p s. split; [auto|]. split; [auto|]. exists []. rewrite app_nil_r. auto.
Qed.

Lemma remove_file_any : forall h s o s', run (remove_file (EFile h)) s = (o, s') ->
  wiped (h_ino h) (h_path h) s s'.
Proof.
  intros h s o s' H. unfold remove_file in H. rewrite !run_bind, !run_atom in H.
  destruct (truncate h s) as [o1 s1] eqn:T. apply truncate_any in T.
  destruct T as [N1 [C1 [D1 [es [L1 F1]]]]].
  eapply (wiped_after _ _ s s1); eauto. clear N1 C1 D1 L1 F1 es.
  destruct o1 as [[]|e| |]; try (injection H as _ H; subst; apply wiped_refl).
  rewrite run_atom in H.
  destruct (flush s1) as [o2 s2] eqn:F. apply flush_any in F. destruct F as [F1 [F2 [F3 [F4 [F5 F6]]]]].
  apply (wiped_after _ _ s1 s2); auto.
  { intros j J. rewrite F2. reflexivity. }
  { exists []. rewrite app_nil_r. auto. }
  destruct o2 as [[]|e| |]; try (injection H as _ H; subst; apply wiped_refl).
  rewrite run_atom in H. cbn [entry_path] in H. apply unlink_any in H.
  destruct H as [H1 [H2 [es [H3 H4]]]]. split; [intros j J; rewrite H1; reflexivity|].
  split; [exact H2|]. exists es. auto.
Qed.

Lemma wipe_any : forall h cap passes s o s', wipe_temp h cap passes s = (o, s') ->
  wiped (h_ino h) (h_path h) s s'.
Proof.
  intros h cap passes s o s' H. unfold wipe_temp in H.
  destruct (run_handle (overwrite_execute cap passes) h s) as [[o1 h1] s1] eqn:RH.
  apply run_handle_tree in RH. destruct RH as [[N1 [C1 _]] [I1 [P1 [D1 [ws L1]]]]].
  apply (wiped_after _ _ s s1); auto.
  { exists (map (fun w => FWrite (h_ino h) (fst w) (snd w)) ws). split; [exact L1|].
    apply Forall_forall. intros e He. apply in_map_iff in He. destruct He as [w [Ew _]].
    subst e. reflexivity. }
  unfold quiet in H. destruct (run (remove_file (EFile h1)) s1) as [o2 s2] eqn:RF.
  apply remove_file_any in RF. rewrite I1, P1 in RF.
  destruct o1 as [?|?| |];
    try (assert (s' = s2) by (destruct o2; congruence); subst; exact RF);
    (assert (s' = s1) by congruence; subst; apply wiped_refl).
Qed.

(** The end of a temporary file when nothing fails. *)
Lemma wipe_calm : forall h cap passes s T i, no_faults s -> h_plan h = [] ->
  resolve false s (h_path h) = Some T -> lookup (s_nodes s) T = Some (NFile i) ->
  exists s' cs, wipe_temp h cap passes s = (Ok tt, s')
  /\ s_nodes s' = remove_node (s_nodes s) T
  /\ s_data s' (h_ino h) = []
  /\ List.concat cs = zeros cap
  /\ s_log s' = s_log s ++ map (fun w => FWrite (h_ino h) (fst w) (snd w)) (chunk_log 0 cs)
                        ++ [FTrunc (h_ino h); FUnlink T].
Proof.
  intros h cap passes s T i [N1 N2] HP RT LT. unfold wipe_temp.
  destruct (run_handle (overwrite_execute cap passes) h s) as [[o1 h1] s1] eqn:RH.
  pose proof RH as RH'. apply run_handle_tree in RH'.
  destruct RH' as [[T1 [T2 [T3 [T4 [T5 T6]]]]] [I1 [P1 _]]].
  unfold run_handle in RH.
  destruct (overwrite_execute cap passes (handle_dev s h, s_rng s)) as [ot [d g]] eqn:OW.
  apply overwrite_any in OW. destruct OW as [_ [[k [cs [_ [K [_ [CS [_ LG]]]]]]] [_ OO]]].
  cbn [fst handle_dev d_plan d_log] in *. rewrite HP in OO.
  injection RH as R1 R2 R3.
  destruct ot as [[]|e| |]; [|contradiction|contradiction|contradiction]. subst o1.
  specialize (K eq_refl). subst k.
  assert (L1 : s_log s1 = s_log s ++ map (fun w => FWrite (h_ino h) (fst w) (snd w)) (chunk_log 0 cs)).
  { subst s1. cbn [with_rng put_handle with_data s_log]. rewrite LG. reflexivity. }
  clear R3. exists (with_nodes (remove_node (s_nodes s1) T) (FUnlink T)
                 (with_data (h_ino h) [] [FTrunc (h_ino h)] s1)), cs.
  split.
  - unfold quiet, remove_file. rewrite !run_bind, !run_atom. unfold truncate.
    rewrite call_or_calm by congruence. rewrite run_atom. unfold flush.
    rewrite call_or_calm by (cbn; congruence). rewrite run_atom. unfold unlink.
    rewrite call_or_calm by (cbn; congruence). cbn [entry_path]. rewrite P1, I1.
    rewrite (resolve_nodes false s (with_data (h_ino h) [] [FTrunc (h_ino h)] s1)) by (cbn; congruence).
    rewrite RT. cbn [with_data s_nodes]. rewrite T1, LT. reflexivity.
  - cbn [with_nodes with_data s_nodes s_data s_log]. rewrite T1, L1.
    split; [reflexivity|]. split; [unfold set_data; rewrite Nat.eqb_refl; reflexivity|].
    split; [exact CS|]. rewrite <- !app_assoc. reflexivity.
Qed.

(** *** The whole run *)

Section Run.

Variables (E : env) (Z : zip_env) (pick : rng -> string * rng) (bs : nat) (sched : list nat)
  (req : unpack_request) (s : sys) (q0 : cpath) (names : list string).
Let o := ur_out req.
Let q := q0 ++ names.
Let P := forall x, ur_hdr req = Some x -> h_ino x < s_next s.

Hypothesis TO : tree_ok s.
Hypothesis CW : lookup (s_nodes s) (s_cwd s) = Some NDir.
Hypothesis IO : inodes_ok s.
Hypothesis OA : output_at s o q0 names.

Definition A (paths : list path) (answers : list bool) (cs : list comp) : Prop :=
  accepted_below paths answers o cs /\ depth_ok 0 cs = true.

Lemma hit_accepted : forall paths answers r, hit q0 names (A paths answers) r ->
  accepted_place paths answers o q r.
Proof.
  intros paths answers r [cs [[A1 A2] E1]]. exists cs. split; [exact A1|]. split; [exact E1|].
  subst r. rewrite <- (firstn_all cs). apply lexical_inside, A2.
Qed.

Lemma reach_towards : forall paths answers r, reach q0 names (A paths answers) r ->
  towards_accepted paths answers o q r.
Proof.
  intros paths answers r [cs [k [[A1 A2] E1]]]. exists cs, k. split; [exact A1|]. split; [exact E1|].
  subst r. apply lexical_inside, A2.
Qed.

Definition change := fun s' paths answers => allowed_change s s' (temp_path pick s) o q0 names paths answers.
Definition event := allowed_event s (temp_path pick s) o q0 names.

Definition good_end (s' : sys) : Prop := exists paths answers es,
  (answers = [] \/ ur_ask req paths = Some answers)
  /\ added s s' es /\ Forall (event paths answers) es
  /\ forall x, at_place s' x <> at_place s x -> change s' paths answers x.

Lemma nothing_done : forall s', same_disk s s' -> good_end s'.
Proof.
  intros s' [D1 [D2 [_ [_ [_ D6]]]]]. exists [], [], []. split; [auto|].
  split; [unfold added; rewrite app_nil_r; exact D6|]. split; [constructor|].
  intros r H. exfalso. apply H. unfold at_place. rewrite D1, D2. reflexivity.
Qed.

Lemma temp_events : forall T s1 paths answers, resolve false s (temp_path pick s) = Some T ->
  temp_made P s T s1 -> exists es, added s s1 es /\ Forall (event paths answers) es.
Proof.
  intros T s1 paths answers RT TM. destruct (tm_log _ _ _ _ TM) as [ws [L _]].
  eexists. split; [exact L|]. constructor.
  - split; [apply le_n|]. left. exact RT.
  - apply Forall_forall. intros e He. apply in_map_iff in He. destruct He as [w [Ew _]]. subst e.
    left. apply le_n.
Qed.

(** From the state in which the temporary file exists to the end. *)
Lemma end_after : forall T s1 s2 s' paths answers,
  resolve false s (temp_path pick s) = Some T -> lookup (s_nodes s) T = None ->
  temp_made P s T s1 ->
  inv s1 q0 names (A paths answers) s2 ->
  wiped (s_next s) (temp_path pick s) s2 s' ->
  (answers = [] \/ ur_ask req paths = Some answers) ->
  good_end s'.
Proof.
  intros T s1 s2 s' paths answers RT LT TM I W ASK.
  assert (TN : T <> []) by (intros X; subst; discriminate).
  assert (R2 : resolve false s2 (temp_path pick s) = Some T).
  { pose proof (inv_grown1 _ _ _ _ _ I) as G4.
    assert (G5 : grown (s_nodes s) (s_nodes s2)).
    { eapply grown_trans; [|exact G4]. rewrite (tm_nodes _ _ _ _ TM). apply grown_add, LT. }
    eapply (resolve_grown false s s2); eauto; [|discriminate].
    rewrite (i_cwd _ _ _ _ _ I). apply (tm_cwd _ _ _ _ TM). }
  destruct W as [D' [N' [ew [LW FW]]]]. rewrite R2 in *.
  assert (N2 : s_nodes s' = s_nodes s2 \/ s_nodes s' = remove_node (s_nodes s2) T).
  { destruct N' as [N'|[x [X N']]]; [auto|right; congruence]. }
  assert (L1 : forall x, x <> T -> lookup (s_nodes s1) x = lookup (s_nodes s) x).
  { intros x X. rewrite (tm_nodes _ _ _ _ TM), lookup_add by exact LT.
    apply cpath_eqb_neq in X. rewrite X. reflexivity. }
  assert (LF : forall r i, lookup (s_nodes s1) r = Some (NFile i) -> i <> s_next s ->
            lookup (s_nodes s) r = Some (NFile i)).
  { intros r i LR NI. rewrite <- L1; [exact LR|]. intros X. subst r.
    rewrite (tm_nodes _ _ _ _ TM), lookup_add, cpath_eqb_refl in LR by exact LT. congruence. }
  assert (OW : forall i, open_for_writing s1 q0 names (A paths answers) i ->
            s_next s <= i \/ exists r, accepted_place paths answers o q r
                                   /\ lookup (s_nodes s) r = Some (NFile i)).
  { intros i [X|[r [H LR]]].
    - rewrite (tm_next _ _ _ _ TM) in X. left. lia.
    - destruct (Nat.eq_dec i (s_next s)) as [Ei|Ei]; [left; lia|]. right. exists r.
      split; [apply hit_accepted, H|]. apply LF; assumption. }
  destruct (temp_events T s1 paths answers RT TM) as [e1 [L1e F1]].
  destruct (i_log _ _ _ _ _ I) as [e2 [L2e F2]].
  exists paths, answers, (e1 ++ e2 ++ ew). split; [exact ASK|]. split; [|split].
  - unfold added in *. rewrite LW, L2e, L1e, <- !app_assoc. reflexivity.
  - apply Forall_app. split; [exact F1|]. apply Forall_app. split.
    + eapply Forall_impl; [|exact F2]. intros e He.
      destruct e as [r i|r|i|i off l|r|r]; cbn in He |- *; try contradiction; auto.
      * destruct He as [He1 He2]. rewrite (tm_next _ _ _ _ TM) in He2. split; [lia|].
        right. apply hit_accepted, He1.
      * destruct He as [He|He]; [left; exact He|right; apply reach_towards, He].
    + eapply Forall_impl; [|exact FW]. intros e He.
      destruct e as [r i|r|i|i off l|r|r]; cbn [gone_event] in He; try contradiction.
      * left. lia.
      * left. lia.
      * injection He as He. subst r. exact RT.
  - intros r H. destruct (cpath_eq_dec r T) as [ET|NT].
    { left. subst r. split; [exact RT|]. unfold at_place. rewrite LT. reflexivity. }
    assert (L2 : lookup (s_nodes s') r = lookup (s_nodes s2) r).
    { destruct N2 as [N2|N2]; rewrite N2; [reflexivity|].
      rewrite lookup_remove by exact TN. apply cpath_eqb_neq in NT. rewrite NT. reflexivity. }
    destruct (i_nodes _ _ _ _ _ I r) as [EQ|[EQ [[ED W]|[i [EF [XI W]]]]]];
      rewrite (L1 r NT) in EQ.
    + unfold at_place in H. rewrite L2, EQ in H.
      destruct (lookup (s_nodes s) r) as [[|i|t]|] eqn:LR; try congruence.
      assert (DI : s_data s' i <> s_data s i) by congruence.
      pose proof (IO r i LR) as LI. rewrite D' in DI by lia.
      destruct (i_data _ _ _ _ _ I i) as [DE|DE].
      * exfalso. apply DI. rewrite DE. apply (tm_data _ _ _ _ TM). lia.
      * destruct (OW i DE) as [X|[r' [X LR']]]; [lia|].
        do 4 right. exists i, r'. auto.
    + right. destruct W as [W|W].
      * left. split; [exact W|]. unfold at_place. rewrite EQ, L2, ED. auto.
      * right. left. split; [apply reach_towards, W|]. unfold at_place. rewrite EQ, L2, ED. auto.
    + do 3 right. left. apply hit_accepted, W.
Qed.

Lemma end_early : forall T s1, resolve false s (temp_path pick s) = Some T ->
  lookup (s_nodes s) T = None -> temp_made P s T s1 -> good_end s1.
Proof.
  intros T s1 RT LT TM. apply (end_after T s1 s1 s1 [] []); auto using wiped_refl.
  constructor; auto. exists []. rewrite app_nil_r. auto.
Qed.

(** The stages of the run. *)
Inductive stages (r : outcome unpack_error unit) (s' : sys) : Prop :=
| st_temp : forall e, same_disk s s' -> r = Err (UnStorage e) -> stages r s'
| st_early : forall T, resolve false s (temp_path pick s) = Some T -> lookup (s_nodes s) T = None ->
    temp_made P s T s' -> r <> Ok tt -> stages r s'
| st_extract : forall T s1 paths answers,
    resolve false s (temp_path pick s) = Some T -> lookup (s_nodes s) T = None ->
    temp_made P s T s1 -> inv s1 q0 names (A paths answers) s' ->
    (answers = [] \/ ur_ask req paths = Some answers) -> r <> Ok tt -> stages r s'
| st_wipe : forall T s1 s2 paths answers h cap o6,
    resolve false s (temp_path pick s) = Some T -> lookup (s_nodes s) T = None ->
    temp_made P s T s1 -> inv s1 q0 names (A paths answers) s2 ->
    (answers = [] \/ ur_ask req paths = Some answers) ->
    h_ino h = s_next s -> h_path h = temp_path pick s -> (no_faults s -> h_plan h = []) ->
    cap = List.length (s_data s1 (s_next s)) ->
    wipe_temp h cap 1 s2 = (o6, s') ->
    r = (match o6 with Ok a => Ok a | Err e => Err (UnStorage e)
                  | Panic => Panic | Diverge => Diverge end) -> stages r s'.

Lemma unpack_stages : forall tr r a',
  unpack_execute_bs E Z pick bs sched req (s, tr) = (r, a') -> stages r (fst a').
Proof.
  intros tr r a' H. unfold unpack_execute_bs in H. apply bind_inv in H.
  assert (CT : forall o1 a1, map_err UnStorage (on_sys (create_temp_file pick)) (s, tr) = (o1, a1) ->
    (same_disk s (fst a1) /\ exists e, o1 = Err (UnStorage e))
    \/ exists T plan, resolve false s (temp_path pick s) = Some T /\ lookup (s_nodes s) T = None
       /\ o1 = Ok (EFile (mkHandle (temp_path pick s) (s_next s) 0 plan))
       /\ temp_made P s T (fst a1) /\ (no_faults s -> plan = [])).
  { intros o1 a1 C. unfold map_err in C.
    destruct (on_sys (create_temp_file pick) (s, tr)) as [o2 a2] eqn:C2.
    apply zoom_inv in C2. destruct C2 as [s1 [C2 EA]]. cbn [fst snd] in *. subst a2.
    apply (create_temp_any P) in C2.
    destruct C2 as [[SD E1]|[T [plan [RT [LT [E1 [TM [_ PL]]]]]]]]; subst o2; injection C as C1 C2; subst;
      cbn [fst].
    - left. eauto.
    - right. exists T, plan. auto. }
  destruct H as [[tmp [a1 [H1 H]]]|H].
  2:{ assert (X : exists o1, map_err UnStorage (on_sys (create_temp_file pick)) (s, tr) = (o1, a')
        /\ (forall v, o1 <> Ok v) /\ (forall e, o1 = Err e -> r = Err e)).
      { destruct H as [[e [H1 X]]|[[H1 X]|[H1 X]]]; eexists; (split; [exact H1|]);
          (split; [discriminate|]); congruence. }
      destruct X as [o1 [X1 [X2 X3]]]. apply CT in X1.
      destruct X1 as [[SD [e X]]|[T [plan [_ [_ [X _]]]]]]; [|exfalso; eapply X2; eauto].
      eapply st_temp; eauto. }
  apply CT in H1. destruct H1 as [[_ [e X]]|[T [plan [RT [LT [X [TM1 PL]]]]]]]; [discriminate|].
  apply Ok_inj in X. subst tmp.
  set (h0 := mkHandle (temp_path pick s) (s_next s) 0 plan) in *.
  (* decryption *)
  match type of H with bind ?m _ _ = _ => set (dec := m) in * end.
  apply bind_inv in H.
  assert (DW : forall o2 a2, dec a1 = (o2, a2) -> temp_made P s T (fst a2)
     /\ forall h, o2 = Ok h -> h_ino h = s_next s /\ h_path h = temp_path pick s
                            /\ (no_faults s -> h_plan h = [])).
  { intros o2 a2 D. unfold dec in D. destruct (run_world _ _ _ _ _) as [[ow [hi' ho']] aw] eqn:RW.
    apply decrypt_world in RW. destruct RW as [ST [HI [HP [HL [DD LG]]]]].
    cbn [h_ino h_path h_plan h0] in *.
    assert (aw = a2) by (destruct ow; congruence). subst aw.
    split.
    { eapply temp_made_more; eauto. destruct LG as [ws [LG FT]]. exists ws. split; [exact LG|].
      intros p. apply FT. intros x Ex. pose proof (p x Ex). lia. }
    intros h Eh. assert (h = ho') by (destruct ow; congruence). subst. auto. }
  clearbody dec.
  destruct H as [[h1 [a2 [H1 H]]]|H].
  2:{ assert (X : exists o2, dec a1 = (o2, a') /\ r <> Ok tt).
      { destruct H as [[e [H1 X]]|[[H1 X]|[H1 X]]]; eexists; (split; [exact H1|]); congruence. }
      destruct X as [o2 [X NR]]. apply DW in X. destruct X as [Y1 _]. eapply st_early; eauto. }
  apply DW in H1. destruct H1 as [TM2 HH]. destruct (HH h1 eq_refl) as [HI [HP HPL]]. clear HH DW.
  (* length *)
  assert (FL : forall o3 a3, map_err UnStorage (on_sys (file_len (EFile h1))) a2 = (o3, a3) ->
    temp_made P s T (fst a3)
    /\ forall c, o3 = Ok c -> c = List.length (s_data (fst a3) (s_next s))).
  { intros o3 a3 F. unfold map_err in F.
    destruct (on_sys (file_len (EFile h1)) a2) as [o4 a4] eqn:F4.
    assert (a4 = a3) by (destruct o4; congruence). subst a4.
    apply zoom_inv in F4. destruct F4 as [s3 [F4 EA]]. subst a3. cbn [fst].
    unfold file_len in F4. apply call_or_inv in F4.
    destruct F4 as [s4 [SD [_ [PL4 [NF [[X1 [X _]]|X]]]]]].
    - subst. split; [|intros c Ec; congruence].
      eapply temp_made_disk; eauto. intros [N1 N2]. rewrite (NF N1). split; assumption.
    - injection X as X1 X2. subst. split.
      + eapply temp_made_disk; eauto. intros [N1 N2]. rewrite (NF N1). split; assumption.
      + intros c Ec. rewrite HI in F. congruence. }
  apply bind_inv in H.
  destruct H as [[cap [a3 [H1 H]]]|H].
  2:{ assert (X : exists o3, map_err UnStorage (on_sys (file_len (EFile h1))) a2 = (o3, a') /\ r <> Ok tt).
      { destruct H as [[e [H1 X]]|[[H1 X]|[H1 X]]]; eexists; (split; [exact H1|]); congruence. }
      destruct X as [o3 [X NR]]. apply FL in X. eapply st_early; eauto. apply X. }
  apply FL in H1. destruct H1 as [TM3 CAP]. specialize (CAP cap eq_refl). clear FL TM2.
  (* extraction *)
  assert (UA : forall o4 s4, unpack_archive Z sched req h1 (fst a3) = (o4, s4) ->
    exists s1 paths answers, (answers = [] \/ ur_ask req paths = Some answers)
    /\ temp_made P s T s1 /\ cap = List.length (s_data s1 (s_next s))
    /\ inv s1 q0 names (A paths answers) s4
    /\ (forall h, o4 = Ok h -> h_ino h = s_next s /\ h_path h = temp_path pick s
                            /\ (no_faults s -> h_plan h = []))).
  { intros o4 s4 U. unfold unpack_archive in U.
    destruct (run_handle (ow_dev dev_rewind) h1 (fst a3)) as [[o5 h5] s5] eqn:RW.
    pose proof RW as RW'. apply run_handle_tree in RW. rewrite HI in RW.
    destruct RW as [ST5 [HI5 [HP5 [D5 LG5]]]].
    assert (X5 : temp_made P s T s5 /\ (no_faults s -> h_plan h5 = []) /\ cap = List.length (s_data s5 (s_next s))).
    { unfold run_handle in RW'. destruct (ow_dev dev_rewind (handle_dev (fst a3) h1, s_rng (fst a3)))
        as [ot [d g]] eqn:OD.
      apply ow_dev_inv in OD. destruct OD as [OD _]. cbn [fst] in OD. apply still_rewind in OD.
      destruct OD as [OD1 [OD2 OD3]]. injection RW' as _ X2 X3. subst h5 s5.
      cbn [move_handle h_plan with_rng put_handle with_data s_data]. 
      assert (DE : set_data (s_data (fst a3)) (h_ino h1) (d_data d) (s_next s) = s_data (fst a3) (s_next s)).
      { unfold set_data. rewrite HI, Nat.eqb_refl, OD1. cbn [handle_dev d_data]. rewrite HI. reflexivity. }
      split; [|split; [intros N; apply OD3, HPL, N|rewrite DE; exact CAP]].
      eapply temp_made_more; eauto. exists [].
      cbn [with_rng put_handle with_data s_data s_log]. rewrite OD2. split; [reflexivity|].
      intros _. rewrite DE. split; [apply le_n|constructor]. }
    destruct X5 as [TM5 [PL5 CAP5]].
    assert (I0 : forall A, inv s5 q0 names A s5).
    { intros B. constructor; auto. exists []. rewrite app_nil_r. auto. }
    assert (EARLY : s4 = s5 -> (forall h, o4 <> Ok h) -> 
      exists s1 paths answers, (answers = [] \/ ur_ask req paths = Some answers)
    /\ temp_made P s T s1 /\ cap = List.length (s_data s1 (s_next s))
    /\ inv s1 q0 names (A paths answers) s4
    /\ (forall h, o4 = Ok h -> h_ino h = s_next s /\ h_path h = temp_path pick s
                            /\ (no_faults s -> h_plan h = []))).
    { intros Es NO. subst s4. exists s5, [], []. split; [auto|]. split; [exact TM5|].
      split; [exact CAP5|]. split; [apply I0|].
      intros h Eh. exfalso. eapply NO; eauto. }
    destruct o5 as [u|e| |]; try (injection U as U1 U2; subst; apply EARLY; [reflexivity|discriminate]).
    destruct (z_decode Z (s_data s5 (h_ino h1))) as [zs|];
      [|injection U as U1 U2; subst; apply EARLY; [reflexivity|discriminate]].
    set (es := entities (ur_out req) zs) in *.
    destruct (ur_ask req (map fst es)) as [answers|] eqn:ASK;
      [|injection U as U1 U2; subst; apply EARLY; [reflexivity|discriminate]].
    destruct OA as [[c0 [OB1 OB2]] OD OWay OI].
    pose proof (accepted_all o zs answers) as F.
    exists s5, (map fst es), answers. split; [auto|]. split; [exact TM5|]. split; [exact CAP5|].
    destruct TM5 as [B1 B2 B3 B4 _ _ _].
    assert (L5 : forall x t, lookup (s_nodes s5) x = Some (NLink t) -> lookup (s_nodes s) x = Some (NLink t)).
    { intros x t. rewrite B1, lookup_add by exact LT. destruct (cpath_eqb x T); [discriminate|auto]. }
    assert (G5 : grown (s_nodes s) (s_nodes s5)) by (rewrite B1; apply grown_add, LT).
    assert (W5 : forall a b t, names = a ++ b -> a <> [] ->
      lookup (s_nodes s5) (q0 ++ a) <> Some (NLink t)).
    { intros a b t Y1 Y2 Y3. apply (OWay a b t Y1 Y2), L5, Y3. }
    assert (NI5 : no_links_inside s5 (q0 ++ names)).
    { intros x t Y1 Y2. apply (OI x t Y1), L5, Y2. }
    destruct (inv_unpack s s5 o c0 q0 names (A (map fst es) answers)
      TO CW OB1 OB2 OD G5 B3 W5 NI5 (fun cs X => proj2 X)
      (accepted es answers) sched s5 (I0 _) F h5 o4 s4 U) as [IV HQ].
    split; [exact IV|].
    intros h Eh. rewrite (HQ h Eh). split; [congruence|]. split; [congruence|exact PL5]. }
  apply bind_inv in H.
  destruct H as [[h4 [a4 [H1 H]]]|H].
  2:{ assert (X : exists o4, on_sys (unpack_archive Z sched req h1) a3 = (o4, a') /\ r <> Ok tt).
      { destruct H as [[e [H1 X]]|[[H1 X]|[H1 X]]]; eexists; (split; [exact H1|]); congruence. }
      destruct X as [o4 [X NR]]. apply zoom_inv in X. destruct X as [s4 [X EA]].
      apply UA in X. destruct X as [s1 [paths [answers [Q1 [Q2 [_ [Q3 _]]]]]]]. subst a'. cbn [fst].
      eapply st_extract; eauto. }
  apply zoom_inv in H1. destruct H1 as [s4 [H1 EA]]. subst a4.
  apply UA in H1. destruct H1 as [s1 [paths [answers [Q1 [Q2 [Q3 [Q4 Q5]]]]]]].
  destruct (Q5 h4 eq_refl) as [HI4 [HP4 HPL4]].
  apply zoom_inv in H. destruct H as [s6 [H EA]]. subst a'. cbn [fst] in *.
  unfold map_err in H. destruct (wipe_temp h4 cap 1 s4) as [o6 s7] eqn:WT.
  assert (s7 = s6) by (destruct o6; congruence). subst s7.
  eapply st_wipe; eauto. destruct o6; injection H as H; subst; reflexivity.
Qed.

Lemma unpack_changes : forall tr r a',
  unpack_execute_bs E Z pick bs sched req (s, tr) = (r, a') -> good_end (fst a').
Proof.
  intros tr r a' H. apply unpack_stages in H.
  destruct H as [e SD _|T RT LT TM _|T s1 paths answers RT LT TM I ASK _
                |T s1 s2 paths answers h cap o6 RT LT TM I ASK HI HP _ _ W _].
  - apply nothing_done, SD.
  - eapply end_early; eauto.
  - eapply end_after; eauto. apply wiped_refl.
  - apply wipe_any in W. rewrite HI, HP in W. eapply end_after; eauto.
Qed.

(** A successful run leaves nothing of the temporary archive, unless wiping fails. *)
Lemma unpack_temp_gone : forall tr a',
  unpack_execute_bs E Z pick bs sched req (s, tr) = (Ok tt, a') -> no_faults s -> P ->
  (forall r, resolve false s (temp_path pick s) = Some r -> ~ inside q r) ->
  temp_wiped s (fst a') (temp_path pick s).
Proof.
  intros tr a' H NF HP0 NT. apply unpack_stages in H.
  destruct H as [e SD X|T RT LT TM X|T s1 paths answers RT LT TM I ASK X
                |T s1 s2 paths answers h cap o6 RT LT TM I ASK HI HP HPL CAP W X];
    [discriminate|congruence|congruence|].
  assert (N2 : no_faults s2) by (apply (i_calm _ _ _ _ _ I), (tm_calm _ _ _ _ TM), NF).
  assert (G : grown (s_nodes s) (s_nodes s2)).
  { eapply grown_trans; [|apply (inv_grown1 _ _ _ _ _ I)].
    rewrite (tm_nodes _ _ _ _ TM). apply grown_add, LT. }
  assert (R2 : resolve false s2 (h_path h) = Some T).
  { rewrite HP. eapply (resolve_grown false s s2); eauto; [|discriminate].
    rewrite (i_cwd _ _ _ _ _ I). apply (tm_cwd _ _ _ _ TM). }
  assert (L2 : lookup (s_nodes s2) T = Some (NFile (s_next s))).
  { apply (inv_grown1 _ _ _ _ _ I). rewrite (tm_nodes _ _ _ _ TM), lookup_add, cpath_eqb_refl by exact LT.
    reflexivity. }
  destruct (wipe_calm h cap 1 s2 T (s_next s) N2 (HPL NF) R2 L2) as [s' [cs [W' [WN [WD [WC WL]]]]]].
  rewrite W in W'. injection W' as _ W'. subst s'. rewrite HI in *.
  destruct (tm_log _ _ _ _ TM) as [ws [L1 FT]]. destruct (i_log _ _ _ _ _ I) as [es2 [L2e FE]].
  exists T, cap, (map (fun w => FWrite (s_next s) (fst w) (snd w)) ws ++ es2), cs.
  split; [exact RT|]. split.
  { unfold at_place. rewrite WN, lookup_remove, cpath_eqb_refl; [reflexivity|]. intros Y. subst. discriminate. }
  split; [exact WD|]. split.
  { unfold added. rewrite WL, L2e, L1, <- !app_assoc. reflexivity. }
  split; [|exact WC].
  intros off l IN. apply in_app_or in IN. destruct IN as [IN|IN].
  - apply in_map_iff in IN. destruct IN as [w [Ew IN]]. injection Ew as E1 E2. subst.
    pose proof (proj1 (Forall_forall _ _) (FT HP0) w IN) as FW. exact FW.
  - exfalso. pose proof (proj1 (Forall_forall _ _) FE _ IN) as OK.
    destruct OK as [OK|[r [HR LR]]].
    + rewrite (tm_next _ _ _ _ TM) in OK. lia.
    + assert (r = T).
      { destruct (cpath_eq_dec r T) as [Y|Y]; [exact Y|]. exfalso.
        rewrite (tm_nodes _ _ _ _ TM), lookup_add in LR by exact LT.
        apply cpath_eqb_neq in Y. rewrite Y in LR. apply IO in LR. lia. }
      subst r. apply (NT T RT). apply hit_accepted in HR. destruct HR as [c [_ [_ HR]]]. exact HR.
Qed.

(** Otherwise it is left where it was. *)
Lemma unpack_temp_left : forall tr r a',
  unpack_execute_bs E Z pick bs sched req (s, tr) = (r, a') -> no_faults s -> r <> Ok tt ->
  (exists e, r = Err (UnStorage e) /\ same_disk s (fst a'))
  \/ exists T, resolve false s (temp_path pick s) = Some T
       /\ lookup (s_nodes s) T = None /\ lookup (s_nodes (fst a')) T = Some (NFile (s_next s)).
Proof.
  intros tr r a' H NF NR. apply unpack_stages in H.
  destruct H as [e SD X|T RT LT TM X|T s1 paths answers RT LT TM I ASK X
                |T s1 s2 paths answers h cap o6 RT LT TM I ASK HI HP HPL CAP W X].
  - left. eauto.
  - right. exists T. split; [exact RT|]. split; [exact LT|].
    rewrite (tm_nodes _ _ _ _ TM), lookup_add, cpath_eqb_refl by exact LT. reflexivity.
  - right. exists T. split; [exact RT|]. split; [exact LT|]. apply (inv_grown1 _ _ _ _ _ I).
    rewrite (tm_nodes _ _ _ _ TM), lookup_add, cpath_eqb_refl by exact LT. reflexivity.
  - exfalso.
    assert (N2 : no_faults s2) by (apply (i_calm _ _ _ _ _ I), (tm_calm _ _ _ _ TM), NF).
    assert (G : grown (s_nodes s) (s_nodes s2)).
    { eapply grown_trans; [|apply (inv_grown1 _ _ _ _ _ I)].
      rewrite (tm_nodes _ _ _ _ TM). apply grown_add, LT. }
    assert (R2 : resolve false s2 (h_path h) = Some T).
    { rewrite HP. eapply (resolve_grown false s s2); eauto; [|discriminate].
      rewrite (i_cwd _ _ _ _ _ I). apply (tm_cwd _ _ _ _ TM). }
    assert (L2 : lookup (s_nodes s2) T = Some (NFile (s_next s))).
    { apply (inv_grown1 _ _ _ _ _ I). rewrite (tm_nodes _ _ _ _ TM), lookup_add, cpath_eqb_refl by exact LT.
      reflexivity. }
    destruct (wipe_calm h cap 1 s2 T (s_next s) N2 (HPL NF) R2 L2) as [s' [cs [W' _]]].
    rewrite W in W'. injection W' as W1 _. subst o6. congruence.
Qed.

End Run.
