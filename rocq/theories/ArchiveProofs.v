(** Where unpacking makes changes. *)
From Coq Require Import List Arith NArith ZArith Ascii String Bool Lia.
From Verif Require Import Bytes Outcome IO Primitives Crypto Header Stream KeyModel EncDec.
From Verif Require Import Overwrite FS Archive.
From Verif Require Import IOSpec IOFacts FileProofs StreamFacts ToolProofs.
From Verif Require Import FSSpec FSFacts EraseProofs EraseDirProofs ArchiveSpec ArchiveWalk.
Import ListNotations.
Local Open Scope nat_scope.
Local Open Scope list_scope.

Lemma calm_disk : forall s b s', next_fault s = (b, s') -> no_faults s -> s' = s /\ b = false.
Proof.
  intros s b s' H [N1 N2]. apply next_fault_spec in H. destruct H as [_ [_ [_ H]]].
  destruct (H N1). auto.
Qed.

Lemma create_file_any : forall p s o s', create_file p s = (o, s') ->
  (o = Err StCreateFile /\ same_disk s s' /\ (no_faults s -> s' = s
     /\ forall q, resolve false s p = Some q -> lookup (s_nodes s) q <> None))
  \/ (exists q plan, resolve false s p = Some q /\ lookup (s_nodes s) q = None
      /\ o = Ok (EFile (mkHandle p (s_next s) 0 plan))
      /\ s_nodes s' = s_nodes s ++ [(q, NFile (s_next s))]
      /\ s_data s' = set_data (s_data s) (s_next s) []
      /\ s_next s' = S (s_next s) /\ s_cwd s' = s_cwd s /\ s_tmp s' = s_tmp s
      /\ s_rng s' = s_rng s
      /\ s_log s' = s_log s ++ [FCreate q (s_next s)]
      /\ (no_faults s -> plan = [] /\ no_faults s')).
Proof.
  intros p s o s' H. unfold create_file in H. apply call_or_inv in H.
  destruct H as [s1 [SD [RG [PL [NF [[H1 [H2 H3]]|H]]]]]].
  - left. subst. split; [reflexivity|]. split; [exact SD|]. intros [N _]. contradiction.
  - destruct SD as [D1 [D2 [D3 [D4 [D5 D6]]]]].
    assert (SD : same_disk s s1) by (repeat split; assumption).
    rewrite (resolve_disk false s s1 p SD) in H.
    destruct (resolve false s p) as [q|] eqn:R.
    + rewrite D1 in H. destruct (lookup (s_nodes s) q) as [n|] eqn:L.
      * injection H as H1 H2. subst. left. split; [reflexivity|]. split; [exact SD|].
        intros [N _]. split; [apply NF, N|]. intros q' E. injection E as E. subst. congruence.
      * right. unfold new_handle in H.
        destruct (next_plan _) as [plan s2] eqn:NP. injection H as H1 H2. subst.
        apply next_plan_spec in NP. destruct NP as [[E1 [E2 [E3 [E4 [E5 E6]]]]] [E7 [E8 E9]]].
        cbn [s_nodes s_data s_next s_cwd s_tmp s_log s_rng s_faults s_plans] in *.
        exists q, plan. rewrite E1, E2, E3, E4, E5, E6, E7. rewrite ?D2, ?D3, ?D4, ?D5, ?D6, ?RG, ?D1.
        repeat (split; [reflexivity || assumption|]).
        intros [N1 N2]. specialize (NF N1). subst s1. destruct (E9 N2) as [E10 E11].
        split; [exact E10|]. rewrite E11. split; assumption.
    + injection H as H1 H2. subst. left. split; [reflexivity|]. split; [exact SD|].
      intros [N _]. split; [apply NF, N|discriminate].
Qed.

Lemma mkdir_any : forall p s x s', mkdir p s = (x, s') ->
  (x <> None /\ same_disk s s' /\ (no_faults s -> s' = s
     /\ (resolve false s p = None /\ x = Some true
         \/ exists q n, resolve false s p = Some q /\ lookup (s_nodes s) q = Some n /\ x = Some false)))
  \/ (exists q, resolve false s p = Some q /\ lookup (s_nodes s) q = None /\ x = None
      /\ s_nodes s' = s_nodes s ++ [(q, NDir)] /\ s_data s' = s_data s /\ s_next s' = s_next s
      /\ s_cwd s' = s_cwd s /\ s_tmp s' = s_tmp s /\ s_rng s' = s_rng s
      /\ s_log s' = s_log s ++ [FMkdir q] /\ (no_faults s -> no_faults s')).
Proof.
  intros p s x s' H. unfold mkdir in H.
  destruct (next_fault s) as [b s1] eqn:NF. pose proof NF as NF'. apply next_fault_spec in NF.
  destruct NF as [SD [RG [PL FA]]].
  destruct b.
  - injection H as H1 H2. subst. left. split; [discriminate|]. split; [exact SD|].
    intros N. destruct (calm_disk _ _ _ NF' N). discriminate.
  - rewrite (resolve_disk false s s1 p SD) in H.
    pose proof SD as [D1 [D2 [D3 [D4 [D5 D6]]]]].
    destruct (resolve false s p) as [q|] eqn:R.
    + rewrite D1 in H. destruct (lookup (s_nodes s) q) as [n|] eqn:L.
      * injection H as H1 H2. subst. left. split; [discriminate|]. split; [exact SD|].
        intros N. destruct (calm_disk _ _ _ NF' N) as [E _]. split; [exact E|].
        right. exists q, n. auto.
      * injection H as H1 H2. subst. right. exists q.
        cbn [with_nodes s_nodes s_data s_next s_cwd s_tmp s_log s_rng].
        rewrite ?D2, ?D3, ?D4, ?D5, ?D6, ?RG.
        repeat (split; [reflexivity || assumption|]).
        intros N. destruct (calm_disk _ _ _ NF' N) as [E _]. subst s1. destruct N.
        split; assumption.
    + injection H as H1 H2. subst. left. split; [discriminate|]. split; [exact SD|].
      intros N. destruct (calm_disk _ _ _ NF' N) as [E _]. split; [exact E|]. left. auto.
Qed.

Lemma write_file_calm : forall p s e s', write_file p s = (Err e, s') -> no_faults s -> s' = s.
Proof.
  intros p s e s' H [N1 N2]. unfold write_file in H. rewrite call_or_calm in H by exact N1.
  destruct (stat s p) as [[|i|t]|]; try (injection H as _ H; congruence).
  unfold new_handle in H. destruct (next_plan _). discriminate.
Qed.

(** ** The changes made below the output directory *)

Section Confined.

Variables s0 s1 : sys.
Variable o : path.
Variable c0 : list comp.
Variable q0 : cpath.
Variable names : list string.
Variable A : list comp -> Prop.
Let q := q0 ++ names.

Hypothesis TO : tree_ok s0.
Hypothesis CW : lookup (s_nodes s0) (s_cwd s0) = Some NDir.
Hypothesis OC : p_comps o = c0 ++ map Nm names.
Hypothesis B0 : resolve true s0 (mkPath (p_abs o) c0) = Some q0.
Hypothesis D0 : lookup (s_nodes s0) q0 = Some NDir.
Hypothesis G01 : grown (s_nodes s0) (s_nodes s1).
Hypothesis C01 : s_cwd s1 = s_cwd s0.
Hypothesis W1 : forall a b t, names = a ++ b -> a <> [] ->
  lookup (s_nodes s1) (q0 ++ a) <> Some (NLink t).
Hypothesis NI : no_links_inside s1 q.
Hypothesis DA : forall cs, A cs -> depth_ok 0 cs = true.

Definition way (r : cpath) : Prop := exists a b, names = a ++ b /\ a <> [] /\ r = q0 ++ a.
Definition reach (r : cpath) : Prop := exists cs k, A cs /\ r = lexical q (firstn k cs).
Definition hit (r : cpath) : Prop := exists cs, A cs /\ r = lexical q cs.
Definition open_for_writing (i : nat) : Prop :=
  s_next s1 <= i \/ exists r, hit r /\ lookup (s_nodes s1) r = Some (NFile i).

Definition ok_event (e : fsev) : Prop :=
  match e with
  | FCreate r i => hit r /\ s_next s1 <= i
  | FMkdir r => way r \/ reach r
  | FTrunc i | FWrite i _ _ => open_for_writing i
  | FUnlink _ | FRmTree _ => False
  end.

Record inv (s : sys) : Prop := {
  i_cwd : s_cwd s = s_cwd s1;
  i_tmp : s_tmp s = s_tmp s1;
  i_next : s_next s1 <= s_next s;
  i_nodes : forall r, lookup (s_nodes s) r = lookup (s_nodes s1) r
    \/ (lookup (s_nodes s1) r = None
        /\ ((lookup (s_nodes s) r = Some NDir /\ (way r \/ reach r))
            \/ exists i, lookup (s_nodes s) r = Some (NFile i) /\ s_next s1 <= i /\ hit r));
  i_data : forall i, s_data s i = s_data s1 i \/ open_for_writing i;
  i_log : exists es, s_log s = s_log s1 ++ es /\ Forall ok_event es;
  i_calm : no_faults s1 -> no_faults s
}.

Lemma log_more : forall s es, inv s -> Forall ok_event es ->
  exists es', s_log s ++ es = s_log s1 ++ es' /\ Forall ok_event es'.
Proof.
  intros s es [_ _ _ _ _ [es0 [E F]] _] H. exists (es0 ++ es).
  split; [rewrite E, app_assoc; reflexivity|apply Forall_app; auto].
Qed.

Lemma closed : forall x, lookup (s_nodes s0) x <> None -> lookup (s_nodes s0) (removelast x) <> None.
Proof.
  intros x H. destruct TO as [_ [_ T]]. destruct x as [|n x] using rev_ind.
  - cbn. discriminate.
  - rewrite removelast_last. rewrite (T x n); [discriminate|].
    destruct (x ++ [n]) eqn:E; [destruct x; discriminate|]. cbn in H. rewrite <- E in *.
    destruct (find_node (s_nodes s0) (x ++ [n])) as [m|] eqn:F; [|congruence].
    apply find_in in F. apply (in_map fst) in F. exact F.
Qed.

Lemma start_exists : lookup (s_nodes s0) (start s0 (mkPath (p_abs o) c0)) <> None.
Proof. unfold start. cbn. destruct (p_abs o); [discriminate|]. rewrite CW. discriminate. Qed.

Lemma inv_grown1 : forall s, inv s -> grown (s_nodes s1) (s_nodes s).
Proof. intros s I r n H. destruct (i_nodes s I r) as [E|[E _]]; congruence. Qed.

Lemma inv_grown : forall s, inv s -> grown (s_nodes s0) (s_nodes s).
Proof. intros s I. eapply grown_trans; [exact G01|apply inv_grown1, I]. Qed.

Lemma inv_link : forall s r t, inv s -> lookup (s_nodes s) r = Some (NLink t) ->
  lookup (s_nodes s1) r = Some (NLink t).
Proof.
  intros s r t I H. destruct (i_nodes s I r) as [E|[_ [[E _]|[i [E _]]]]]; congruence.
Qed.

Lemma inv_cwd0 : forall s, inv s -> s_cwd s = s_cwd s0.
Proof. intros s I. rewrite (i_cwd s I). exact C01. Qed.

Lemma inv_disk : forall s s', inv s -> same_disk s s' -> (no_faults s -> no_faults s') -> inv s'.
Proof.
  intros s s' I [D1 [D2 [D3 [D4 [D5 D6]]]]] C. destruct I.
  constructor; rewrite ?D1, ?D2, ?D3, ?D4, ?D5, ?D6; auto.
Qed.

(** Comparing names with lists of components. *)
Lemma no_links_names : forall s, inv s -> forall cs, A cs \/ cs = [] ->
  forall k t, 1 <= k ->
  lookup (s_nodes s) (lexical q0 (firstn k (map Nm names ++ cs))) <> Some (NLink t).
Proof.
  intros s I cs Acs k t K H. apply inv_link in H; [|exact I].
  rewrite firstn_app, lexical_app, firstn_map, lexical_names, map_length in H.
  destruct (le_lt_dec k (List.length names)) as [L|L].
  - replace (k - List.length names) with 0 in H by lia. cbn in H.
    apply (W1 (firstn k names) (skipn k names) t) in H; auto.
    + symmetry. apply firstn_skipn.
    + intros N. apply (f_equal (@List.length _)) in N. rewrite firstn_length in N. cbn in N. lia.
  - rewrite firstn_all2 in H by lia. fold q in H.
    apply (NI (lexical q (firstn (k - List.length names) cs)) t); [|exact H].
    destruct Acs as [Acs|Acs].
    + apply lexical_inside, DA, Acs.
    + subst cs. rewrite firstn_nil. exists []. cbn. now rewrite app_nil_r.
Qed.

Lemma base_now : forall s c0', inv s -> dropcur c0 c0' ->
  resolve true s (mkPath (p_abs o) c0') = Some q0.
Proof.
  intros s c0' I D. eapply resolve_grown_some; [apply inv_grown, I|apply inv_cwd0, I| |exact D0].
  rewrite resolve_eq in *. cbn [p_comps p_abs] in *. eapply walk_dropcur; eauto.
Qed.

Lemma dir_now : forall s, inv s -> lookup (s_nodes s) q0 = Some NDir.
Proof. intros s I. apply (inv_grown s I), D0. Qed.

(** Below the base, places are lexical. *)
Lemma beyond_base : forall s f c0' rest r, inv s -> dropcur c0 c0' -> rest <> [] ->
  (forall k t, lookup (s_nodes s) (lexical q0 (firstn k rest)) <> Some (NLink t)) ->
  resolve f s (mkPath (p_abs o) (c0' ++ rest)) = Some r -> r = lexical q0 rest.
Proof.
  intros s f c0' rest r I D NE NL H. pose proof (base_now s c0' I D) as B.
  rewrite resolve_eq in *. cbn [p_comps p_abs] in *.
  change (start s (mkPath (p_abs o) (c0' ++ rest))) with (start s (mkPath (p_abs o) c0')) in H.
  destruct (walk_app (s_nodes s) f rest MAX_LINKS _ c0' q0 B (dir_now s I) NE) as [l' [_ E]].
  rewrite E in H. eapply walk_lexical; eauto.
Qed.

(** A prefix of a path given to unpack, perhaps with [.] dropped. *)
Definition legit (P : list comp) : Prop :=
  exists P1 P2 cs, (A cs \/ cs = []) /\ (c0 ++ map Nm names ++ cs = P1 ++ P2) /\ dropcur P1 P.

Lemma prefix_split : forall (a b c d : list comp), a ++ b = c ++ d ->
  (exists x, a = c ++ x) \/ (exists x, c = a ++ x /\ b = x ++ d).
Proof.
  induction a as [|y a IH]; intros b c d H.
  - right. exists c. split; [reflexivity|exact H].
  - destruct c as [|z c].
    + left. exists (y :: a). reflexivity.
    + injection H as H1 H2. subst. destruct (IH _ _ _ H2) as [[x E]|[x [E1 E2]]].
      * left. exists x. cbn. congruence.
      * right. exists x. split; [cbn; congruence|exact E2].
Qed.

Lemma legit_place : forall s P r, inv s -> legit P ->
  resolve false s (mkPath (p_abs o) P) = Some r -> lookup (s_nodes s) r = None ->
  way r \/ reach r.
Proof.
  intros s P r I [P1 [P2 [cs [Acs [E D]]]]] H L.
  destruct (prefix_split _ _ _ _ E) as [[x E1]|[x [E1 E2]]].
  - (* within the base *)
    exfalso. pose proof B0 as B. rewrite resolve_eq in B. cbn [p_comps p_abs] in B.
    destruct (walk_on_the_way (s_nodes s0) closed MAX_LINKS _ c0 P1 x P q0 E1 D B D0 start_exists)
      as [r' [W X]].
    destruct (lookup (s_nodes s0) r') as [n|] eqn:Lr; [|congruence].
    assert (R : resolve false s (mkPath (p_abs o) P) = Some r').
    { eapply resolve_grown_some; [apply inv_grown, I|apply inv_cwd0, I| |exact Lr].
      rewrite resolve_eq. exact W. }
    rewrite R in H. injection H as H. subst. apply (inv_grown s I) in Lr. congruence.
  - subst P1. destruct (dropcur_app_inv _ _ _ D) as [c0' [x' [EP [Dc Dx]]]]. subst P.
    destruct x' as [|y x'].
    + exfalso. rewrite app_nil_r in H. pose proof (base_now s c0' I Dc) as B.
      apply (resolve_missing s _ q0 r H L) in B. subst. rewrite (dir_now s I) in L. discriminate.
    + destruct (dropcur_prefix _ _ Dx (y :: x') [] (eq_sym (app_nil_r _))) as [_ _].
      assert (X : exists k, x = firstn k (map Nm names ++ cs)).
      { exists (List.length x). rewrite E2, firstn_app, Nat.sub_diag, firstn_all. cbn.
        symmetry. apply app_nil_r. }
      assert (NL : forall k t, lookup (s_nodes s) (lexical q0 (firstn k (y :: x'))) <> Some (NLink t)).
      { intros k t. destruct k as [|k]; [cbn; rewrite (dir_now s I); discriminate|].
        destruct (dropcur_prefix _ _ Dx (firstn (S k) (y :: x')) (skipn (S k) (y :: x')))
          as [xa [xb [Ex [Da _]]]]; [symmetry; apply firstn_skipn|].
        rewrite (lexical_dropcur _ _ Da).
        assert (Exa : xa = firstn (List.length xa) (map Nm names ++ cs)).
        { rewrite E2, Ex, <- app_assoc, firstn_app, Nat.sub_diag, firstn_all. cbn.
          symmetry. apply app_nil_r. }
        destruct xa as [|z xa]; [cbn; rewrite (dir_now s I); discriminate|].
        rewrite Exa. apply no_links_names; auto. cbn. lia. }
      apply (beyond_base s false c0' (y :: x') r I Dc) in H; [|discriminate|exact NL].
      rewrite (lexical_dropcur _ _ Dx) in H.
      destruct (prefix_split _ _ _ _ E2) as [[z E3]|[z [E3 E4]]].
      * (* among the names *)
        assert (Ex : x = map Nm (firstn (List.length x) names)).
        { rewrite <- firstn_map, E3, firstn_app, Nat.sub_diag, firstn_all. cbn.
          symmetry. apply app_nil_r. }
        left. exists (firstn (List.length x) names), (skipn (List.length x) names).
        split; [symmetry; apply firstn_skipn|]. split.
        { intros N. rewrite N in Ex. cbn in Ex. subst x. inversion Dx. }
        rewrite H, Ex at 1. rewrite lexical_names. reflexivity.
      * (* beyond *)
        assert (Ez : z = firstn (List.length z) cs).
        { rewrite E4, firstn_app, Nat.sub_diag, firstn_all. cbn. symmetry. apply app_nil_r. }
        assert (Er : r = lexical q z).
        { rewrite H, E3, lexical_app, lexical_names. reflexivity. }
        destruct Acs as [Acs|Acs].
        -- right. exists cs, (List.length z). split; [exact Acs|]. rewrite <- Ez. exact Er.
        -- subst cs. rewrite firstn_nil in Ez. subst z. rewrite app_nil_r in E3. cbn in Er.
           left. exists names, []. split; [symmetry; apply app_nil_r|]. split; [|exact Er].
           intros N. rewrite N in E3. cbn in E3. subst x. inversion Dx.
Qed.

Lemma full_place : forall s f cs r, inv s -> A cs ->
  resolve f s (mkPath (p_abs o) (p_comps o ++ cs)) = Some r ->
  r = lexical q cs \/ (names = [] /\ cs = [] /\ exists n, lookup (s_nodes s) r = Some n
                       /\ (f = true -> n = NDir)).
Proof.
  intros s f cs r I Acs H. rewrite OC, <- app_assoc in H.
  destruct (map Nm names ++ cs) as [|y x] eqn:E.
  - right. apply app_eq_nil in E. destruct E as [E1 E2]. apply map_eq_nil in E1.
    split; [exact E1|]. split; [exact E2|]. rewrite app_nil_r in H.
    pose proof (base_now s c0 I (dropcur_refl _)) as B. destruct f.
    + rewrite B in H. injection H as H. subst r. exists NDir. rewrite (dir_now s I). auto.
    + destruct (lookup (s_nodes s) r) as [n|] eqn:L.
      * exists n. split; [reflexivity|discriminate].
      * apply (resolve_missing s _ q0 r H L) in B. subst. rewrite (dir_now s I) in L. discriminate.
  - left. apply (beyond_base s f c0 (y :: x) r I (dropcur_refl _)) in H; [|discriminate|].
    + rewrite H, <- E, lexical_app, lexical_names. reflexivity.
    + intros k t. destruct k as [|k]; [cbn; rewrite (dir_now s I); discriminate|].
      rewrite <- E. apply no_links_names; auto. lia.
Qed.

Lemma hit_full : forall cs, A cs -> hit (lexical q cs).
Proof. intros cs H. exists cs. auto. Qed.

(** *** Directories *)

Lemma inv_mkdir : forall s P x s', inv s -> legit P ->
  mkdir (mkPath (p_abs o) P) s = (x, s') -> inv s'.
Proof.
  intros s P x s' I LP H. apply mkdir_any in H.
  destruct H as [[_ [SD C]]|[r [R [L [_ [E1 [E2 [E3 [E4 [E5 [_ [E6 C]]]]]]]]]]]].
  - eapply inv_disk; eauto. intros N. destruct (C N) as [E _]. subst. exact N.
  - pose proof (legit_place s P r I LP R L) as Pl.
    pose proof I as [I1 I2 I3 I4 I5 I6 I7].
    constructor; rewrite ?E2, ?E3, ?E4, ?E5, ?E6; auto; [|apply log_more; auto].
    intros x0. rewrite E1. rewrite lookup_add by exact L.
    destruct (cpath_eqb x0 r) eqn:EQ; [|apply I4].
    apply cpath_eqb_eq in EQ. subst x0. destruct (I4 r) as [EE|[EE [[EE' _]|[i [EE' _]]]]]; try congruence.
    right. rewrite <- EE. split; [exact L|]. left. split; [reflexivity|exact Pl].
Qed.

Lemma mkdir_keeps : forall P, legit P ->
  keeps inv (fun _ => True) (mkdir_or_is_dir (mkPath (p_abs o) P)).
Proof.
  intros P LP. unfold mkdir_or_is_dir. apply keeps_bind with (P := fun _ => True).
  - apply keeps_act. intros s x s' I H. split; [|exact Logic.I]. eapply inv_mkdir; eauto.
  - intros [b|] _; [|apply keeps_ok; exact Logic.I].
    apply keeps_bind with (P := fun _ => True).
    + apply keeps_act. intros s x s' I H. injection H as H1 H2. subst. auto.
    + intros [|] _; [apply keeps_ok; exact Logic.I|apply keeps_err].
Qed.

Lemma legit_shorter : forall rcs c, legit (rev (c :: rcs)) -> legit (rev rcs).
Proof.
  intros rcs c [P1 [P2 [cs [Acs [E D]]]]]. cbn in D.
  destruct (dropcur_prefix _ _ D (rev rcs) [c] eq_refl) as [a [b [E1 [D1 D2]]]].
  exists a, (b ++ P2), cs. split; [exact Acs|]. split; [|exact D1].
  rewrite E, E1, app_assoc. reflexivity.
Qed.

Lemma parents_keep : forall rcs, legit (rev rcs) ->
  keeps inv (fun _ => True) (create_parents (p_abs o) rcs).
Proof.
  induction rcs as [|c rcs IH]; intros L.
  - pose proof (mkdir_keeps [] L) as K.
    change (create_parents (p_abs o) [])
      with (if p_abs o then mkdir_or_is_dir (mkPath true []) else rret tt).
    destruct (p_abs o); [exact K|apply keeps_ok; exact Logic.I].
  - change (create_parents (p_abs o) (c :: rcs)) with
      (b <~ act (mkdir (mkPath (p_abs o) (rev (c :: rcs)))) ;;
       match b with
       | None => rret tt
       | Some false => d <~ act (fun s => (is_dir s (mkPath (p_abs o) (rev (c :: rcs))), s)) ;;
                       if (d : bool) then rret tt else rerr StCreateDir
       | Some true => create_parents (p_abs o) rcs ~;;
                      mkdir_or_is_dir (mkPath (p_abs o) (rev (c :: rcs)))
       end).
    apply keeps_bind with (P := fun _ => True).
    + apply keeps_act. intros s x s' I H. split; [|exact Logic.I]. eapply inv_mkdir; eauto.
    + intros [[|]|] _; [| |apply keeps_ok; exact Logic.I].
      * apply keeps_bind with (P := fun _ => True).
        -- apply IH. eapply legit_shorter; eauto.
        -- intros _ _. apply mkdir_keeps, L.
      * apply keeps_bind with (P := fun _ => True).
        -- apply keeps_act. intros s x s' I H. injection H as H1 H2. subst. auto.
        -- intros [|] _; [apply keeps_ok; exact Logic.I|apply keeps_err].
Qed.

Lemma create_dir_keeps : forall cs, A cs \/ cs = [] ->
  keeps inv (fun _ => True) (create_dir_all (mkPath (p_abs o) (p_comps o ++ cs))).
Proof.
  intros cs Acs. set (p := mkPath (p_abs o) (p_comps o ++ cs)).
  assert (L : legit (p_comps p)).
  { exists (p_comps o ++ cs), [], cs. split; [exact Acs|]. split; [|apply dropcur_refl].
    rewrite OC, app_nil_r, app_assoc. reflexivity. }
  assert (LC : legit (components p)).
  { exists (p_comps o ++ cs), [], cs. split; [exact Acs|]. split; [|apply (dropcur_components p)].
    rewrite OC, app_nil_r, app_assoc. reflexivity. }
  assert (K : keeps inv (fun _ : unit => True)
    (b <~ act (mkdir p) ;;
      match b with
      | None => rret tt
      | Some false => d <~ act (fun s => (is_dir s p, s)) ;;
                      if (d : bool) then rret tt else rerr StCreateDir
      | Some true =>
          match rev (components p) with
          | [] => rerr StCreateDir
          | _ :: rcs' => create_parents (p_abs p) rcs' ~;; mkdir_or_is_dir p
          end
      end)).
  { apply keeps_bind with (P := fun _ => True).
    - apply keeps_act. intros s x s' I H. split; [|exact Logic.I].
      exact (inv_mkdir s (p_comps p) x s' I L H).
    - intros [[|]|] _; [| |apply keeps_ok; exact Logic.I].
      + destruct (rev (components p)) as [|c rcs] eqn:E; [apply keeps_err|].
        apply keeps_bind with (P := fun _ => True).
        * apply parents_keep. apply (legit_shorter rcs c). rewrite <- E, rev_involutive. exact LC.
        * intros _ _. exact (mkdir_keeps (p_comps p) L).
      + apply keeps_bind with (P := fun _ => True).
        * apply keeps_act. intros s x s' I H. injection H as H1 H2. subst. auto.
        * intros [|] _; [apply keeps_ok; exact Logic.I|apply keeps_err]. }
  unfold create_dir_all. destruct (p_abs p); [exact K|].
  destruct (p_comps p); [apply keeps_ok; exact Logic.I|exact K].
Qed.

(** *** Files *)

Lemma inv_data : forall s i l es, inv s ->
  open_for_writing i -> Forall ok_event es -> inv (with_data i l es s).
Proof.
  intros s i l es I H F. pose proof I as [I1 I2 I3 I4 I5 I6 I7].
  constructor; cbn [with_data s_nodes s_data s_next s_cwd s_tmp s_log]; auto.
  - intros j. destruct (Nat.eq_dec j i) as [E|E].
    + subst. right. exact H.
    + rewrite set_data_neq by exact E. apply I5.
  - apply log_more; assumption.
Qed.

Lemma inv_rng : forall s g, inv s -> inv (with_rng g s).
Proof. intros s g [I1 I2 I3 I4 I5 I6 I7]. constructor; cbn; auto. Qed.

Lemma inv_handle : forall {E B} (m : M ow_state E B) h s r s', inv s ->
  open_for_writing (h_ino h) ->
  run_handle m h s = (r, s') -> inv s'.
Proof.
  intros E B m h s r s' I H R. unfold run_handle in R.
  destruct (m (handle_dev s h, s_rng s)) as [ot [d g]]. injection R as _ R. subst s'.
  apply inv_rng. unfold put_handle. apply inv_data; auto.
  apply Forall_forall. intros e He. apply in_map_iff in He. destruct He as [w [Ew _]].
  subst e. exact H.
Qed.

Lemma inv_open : forall cs s f s', inv s -> A cs ->
  or_else (create_file (mkPath (p_abs o) (p_comps o ++ cs)))
          (fun _ => write_file (mkPath (p_abs o) (p_comps o ++ cs))) s = (f, s') ->
  inv s' /\ (forall e, f = Ok e -> exists h, e = EFile h /\ open_for_writing (h_ino h))
  /\ f <> Panic /\ f <> Diverge.
Proof.
  intros cs s f s' I Acs H. unfold or_else in H.
  destruct (create_file _ s) as [o1 s2] eqn:C. apply create_file_any in C.
  destruct C as [[E1 [SD NC]]|[r [plan [R [L [E1 [E2 [E3 [E4 [E5 [E6 [E7 [E8 NC]]]]]]]]]]]]].
  - subst o1.
    assert (I2 : inv s2).
    { eapply inv_disk; eauto. intros N. destruct (NC N) as [E _]. subst. exact N. }
    pose proof H as H'. apply write_file_any in H.
    destruct H as [[E1 [SD2 _]]|[i [plan [sa [sb [St [E1 [SDa [Esb [SDb [_ NC2]]]]]]]]]]].
    + subst. split; [|split; [discriminate|split; discriminate]]. eapply inv_disk; eauto.
      intros N. rewrite (write_file_calm _ _ _ _ H' N). exact N.
    + unfold stat in St. destruct (resolve true s2 _) as [r|] eqn:R; [|discriminate].
      destruct (full_place s2 true cs r I2 Acs R) as [Er|[_ [_ [n [L F]]]]];
        [|rewrite (F eq_refl) in L; congruence].
      subst r.
      assert (X : open_for_writing i).
      { destruct (i_nodes s2 I2 (lexical q cs)) as [E|[E [[E' _]|[j [E' [Lj _]]]]]].
        - right. exists (lexical q cs). split; [apply hit_full, Acs|]. congruence.
        - congruence.
        - left. congruence. }
      split.
      { destruct SDa as [A1 [A2 [A3 [A4 [A5 A6]]]]]. destruct SDb as [B1 [B2 [B3 [B4 [B5 B6]]]]].
        subst sb. cbn [with_data s_nodes s_data s_next s_cwd s_tmp s_log] in *.
        pose proof I2 as [J1 J2 J3 J4 J5 JL J6].
        constructor; rewrite ?B1, ?B2, ?B3, ?B4, ?B5, ?B6, ?A1, ?A2, ?A3, ?A4, ?A5, ?A6; auto.
        - intros j. destruct (Nat.eq_dec j i) as [E|E]; [subst; right; exact X|].
          rewrite set_data_neq by exact E. apply J5.
        - apply log_more; auto.
        - intros N. destruct (NC2 (J6 N)) as [_ [Es Esa]]. subst. exact (J6 N). }
      split; [|subst; split; discriminate].
      intros e E. subst f. injection E as E. subst e. eexists. split; [reflexivity|exact X].
  - subst o1. injection H as H1 H2. subst f s2.
    destruct (full_place s false cs r I Acs R) as [Er|[_ [_ [n [L' _]]]]]; [|congruence].
    subst r. pose proof I as [J1 J2 J3 J4 J5 JL J6].
    split; [|split; [|split; discriminate]].
    + constructor; rewrite ?E3, ?E4, ?E5, ?E6, ?E8; auto; try lia.
      * intros x. rewrite E2, lookup_add by exact L.
        destruct (cpath_eqb x (lexical q cs)) eqn:EQ; [|apply J4].
        apply cpath_eqb_eq in EQ. subst x.
        destruct (J4 (lexical q cs)) as [EE|[EE [[EE' _]|[i [EE' _]]]]]; try congruence.
        right. rewrite <- EE. split; [exact L|]. right. exists (s_next s).
        split; [reflexivity|]. split; [exact J3|apply hit_full, Acs].
      * intros j. destruct (Nat.eq_dec j (s_next s)) as [E|E]; [subst; right; left; exact J3|].
        rewrite set_data_neq by exact E. apply J5.
      * apply log_more; [exact I|]. constructor; [|constructor]. split; [apply hit_full, Acs|exact J3].
      * intros N. apply NC, J6, N.
    + intros e E. injection E as E. subst e. eexists. split; [reflexivity|]. left. exact J3.
Qed.

Lemma inv_extract : forall cs z s r s', inv s -> A cs ->
  extract (mkPath (p_abs o) (p_comps o ++ cs), z) s = (r, s') -> inv s'.
Proof.
  intros cs z s r s' I Acs H. unfold extract in H. cbn [fst snd] in H.
  apply bind_inv in H. destruct H as [[a [s2 [H1 H]]]|[[e [H1 _]]|[[H1 _]|[H1 _]]]];
    destruct (zr_open z); try discriminate; injection H1 as H1; subst; auto.
  apply bind_inv in H. destruct H as [[e [s3 [H1 H]]]|H].
  - apply map_err_inv in H1. destruct H1 as [[e' [H1 Ee]]|[[e' [_ Ee]]|[[_ Ee]|[_ Ee]]]]; try discriminate.
    apply Ok_inj in Ee. subst e'.
    apply (inv_open cs _ _ _ I Acs) in H1. destruct H1 as [I3 [X _]].
    destruct (X e eq_refl) as [h [Eh Xh]]. subst e.
    apply bind_inv in H.
    assert (Z : forall o4 s4, map_err (fun _ => UnWriteData)
        (fun s => let '((o, _), s') := put_archive (zr_data z) h s in (o, s')) s3 = (o4, s4) -> inv s4).
    { intros o4 s4 HH. unfold map_err in HH.
      destruct (put_archive (zr_data z) h s3) as [[o5 h5] s5] eqn:PA.
      assert (s4 = s5) by (destruct o5; injection HH as _ HH; congruence). subst s5.
      eapply inv_handle; eauto. }
    destruct H as [[u [s4 [H1 H]]]|[[e [H1 _]]|[[H1 _]|[H1 _]]]]; try (eapply Z; eassumption).
    apply Z in H1. destruct (zr_ok z); injection H as _ H; subst; exact H1.
  - assert (Z : exists o3, map_err UnStorage
        (or_else (create_file (mkPath (p_abs o) (p_comps o ++ cs)))
          (fun _ => write_file (mkPath (p_abs o) (p_comps o ++ cs)))) s2 = (o3, s')).
    { destruct H as [[e [H _]]|[[H _]|[H _]]]; eauto. }
    destruct Z as [o3 Z]. apply map_err_inv in Z.
    assert (Z' : exists o4, or_else (create_file (mkPath (p_abs o) (p_comps o ++ cs)))
          (fun _ => write_file (mkPath (p_abs o) (p_comps o ++ cs))) s2 = (o4, s')).
    { destruct Z as [[x [Z _]]|[[x [Z _]]|[[Z _]|[Z _]]]]; eauto. }
    destruct Z' as [o4 Z']. apply (inv_open cs _ _ _ I Acs) in Z'. apply Z'.
Qed.

Lemma inv_extract_all : forall es s r s', inv s ->
  Forall (fun e => exists cs, A cs /\ fst e = mkPath (p_abs o) (p_comps o ++ cs)) es ->
  extract_all es s = (r, s') -> inv s'.
Proof.
  induction es as [|[p z] es IH]; intros s r s' I F H; cbn [extract_all] in H.
  - injection H as _ H. subst. exact I.
  - inversion F as [|? ? [cs [Acs Ep]] F']; subst. cbn [fst] in Ep. subst p.
    apply bind_inv in H. destruct H as [[u [s2 [H1 H]]]|[[e [H1 _]]|[[H1 _]|[H1 _]]]];
      apply (inv_extract cs z _ _ _ I Acs) in H1; auto. eapply IH; eauto.
Qed.

(** The whole of the extraction. *)
Lemma inv_unpack : forall es sched s, inv s ->
  Forall (fun e => exists cs, A cs /\ fst e = mkPath (p_abs o) (p_comps o ++ cs)) es ->
  forall (h : handle) (r : outcome unpack_error handle) s',
  (ts <- (fun s => let '(ts, s') := run_sched sched (mkdir_threads o es) s in (Ok ts, s')) ;;
   lift (join_all ts) ;;
   extract_all (filter (fun e => negb (ent_is_dir e)) es) ;;
   ret h) s = (r, s') -> inv s' /\ (forall x, r = Ok x -> x = h).
Proof.
  intros es sched s I F h r s' H.
  assert (T : Forall (keeps inv (fun _ => True)) (mkdir_threads o es)).
  { unfold mkdir_threads. apply Forall_forall. intros t Ht. apply in_map_iff in Ht.
    destruct Ht as [p [Et Hp]]. subst t. apply keeps_map_err.
    apply in_app_iff in Hp. destruct Hp as [Hp|[Hp|[]]].
    - apply in_map_iff in Hp. destruct Hp as [e [Ee He]]. apply filter_In in He.
      rewrite Forall_forall in F. destruct (F e (proj1 He)) as [cs [Acs Ep]].
      rewrite <- Ee, Ep. apply create_dir_keeps. auto.
    - subst p. assert (Ho : o = mkPath (p_abs o) (p_comps o ++ [])).
      { rewrite app_nil_r. destruct o; reflexivity. }
      rewrite Ho at 1. apply create_dir_keeps. auto. }
  apply bind_inv in H. destruct H as [[ts [s2 [H1 H]]]|H].
  - destruct (run_sched sched (mkdir_threads o es) s) as [ts' s2'] eqn:RS.
    injection H1 as H1 H2. subst ts' s2'.
    apply (run_sched_keeps inv (fun _ => True) _ _ _ _ _ T I) in RS. destruct RS as [I2 _].
    apply bind_inv in H. destruct H as [[u [s3 [H1 H]]]|[[e [H1 E]]|[[H1 E]|[H1 E]]]];
      unfold lift in H1; injection H1 as H1 H3; subst; try (split; [exact I2|discriminate]).
    apply bind_inv in H.
    assert (F2 : Forall (fun e => exists cs, A cs /\ fst e = mkPath (p_abs o) (p_comps o ++ cs))
                   (filter (fun e => negb (ent_is_dir e)) es)).
    { apply Forall_forall. intros e He. apply filter_In in He. rewrite Forall_forall in F. apply F, He. }
    destruct H as [[u' [s4 [H2 H]]]|[[e [H2 E]]|[[H2 E]|[H2 E]]]];
      apply (inv_extract_all _ _ _ _ I2 F2) in H2;
      try (split; [exact H2|subst; discriminate]).
    injection H as H H'. subst. split; [exact H2|]. intros x E. congruence.
  - exfalso. destruct (run_sched sched (mkdir_threads o es) s).
    destruct H as [[e [H _]]|[[H _]|[H _]]]; discriminate.
Qed.

End Confined.
