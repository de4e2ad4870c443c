(** Directories and then files of an archive, made below an output directory. *)
From Coq Require Import List Arith Ascii String Bool Lia.
From Verif Require Import Bytes Outcome IO Primitives Overwrite FS Archive.
From Verif Require Import BytesFacts IOSpec IOFacts ToolProofs FSSpec FSFacts EraseSched.
From Verif Require Import ArchiveSpec ArchiveWalk ArchiveProofs UnpackProofs RestoreSpec RestoreDirs.
Import ListNotations.
Local Open Scope nat_scope.
Local Open Scope list_scope.
Strategy 1000 [walk MAX_LINKS resolve].

Lemma resolve_plain : forall f s abs c q0 d n,
  resolve true s (mkPath abs c) = Some q0 -> lookup (s_nodes s) q0 = Some NDir -> plain d ->
  dirs (s_nodes s) q0 (nm d) ->
  (forall t, lookup (s_nodes s) (q0 ++ nm d ++ [n]) <> Some (NLink t)) ->
  resolve f s (mkPath abs (c ++ d ++ [Nm n])) = Some (q0 ++ nm d ++ [n]).
Proof.
  intros f s abs c q0 d n B L P D NL. rewrite resolve_eq in *. cbn [p_comps p_abs] in *.
  replace (start s (mkPath abs (c ++ d ++ [Nm n]))) with (start s (mkPath abs c)) by reflexivity.
  destruct (walk_app (s_nodes s) f (d ++ [Nm n]) MAX_LINKS _ c q0 B L) as [l' [_ X]].
  { destruct d; discriminate. }
  rewrite X. apply walk_plain; auto.
Qed.

Lemma put_archive_calm : forall l h s, h_plan h = [] -> h_pos h = 0 -> s_data s (h_ino h) = [] ->
  exists h' s', put_archive l h s = ((Ok tt, h'), s')
  /\ same_tree s s' /\ s_data s' (h_ino h) = l /\ s_rng s' = s_rng s
  /\ (forall j, j <> h_ino h -> s_data s' j = s_data s j).
Proof.
  intros l h s HP H0 HD. destruct (put_archive l h s) as [[o h'] s'] eqn:PA.
  unfold put_archive in PA. pose proof PA as RT. apply run_handle_tree in RT.
  destruct RT as [ST [_ [_ [DD _]]]]. unfold run_handle in PA.
  destruct (ow_dev (dev_write_all l) (handle_dev s h, s_rng s)) as [ot [d g]] eqn:OD.
  apply ow_dev_inv in OD. destruct OD as [OD EG]. cbn [fst snd] in OD, EG.
  apply dev_write_all_spec in OD. destruct OD as [_ OD].
  injection PA as <- _ <-. cbn [handle_dev d_plan] in OD.
  destruct ot as [[]|e| |]; try contradiction; [|destruct OD as [_ OD]; contradiction].
  eexists. eexists. split; [reflexivity|]. split; [exact ST|].
  split; [|split; [cbn [with_rng s_rng]; exact EG|exact DD]].
  cbn [with_rng put_handle with_data s_data]. unfold set_data. rewrite Nat.eqb_refl.
  destruct OD as [OD _]. rewrite OD. cbn [handle_dev d_data d_pos]. rewrite HD, H0, write_at_0.
  destruct l; cbn; rewrite ?app_nil_r; reflexivity.
Qed.

(** ** Extracting files into free places *)

Lemma extract_ok : forall p z s r, no_faults s -> zr_open z = true -> zr_ok z = true ->
  resolve false s p = Some r -> lookup (s_nodes s) r = None ->
  exists s', extract (p, z) s = (Ok tt, s')
  /\ s_nodes s' = s_nodes s ++ [(r, NFile (s_next s))]
  /\ s_data s' (s_next s) = zr_data z
  /\ (forall j, j <> s_next s -> s_data s' j = s_data s j)
  /\ s_next s' = S (s_next s) /\ s_cwd s' = s_cwd s /\ no_faults s'.
Proof.
  intros p z s r NF ZO ZK R L. unfold extract. cbn [fst snd]. rewrite ZO, ZK.
  erewrite bind_ok by reflexivity.
  destruct (create_file p s) as [o1 s1] eqn:CF. pose proof CF as CF0. apply create_file_any in CF.
  destruct CF as [[_ [_ CF]]|[q [plan [R' [L' [E1 [N1 [D1 [X1 [C1 [_ [_ [_ F1]]]]]]]]]]]]].
  { destruct (CF NF) as [_ CF']. exfalso. apply (CF' r R). exact L. }
  assert (q = r) by congruence. subst q o1.
  destruct (F1 NF) as [-> NF1].
  erewrite bind_ok by (apply map_err_ok; unfold or_else; rewrite CF0; reflexivity).
  destruct (put_archive_calm (zr_data z) (mkHandle p (s_next s) 0 []) s1 eq_refl eq_refl)
    as [h' [s' [PA [[T1 [T2 [T3 [T4 [T5 T6]]]]] [D2 [_ D3]]]]]].
  { cbn [h_ino]. rewrite D1. unfold set_data. rewrite Nat.eqb_refl. reflexivity. }
  erewrite bind_ok by (apply map_err_ok; cbv beta; rewrite PA; reflexivity).
  exists s'. split; [reflexivity|]. cbn [h_ino] in *. rewrite T1, T4, T2, N1, X1, C1.
  split; [reflexivity|]. split; [exact D2|]. split.
  { intros j J. rewrite D3, D1 by exact J. unfold set_data.
    apply Nat.eqb_neq in J. rewrite J. reflexivity. }
  split; [reflexivity|]. split; [reflexivity|]. destruct NF1. split; congruence.
Qed.

(** A file to be made: components below the base (the last one apart), name in
    the archive, content. *)
Record fitem := mkF { f_dir : list comp; f_last : string; f_stored : string; f_data : bytes }.
Definition f_place (q0 : cpath) (f : fitem) : cpath := q0 ++ nm (f_dir f) ++ [f_last f].
Definition f_ent (abs : bool) (c0 : list comp) (f : fitem) : entity :=
  (mkPath abs (c0 ++ f_dir f ++ [Nm (f_last f)]), mkZread (f_stored f) true (f_data f) true).

Lemma extract_all_ok : forall abs c0 q0 fs s, no_faults s ->
  resolve true s (mkPath abs c0) = Some q0 -> lookup (s_nodes s) q0 = Some NDir ->
  Forall (fun f => plain (f_dir f) /\ dirs (s_nodes s) q0 (nm (f_dir f))
                   /\ lookup (s_nodes s) (f_place q0 f) = None) fs ->
  NoDup (map (f_place q0) fs) ->
  exists s', extract_all (map (f_ent abs c0) fs) s = (Ok tt, s')
  /\ no_faults s' /\ s_cwd s' = s_cwd s /\ s_next s <= s_next s'
  /\ (forall j, j < s_next s -> s_data s' j = s_data s j)
  /\ (forall r, ~ In r (map (f_place q0) fs) -> lookup (s_nodes s') r = lookup (s_nodes s) r)
  /\ (forall f, In f fs -> exists i, lookup (s_nodes s') (f_place q0 f) = Some (NFile i)
        /\ s_data s' i = f_data f /\ s_next s <= i).
Proof.
  intros abs c0 q0. induction fs as [|f fs IH]; intros s NF B L F ND; cbn [map extract_all].
  - exists s. repeat split; auto; try apply NF. intros f [].
  - inversion F as [|f' fs' [F1 [F2 F3]] F4]; subst. inversion ND as [|r l ND1 ND2]; subst.
    assert (R : resolve false s (mkPath abs (c0 ++ f_dir f ++ [Nm (f_last f)])) = Some (f_place q0 f)).
    { apply resolve_plain; auto. unfold f_place in F3. rewrite F3. discriminate. }
    destruct (extract_ok _ (mkZread (f_stored f) true (f_data f) true) s _ NF eq_refl eq_refl R F3)
      as [s1 [E1 [N1 [D1 [D2 [X1 [C1 NF1]]]]]]].
    unfold f_ent at 1. erewrite bind_ok by exact E1.
    assert (G : grown (s_nodes s) (s_nodes s1)) by (rewrite N1; apply grown_add, F3).
    destruct (IH s1 NF1) as [s2 [E2 [NF2 [C2 [X2 [D3 [L2 FF]]]]]]].
    + eapply resolve_grown_some; eauto.
    + apply G, L.
    + apply Forall_forall. intros g I. pose proof (proj1 (Forall_forall _ _) F4 g I) as [G1 [G2 G3]].
      split; [exact G1|]. split; [eapply dirs_grown; eauto|].
      rewrite N1, lookup_add by exact F3.
      destruct (cpath_eqb (f_place q0 g) (f_place q0 f)) eqn:EQ; [|exact G3].
      apply cpath_eqb_eq in EQ. exfalso. apply ND1. rewrite <- EQ. apply in_map, I.
    + exact ND2.
    + exists s2. split; [exact E2|]. split; [exact NF2|]. split; [congruence|]. split; [lia|].
      split; [intros j J; rewrite D3, D2 by lia; reflexivity|]. split.
      * intros r NI. rewrite L2 by (intros I; apply NI; right; exact I).
        rewrite N1, lookup_add by exact F3.
        destruct (cpath_eqb r (f_place q0 f)) eqn:EQ; [|reflexivity].
        apply cpath_eqb_eq in EQ. exfalso. apply NI. left. congruence.
      * intros g [<-|I].
        -- exists (s_next s). rewrite L2 by exact ND1.
           rewrite N1, lookup_add, cpath_eqb_refl by exact F3.
           split; [reflexivity|]. split; [rewrite D3 by lia; exact D1|lia].
        -- destruct (FF g I) as [i [I1 [I2 I3]]]. exists i. repeat split; auto. lia.
Qed.

(** ** Everything *)

Lemma filter_plain : forall d, plain d ->
  filter (fun c => negb (is_cur c)) d = map Nm (nm d).
Proof.
  induction d as [|c d IH]; intros P; [reflexivity|]. inversion P; subst.
  destruct c; cbn; [apply IH; assumption|contradiction|rewrite IH by assumption; reflexivity].
Qed.

Lemma components_split : forall abs c0 names d,
  abs = true \/ c0 ++ map Nm names <> [] -> plain d ->
  exists c', dropcur c0 c'
    /\ components (mkPath abs (c0 ++ map Nm names ++ d)) = c' ++ map Nm (names ++ nm d).
Proof.
  intros abs c0 names d H P.
  assert (P' : plain (map Nm names ++ d)) by (apply Forall_app; split; [apply plain_names|exact P]).
  exists (components (mkPath abs c0)). split; [apply (dropcur_components (mkPath abs c0))|].
  assert (E : map Nm (names ++ nm d) = filter (fun c => negb (is_cur c)) (map Nm names ++ d)).
  { rewrite filter_plain by exact P'. rewrite nm_app, nm_names. reflexivity. }
  rewrite E. unfold components. cbn [p_comps p_abs].
  destruct c0 as [|c c0].
  - cbn [app filter]. destruct names as [|n names].
    + destruct H as [->|H]; [|contradiction]. cbn [map app].
      destruct d as [|[| |m] d]; reflexivity.
    + reflexivity.
  - cbn [app].
    destruct c; cbn [filter is_cur negb app]; rewrite ?filter_app; [destruct abs|reflexivity..]; reflexivity.
Qed.

Lemma path_eta : forall p, p = mkPath (p_abs p) (p_comps p).
Proof. intros [a c]. reflexivity. Qed.
Lemma nil_or : forall l : list string, l = [] \/ l <> [].
Proof. intros [|x l]; [left; reflexivity|right; discriminate]. Qed.

Section Items.

(** A directory to be made. *)
Record ditem := mkD { di_dir : list comp; di_last : string; di_stored : string; di_data : bytes }.

Variables (s1 : sys) (o : path) (c0 : list comp) (names : list string) (q0 : cpath).
Variables (ds : list ditem) (fs : list fitem) (es : list entity).
Let abs := p_abs o.

Hypothesis NF1 : no_faults s1.
Hypothesis PO : p_comps o = c0 ++ map Nm names.
Hypothesis NEO : abs = true \/ p_comps o <> [].
Hypothesis BASE : resolve true s1 (mkPath abs c0) = Some q0.
Hypothesis DIR0 : lookup (s_nodes s1) q0 = Some NDir.

Definition d_path (d : ditem) : path := mkPath abs (p_comps o ++ di_dir d ++ [Nm (di_last d)]).
Definition d_names (d : ditem) : list string := names ++ nm (di_dir d) ++ [di_last d].

Hypothesis ED : map fst (filter ent_is_dir es) = map d_path ds.
Hypothesis EF : filter (fun e => negb (ent_is_dir e)) es = map (f_ent abs c0) fs.
Hypothesis DP : Forall (fun d => plain (di_dir d)) ds.

Definition wanted (a : list string) : Prop :=
  a <> [] /\ ((exists b, names = a ++ b) \/ exists d b, In d ds /\ d_names d = a ++ b).

Hypothesis FREE : forall a, wanted a ->
  lookup (s_nodes s1) (q0 ++ a) = None \/ lookup (s_nodes s1) (q0 ++ a) = Some NDir.
Hypothesis FILES : Forall (fun f => plain (f_dir f)
  /\ (nm (f_dir f) <> [] -> wanted (nm (f_dir f)))
  /\ ~ wanted (nm (f_dir f) ++ [f_last f])
  /\ lookup (s_nodes s1) (f_place q0 f) = None) fs.
Hypothesis FND : NoDup (map (f_place q0) fs).

Lemma wanted_prefix : forall a b, wanted (a ++ b) -> a <> [] -> wanted a.
Proof.
  intros a b [_ W] N. split; [exact N|]. destruct W as [[x X]|[d [x [I X]]]].
  - left. exists (b ++ x). rewrite app_assoc. exact X.
  - right. exists d, (b ++ x). split; [exact I|]. rewrite app_assoc. exact X.
Qed.

Lemma wanted_dir : forall d, In d ds -> wanted (d_names d).
Proof.
  intros d I. split; [unfold d_names; rewrite app_assoc; intros X; apply app_eq_nil in X; destruct X; discriminate|].
  right. exists d, []. split; [exact I|]. rewrite app_nil_r. reflexivity.
Qed.

Lemma wanted_names : names <> [] -> wanted names.
Proof. intros N. split; [exact N|]. left. exists []. rewrite app_nil_r. reflexivity. Qed.

Definition thread_end (k : nat) (s : sys) : Prop :=
  match nth_error ds k with
  | Some d => dirs (s_nodes s) q0 (d_names d)
  | None => dirs (s_nodes s) q0 names
  end.

Definition limit : nat :=
  5 + 3 * (List.length names + list_sum (map (fun d => List.length (nm (di_dir d))) ds)).

Notation good := (good s1 q0 wanted).
Notation safe := (safe s1 q0 wanted).

Lemma out_safe : safe limit (create_dir_all o) (fun s => dirs (s_nodes s) q0 names) s1.
Proof.
  replace (create_dir_all o) with (create_dir_all (mkPath abs (c0 ++ map Nm names)))
    by (unfold abs; rewrite <- PO, <- path_eta; reflexivity).
  destruct (nil_or names) as [EN|NN].
  - rewrite EN. cbn [map]. rewrite app_nil_r.
    eapply safe_more; [|apply (create_base_safe s1 abs c0 q0 BASE DIR0 wanted), good_start, NF1].
    unfold limit. lia.
  - destruct (exists_last NN) as [a [n E]].
    pose proof (wanted_names NN) as WN.
    assert (NA : nm (map Nm a) = a) by apply nm_names.
    assert (CS : exists c', dropcur c0 c' /\
      components (mkPath abs (c0 ++ map Nm a ++ [Nm n])) = c' ++ map Nm (nm (map Nm a) ++ [n])).
    { assert (X : abs = true \/ c0 ++ map Nm names <> []) by (rewrite <- PO; exact NEO).
      destruct (components_split abs c0 names [] X (Forall_nil _)) as [c' [C1 C2]].
      exists c'. split; [exact C1|]. rewrite NA, <- E. cbn [nm] in C2. rewrite !app_nil_r in C2.
      rewrite E, map_app in C2 at 1. cbn [map] in C2. exact C2. }
    pose proof (create_dir_safe s1 abs c0 q0 BASE DIR0 wanted wanted_prefix FREE (map Nm a) n s1
                  (good_start s1 q0 NF1 wanted) (plain_names a)) as S1.
    rewrite NA in S1, CS. rewrite <- E in S1.
    replace (c0 ++ map Nm names) with (c0 ++ map Nm a ++ [Nm n]) by (rewrite E, map_app; reflexivity).
    eapply safe_more; [|apply (S1 WN)].
    + unfold limit. rewrite E, app_length. cbn. lia.
    + rewrite <- E in CS. exact CS.
Qed.

Lemma dir_safe : forall d, In d ds ->
  safe limit (create_dir_all (d_path d)) (fun s => dirs (s_nodes s) q0 (d_names d)) s1.
Proof.
  intros d I. pose proof (proj1 (Forall_forall _ _) DP d I) as P.
  pose proof (wanted_dir d I) as WD. unfold d_names in WD |- *.
  unfold d_path. rewrite PO, <- app_assoc.
  set (dd := map Nm names ++ di_dir d).
  assert (PD : plain dd) by (apply Forall_app; split; [apply plain_names|exact P]).
  assert (ND : nm dd = names ++ nm (di_dir d)) by (unfold dd; rewrite nm_app, nm_names; reflexivity).
  rewrite (app_assoc (map Nm names)). fold dd. rewrite (app_assoc names), <- ND in WD |- *.
  assert (X : abs = true \/ c0 ++ map Nm names <> []) by (rewrite <- PO; exact NEO).
  eapply safe_more; [|apply (create_dir_safe s1 abs c0 q0 BASE DIR0 wanted wanted_prefix FREE dd (di_last d) s1)].
  - unfold limit. rewrite ND, app_length.
    assert (List.length (nm (di_dir d)) <= list_sum (map (fun d => List.length (nm (di_dir d))) ds)); [|lia].
    clear - I. induction ds as [|x l IH]; [contradiction|]. cbn [map list_sum fold_right].
    change (fold_right Nat.add 0) with list_sum. destruct I as [->|I]; [lia|]. specialize (IH I). lia.
  - apply good_start, NF1.
  - exact PD.
  - exact WD.
  - assert (P2 : plain (di_dir d ++ [Nm (di_last d)]))
      by (apply Forall_app; split; [exact P|constructor; [discriminate|constructor]]).
    destruct (components_split abs c0 names _ X P2) as [c' [C1 C2]]. exists c'. split; [exact C1|].
    rewrite nm_app in C2. cbn [nm] in C2. rewrite ND, <- app_assoc. unfold dd. rewrite <- app_assoc. exact C2.
Qed.

(** How things end. *)
Record restored (s' : sys) : Prop := {
  re_calm : no_faults s';
  re_cwd : s_cwd s' = s_cwd s1;
  re_data : forall j, j < s_next s1 -> s_data s' j = s_data s1 j;
  re_dirs : forall a, wanted a -> lookup (s_nodes s') (q0 ++ a) = Some NDir;
  re_files : forall f, In f fs -> exists i, lookup (s_nodes s') (f_place q0 f) = Some (NFile i)
        /\ s_data s' i = f_data f /\ s_next s1 <= i;
  re_rest : forall r, (forall a, wanted a -> r <> q0 ++ a) -> ~ In r (map (f_place q0) fs) ->
    lookup (s_nodes s') r = lookup (s_nodes s1) r
}.

Lemma restore_items : forall (h : handle) sched r s',
  (ts <- (fun s => let '(ts, s') := run_sched sched (mkdir_threads o es) s in (Ok ts, s')) ;;
   lift (join_all ts) ;;
   extract_all (filter (fun e => negb (ent_is_dir e)) es) ;;
   ret h) s1 = (r, s') ->
  (r = Ok h /\ restored s')
  \/ (r = Diverge /\ exists k, k <= List.length ds /\ turns sched k < limit).
Proof.
  intros h sched r s' H.
  destruct (run_sched sched (mkdir_threads o es) s1) as [ts s2] eqn:RS.
  erewrite bind_ok in H by (cbv beta; rewrite RS; reflexivity).
  assert (TS : mkdir_threads o es
    = map (fun p => rmap_err UnStorage (create_dir_all p)) (map d_path ds ++ [o]))
    by (unfold mkdir_threads; rewrite ED; reflexivity).
  pose proof (good_start s1 q0 NF1 wanted) as G1.
  assert (TL : List.length (mkdir_threads o es) = S (List.length ds))
    by (rewrite TS, map_length, app_length, map_length; cbn; lia).
  destruct (sched_safe s1 q0 wanted sched (mkdir_threads o es) thread_end (fun _ => limit) s1 ts s2 G1)
    as [G2 [LT [LN SF]]]; [| |exact RS|].
  { intros k sa sb LA. unfold thread_end. destruct (nth_error ds k); apply dirs_grown, LA. }
  { intros k t K. rewrite TS in K. rewrite nth_error_map in K.
    destruct (nth_error (map d_path ds ++ [o]) k) as [p|] eqn:KP; [|discriminate].
    injection K as <-. apply safe_map_err. unfold thread_end.
    destruct (Nat.lt_ge_cases k (List.length ds)) as [KL|KL].
    - rewrite nth_error_app1 in KP by (rewrite map_length; exact KL).
      rewrite nth_error_map in KP. destruct (nth_error ds k) as [d|] eqn:KD; [|discriminate].
      injection KP as <-. apply dir_safe. eapply nth_error_In; eauto.
    - rewrite nth_error_app2 in KP by (rewrite map_length; exact KL). rewrite map_length in KP.
      apply nth_error_None in KL. rewrite KL.
      destruct (k - List.length ds) as [|x]; [|destruct x; discriminate].
      injection KP as <-. apply out_safe. }
  destruct (join_safe s1 q0 wanted ts thread_end (fun k => limit - turns sched k) s2 SF)
    as [[J AL]|[J [k [K1 K2]]]]; rewrite J in H.
  2:{ right. cbn in H. injection H as <- <-. split; [reflexivity|]. exists k. lia. }
  left. erewrite bind_ok in H by reflexivity. rewrite EF in H. rewrite LN, TL in AL.
  (* all directories are there *)
  assert (DW : forall a, wanted a -> lookup (s_nodes s2) (q0 ++ a) = Some NDir).
  { intros a [NA [[b X]|[d [b [I X]]]]].
    - specialize (AL (List.length ds) (Nat.lt_succ_diag_r _)). unfold thread_end in AL.
      rewrite (proj2 (nth_error_None ds (List.length ds)) (le_n _)) in AL. apply (AL a b X NA).
    - apply In_nth_error in I. destruct I as [k K].
      assert (KL : k < List.length ds) by (apply nth_error_Some; congruence).
      specialize (AL k (Nat.lt_lt_succ_r _ _ KL)). unfold thread_end in AL. rewrite K in AL.
      apply (AL a b X NA). }
  assert (D2 : s_data s2 = s_data s1) by apply G2.
  assert (X2 : s_next s2 = s_next s1) by apply G2.
  assert (C2 : s_cwd s2 = s_cwd s1) by apply G2.
  pose proof (good_grown s1 q0 wanted s2 G2) as GR.
  destruct (extract_all_ok abs c0 q0 fs s2 (g_calm _ _ _ _ G2)) as [s3 [E3 [NF3 [C3 [X3 [D3 [L3 F3]]]]]]].
  - eapply resolve_grown_some; eauto.
  - apply GR, DIR0.
  - apply Forall_forall. intros f I. pose proof (proj1 (Forall_forall _ _) FILES f I) as [P1 [P2 [P3 P4]]].
    split; [exact P1|]. split.
    + intros x y X NX. apply DW. apply (wanted_prefix x y); [|exact NX]. rewrite <- X. apply P2.
      intros Y. rewrite Y in X. symmetry in X. apply app_eq_nil in X. tauto.
    + destruct (g_nodes _ _ _ _ G2 (f_place q0 f)) as [X|[_ [_ [a [WA X]]]]]; [congruence|].
      exfalso. apply P3. unfold f_place in X. apply app_inv_head in X. rewrite X. exact WA.
  - exact FND.
  - erewrite bind_ok in H by exact E3. injection H as <- <-. split; [reflexivity|]. constructor.
    + exact NF3.
    + congruence.
    + intros j JL. rewrite D3, D2 by lia. reflexivity.
    + intros a WA. rewrite L3; [apply DW, WA|]. intros I. apply in_map_iff in I.
      destruct I as [f [X I]]. unfold f_place in X. apply app_inv_head in X.
      pose proof (proj1 (Forall_forall _ _) FILES f I) as [_ [_ [P3 _]]]. apply P3. rewrite X. exact WA.
    + intros f I. destruct (F3 f I) as [i [I1 [I2 I3]]]. exists i. repeat split; auto. lia.
    + intros r NW NI. rewrite L3 by exact NI.
      destruct (g_nodes _ _ _ _ G2 r) as [X|[_ [_ [a [WA X]]]]]; [exact X|].
      exfalso. eapply NW; eauto.
Qed.

End Items.
