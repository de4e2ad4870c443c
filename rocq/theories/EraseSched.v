(** Erasing a directory: every schedule gives the same result. *)
From Coq Require Import List Arith NArith ZArith Ascii String Bool Lia.
From Verif Require Import Bytes Outcome IO Primitives Overwrite FS Erase.
From Verif Require Import BytesFacts IOFacts IOSpec ToolSpec ToolProofs FSSpec FSFacts.
From Verif Require Import EraseProofs EraseDirProofs.
Import ListNotations.
Local Open Scope nat_scope.
Local Open Scope list_scope.

(** ** One thread, step by step *)

Section Thread.
Context (passes : Z).

Definition prog (n : nat) (p : path) (i : nat) : R erase_dir_error unit :=
  let h := mkHandle p i 0 [] in
  let fin := fun file' => rmap_err (fun _ => EraRemoveFile) (remove_file file') in
  match n with
  | 0 => rmap_err EdEraseFile (erase_execute p passes)
  | 1 => rmap_err EdEraseFile
           (cap <~ rmap_err (fun _ => EraOpenFile) (atom (file_len (EFile h))) ;;
            file' <~ overwrite_file (EFile h) cap passes ;; fin file')
  | 2 => rmap_err EdEraseFile (file' <~ overwrite_file (EFile h) 0 passes ;; fin file')
  | 3 => rmap_err EdEraseFile (fin (EFile h))
  | 4 => rmap_err EdEraseFile (rmap_err (fun _ => EraRemoveFile)
           (atom flush ~;; atom (unlink p)))
  | 5 => rmap_err EdEraseFile (rmap_err (fun _ => EraRemoveFile) (atom (unlink p)))
  | _ => Done (Ok tt)
  end.

Definition trunc (i : nat) (s : sys) : sys := with_data i [] [FTrunc i] s.

Lemma tick_0 : forall p i s, no_faults s -> stat s p = Some (NFile i) ->
  tick (prog 0 p i) s = (prog 1 p i, trunc i s).
Proof.
  intros p i s [F PL] ST. unfold prog, erase_execute. cbn [rmap_err atom rbind tick].
  unfold write_file. rewrite call_or_calm by exact F. rewrite ST.
  unfold new_handle, next_plan. cbn [with_data s_plans]. rewrite PL. reflexivity.
Qed.

Lemma tick_1 : forall p i s, no_faults s -> s_data s i = [] ->
  tick (prog 1 p i) s = (prog 2 p i, s).
Proof.
  intros p i s [F PL] D. unfold prog. cbn [rmap_err atom rbind tick file_len h_ino].
  rewrite call_or_calm by exact F. rewrite D. reflexivity.
Qed.

Lemma ow_passes_zero : forall n d g, d_plan d = [] ->
  exists d', ow_passes n 0 (d, g) = (Ok tt, (d', g))
  /\ d_plan d' = [] /\ d_data d' = d_data d /\ d_log d' = d_log d
  /\ (d' = d \/ d_pos d' = 0).
Proof.
  induction n as [|n IH]; intros d g P.
  - exists d. cbn. repeat split; auto.
  - cbn [ow_passes].
    assert (E : ow_pass 0 (d, g) = (Ok tt, (mkDev (d_data d) 0 [] (d_log d), g))).
    { destruct d as [da po pl lo]. cbn in P. subst pl. reflexivity. }
    erewrite bind_ok by exact E.
    destruct (IH (mkDev (d_data d) 0 [] (d_log d)) g eq_refl) as [d' [H1 [H2 [H3 [H4 H5]]]]].
    exists d'. rewrite H1. repeat split; auto. right. destruct H5 as [->|H5]; auto.
Qed.

Lemma overwrite_nothing : forall s p i, run_handle (overwrite_execute 0 passes) (mkHandle p i 0 []) s
  = ((Ok tt, mkHandle p i 0 []),
     with_rng (s_rng s) (with_data i (s_data s i) [] s)).
Proof.
  intros s p i. unfold run_handle, overwrite_execute.
  destruct (ow_passes_zero (Z.to_nat passes) (handle_dev s (mkHandle p i 0 [])) (s_rng s) eq_refl)
    as [d' [H1 [H2 [H3 [H4 _]]]]].
  erewrite bind_ok by exact H1. destruct d' as [da po pl lo]. cbn in H2, H3, H4. subst.
  reflexivity.
Qed.

Lemma tick_2 : forall p i s,
  tick (prog 2 p i) s = (prog 3 p i, with_rng (s_rng s) (with_data i (s_data s i) [] s)).
Proof.
  intros p i s. unfold prog. cbn [rmap_err act rbind tick overwrite_file rret].
  rewrite overwrite_nothing. reflexivity.
Qed.

Lemma tick_3 : forall p i s, no_faults s -> tick (prog 3 p i) s = (prog 4 p i, trunc i s).
Proof.
  intros p i s [F PL]. unfold prog, remove_file. cbn [rmap_err atom rbind tick rret].
  unfold truncate. rewrite call_or_calm by exact F. reflexivity.
Qed.

Lemma tick_4 : forall p i s, no_faults s -> tick (prog 4 p i) s = (prog 5 p i, s).
Proof.
  intros p i s [F PL]. unfold prog. cbn [rmap_err atom rbind tick rret].
  unfold flush. rewrite call_or_calm by exact F. reflexivity.
Qed.

Lemma tick_5 : forall p i s q, no_faults s -> resolve false s p = Some q ->
  lookup (s_nodes s) q = Some (NFile i) ->
  tick (prog 5 p i) s = (prog 6 p i, with_nodes (remove_node (s_nodes s) q) (FUnlink q) s).
Proof.
  intros p i s q [F PL] R L. unfold prog. cbn [rmap_err atom rbind tick rret].
  unfold unlink. rewrite call_or_calm by exact F. rewrite R, L. reflexivity.
Qed.

Lemma tick_6 : forall n p i s, 6 <= n -> tick (prog n p i) s = (prog n p i, s).
Proof. intros n p i s N. do 6 (destruct n as [|n]; [lia|]). reflexivity. Qed.

Lemma prog_6 : forall n p i, 6 <= n -> prog n p i = Done (Ok tt).
Proof. intros n p i N. do 6 (destruct n as [|n]; [lia|]). reflexivity. Qed.

Lemma prog_done : forall n p i, n < 6 -> exists X m k, prog n p i = Step X m k.
Proof.
  intros n p i N. do 6 (destruct n as [|n]; [repeat eexists|]). lia.
Qed.
End Thread.

(** ** The n-th thread *)

Fixpoint set_nth {A} (n : nat) (l : list A) (a : A) : list A :=
  match l, n with
  | [], _ => []
  | _ :: l', O => a :: l'
  | x :: l', S n' => x :: set_nth n' l' a
  end.

Lemma nth_set_same : forall {A} n (l : list A) a, n < List.length l ->
  nth_error (set_nth n l a) n = Some a.
Proof.
  induction n as [|n IH]; intros [|x l] a H; cbn in *; try lia; auto. apply IH. lia.
Qed.
Lemma nth_set_other : forall {A} n m (l : list A) a, n <> m ->
  nth_error (set_nth n l a) m = nth_error l m.
Proof.
  induction n as [|n IH]; intros [|m] [|x l] a H; cbn; auto; try congruence.
Qed.
Lemma set_nth_length : forall {A} n (l : list A) a, List.length (set_nth n l a) = List.length l.
Proof. induction n as [|n IH]; intros [|x l] a; cbn; auto. Qed.

Lemma step_nth_spec : forall {E A} n (ts : list (R E A)) s,
  step_nth n ts s
  = match nth_error ts n with
    | None => (ts, s)
    | Some t => let '(t', s') := tick t s in (set_nth n ts t', s')
    end.
Proof.
  induction n as [|n IH]; intros [|t ts] s; cbn [step_nth nth_error set_nth]; auto.
  rewrite IH. destruct (nth_error ts n) as [t'|]; [|reflexivity].
  destruct (tick t' s) as [t2 s2]. reflexivity.
Qed.

(** ** All threads *)

Section Threads.
Context (s0 : sys) (passes : Z).

(** The file a thread erases: path, place, inode. *)
Definition job : Type := (path * cpath * nat)%type.
Definition j_path (j : job) := fst (fst j).
Definition j_place (j : job) := snd (fst j).
Definition j_ino (j : job) := snd j.

Context (jobs : list job).
Definition good_job (j : job) : Prop :=
  resolve true s0 (j_path j) = Some (j_place j)
  /\ resolve false s0 (j_path j) = Some (j_place j)
  /\ lookup (s_nodes s0) (j_place j) = Some (NFile (j_ino j)).
Hypothesis GOOD : Forall good_job jobs.
Hypothesis DISTINCT : NoDup (map j_place jobs).

(** [st k] is the number of steps thread [k] has made. *)
Definition removed (st : nat -> nat) (r : cpath) : Prop :=
  exists k j, nth_error jobs k = Some j /\ 6 <= st k /\ r = j_place j.

Definition inv (st : nat -> nat) (ts : list (R erase_dir_error unit)) (s : sys) : Prop :=
  no_faults s /\ s_cwd s = s_cwd s0
  /\ List.length ts = List.length jobs
  /\ (forall k j, nth_error jobs k = Some j ->
        nth_error ts k = Some (prog passes (st k) (j_path j) (j_ino j)))
  /\ (forall r, removed st r -> lookup (s_nodes s) r = None)
  /\ (forall r, ~ removed st r -> lookup (s_nodes s) r = lookup (s_nodes s0) r)
  /\ (forall k j, nth_error jobs k = Some j -> 1 <= st k -> s_data s (j_ino j) = [])
  /\ (forall i, s_data s i = s_data s0 i \/ (s_data s i = [] /\ In i (map j_ino jobs))).

Definition bump (st : nat -> nat) (k : nat) : nat -> nat :=
  fun x => if x =? k then S (st x) else st x.

Lemma bump_same : forall st k, bump st k k = S (st k).
Proof. intros. unfold bump. rewrite Nat.eqb_refl. reflexivity. Qed.
Lemma bump_other : forall st k x, x <> k -> bump st k x = st x.
Proof. intros. unfold bump. destruct (Nat.eqb_spec x k); congruence. Qed.

Lemma job_unique : forall k k' j j', nth_error jobs k = Some j -> nth_error jobs k' = Some j' ->
  j_place j = j_place j' -> k = k'.
Proof.
  intros k k' j j' H H' E. apply (map_nth_error j_place) in H, H'.
  rewrite E, <- H' in H. eapply (proj1 (NoDup_nth_error (map j_place jobs))); [exact DISTINCT| |exact H].
  apply nth_error_Some. rewrite H, H'. discriminate.
Qed.

Lemma removed_dec : forall st r, removed st r \/ ~ removed st r.
Proof.
  intros st r.
  assert (H : forall n, (exists k j, k < n /\ nth_error jobs k = Some j /\ 6 <= st k /\ r = j_place j)
              \/ ~ (exists k j, k < n /\ nth_error jobs k = Some j /\ 6 <= st k /\ r = j_place j)).
  { induction n as [|n [IH|IH]].
    - right. intros [k [j [H _]]]. lia.
    - left. destruct IH as [k [j [H1 H2]]]. exists k, j. split; [lia|exact H2].
    - destruct (nth_error jobs n) as [j|] eqn:N.
      + destruct (le_lt_dec 6 (st n)) as [L|L].
        * destruct (cpath_eq_dec r (j_place j)) as [E|E].
          -- left. exists n, j. auto.
          -- right. intros [k [j' [H1 [H2 [H3 H4]]]]].
             destruct (Nat.eq_dec k n) as [->|NK]; [congruence|].
             apply IH. exists k, j'. split; [lia|auto].
        * right. intros [k [j' [H1 [H2 [H3 H4]]]]].
          destruct (Nat.eq_dec k n) as [->|NK]; [lia|].
          apply IH. exists k, j'. split; [lia|auto].
      + right. intros [k [j' [H1 [H2 [H3 H4]]]]].
        destruct (Nat.eq_dec k n) as [->|NK]; [congruence|].
        apply IH. exists k, j'. split; [lia|auto]. }
  destruct (H (List.length jobs)) as [[k [j [_ X]]]|N].
  - left. exists k, j. exact X.
  - right. intros [k [j [X1 X2]]]. apply N. exists k, j. split; [|auto].
    apply nth_error_Some. rewrite X1. discriminate.
Qed.

Lemma inv_lost : forall st ts s, inv st ts s -> lost_files (s_nodes s0) (s_nodes s).
Proof.
  intros st ts s [_ [_ [_ [_ [A [B _]]]]]] r.
  destruct (removed_dec st r) as [X|X]; [|left; apply B, X].
  right. split; [apply A, X|]. destruct X as [k [j [H1 [_ ->]]]].
  rewrite Forall_forall in GOOD. specialize (GOOD j (nth_error_In _ _ H1)). exists (j_ino j). apply GOOD.
Qed.

Lemma removed_bump : forall st k r, st k <> 5 -> removed (bump st k) r <-> removed st r.
Proof.
  intros st k r N. unfold removed. split; intros [x [j [H1 [H2 H3]]]]; exists x, j; repeat split; auto.
  - destruct (Nat.eq_dec x k) as [->|NX].
    + rewrite bump_same in H2. lia.
    + rewrite bump_other in H2; auto.
  - destruct (Nat.eq_dec x k) as [->|NX].
    + rewrite bump_same. lia.
    + rewrite bump_other; auto.
Qed.

(** A step that keeps the tree. *)
Lemma inv_step : forall st ts s k j s',
  inv st ts s -> nth_error jobs k = Some j -> st k <> 5 ->
  no_faults s' -> s_cwd s' = s_cwd s -> s_nodes s' = s_nodes s ->
  (forall i, s_data s' i = s_data s i \/ (i = j_ino j /\ s_data s' i = [])) ->
  s_data s' (j_ino j) = [] ->
  inv (bump st k) (set_nth k ts (prog passes (S (st k)) (j_path j) (j_ino j))) s'.
Proof.
  intros st ts s k j s' [F [C [LN [T [A [B [D1 D2]]]]]]] J N5 F' C' NN DD DJ.
  unfold inv. rewrite C', NN, set_nth_length. repeat split; auto.
  1,2: apply F'.
  - intros x jx JX. destruct (Nat.eq_dec x k) as [->|NX].
    + rewrite nth_set_same; [|rewrite LN; apply nth_error_Some; congruence].
      rewrite bump_same. congruence.
    + rewrite nth_set_other, bump_other by congruence. apply T, JX.
  - intros r X. apply A. apply (removed_bump st k r N5), X.
  - intros r X. apply B. intros Y. apply X. apply (removed_bump st k r N5), Y.
  - intros x jx JX X. destruct (Nat.eq_dec x k) as [->|NX].
    + congruence.
    + rewrite bump_other in X by exact NX. destruct (DD (j_ino jx)) as [->|[_ ->]]; eauto.
  - intros i. destruct (DD i) as [->|[-> ->]]; [apply D2|].
    right. split; [reflexivity|]. apply in_map, (nth_error_In _ _ J).
Qed.

Lemma good : forall k j, nth_error jobs k = Some j -> good_job j.
Proof. intros k j J. rewrite Forall_forall in GOOD. apply GOOD, (nth_error_In _ _ J). Qed.

Lemma inv_tick : forall st ts s k,
  inv st ts s -> exists st' ts' s', step_nth k ts s = (ts', s') /\ inv st' ts' s'
    /\ (forall x, x <> k -> st' x = st x) /\ (k < List.length jobs -> st' k >= S (st k)).
Proof.
  intros st ts s k I. rewrite step_nth_spec.
  destruct (nth_error jobs k) as [j|] eqn:J.
  2:{ assert (L : nth_error ts k = None).
      { destruct I as [_ [_ [LN _]]]. apply nth_error_None. rewrite LN. apply nth_error_None, J. }
      rewrite L. exists st, ts, s. split; [reflexivity|]. split; [exact I|]. split; [auto|].
      intros X. apply nth_error_Some in X. congruence. }
  pose proof (good k j J) as [G1 [G2 G3]].
  assert (T : nth_error ts k = Some (prog passes (st k) (j_path j) (j_ino j))) by (apply I, J).
  rewrite T.
  pose proof I as [NF [C [LN [TT [A [B [D1 D2]]]]]]].
  pose proof (inv_lost _ _ _ I) as LF.
  assert (RS : forall f, resolve f s (j_path j) = Some (j_place j)).
  { intros f. rewrite (resolve_lost_files f s0 s _ LF C). destruct f; assumption. }
  assert (BUMP : forall x, x <> k -> bump st k x = st x) by (intros; apply bump_other; assumption).
  assert (BK : k < List.length jobs -> bump st k k >= S (st k)) by (rewrite bump_same; lia).
  assert (LK : st k < 6 -> lookup (s_nodes s) (j_place j) = Some (NFile (j_ino j))).
  { intros L6. rewrite B, G3; [reflexivity|]. intros [x [jx [X1 [X2 X3]]]].
    pose proof (job_unique _ _ _ _ J X1 X3). subst x. lia. }
  assert (GO : forall t' s', tick (prog passes (st k) (j_path j) (j_ino j)) s = (t', s') ->
    inv (bump st k) (set_nth k ts t') s' ->
    exists st' ts' s'', (let '(t', s') := tick (prog passes (st k) (j_path j) (j_ino j)) s in
                         (set_nth k ts t', s')) = (ts', s'') /\ inv st' ts' s''
      /\ (forall x, x <> k -> st' x = st x)
      /\ (k < List.length jobs -> st' k >= S (st k))).
  { intros t' s' E I'. rewrite E. exists (bump st k), (set_nth k ts t'), s'. auto. }
  assert (STEP : forall s', tick (prog passes (st k) (j_path j) (j_ino j)) s
                            = (prog passes (S (st k)) (j_path j) (j_ino j), s') ->
     st k <> 5 -> no_faults s' -> s_cwd s' = s_cwd s -> s_nodes s' = s_nodes s ->
     (forall i, s_data s' i = s_data s i \/ (i = j_ino j /\ s_data s' i = [])) ->
     s_data s' (j_ino j) = [] ->
     exists st' ts' s'', (let '(t', s') := tick (prog passes (st k) (j_path j) (j_ino j)) s in
                         (set_nth k ts t', s')) = (ts', s'') /\ inv st' ts' s''
      /\ (forall x, x <> k -> st' x = st x)
      /\ (k < List.length jobs -> st' k >= S (st k))).
  { intros s' E N5 NF' C' NN DD DJ. apply (GO _ _ E). apply inv_step with (s := s); auto. }
  assert (CASES : st k = 0 \/ st k = 1 \/ st k = 2 \/ st k = 3 \/ st k = 4 \/ st k = 5 \/ 6 <= st k) by lia.
  assert (SD : forall i, s_data (trunc (j_ino j) s) i = s_data s i
                         \/ (i = j_ino j /\ s_data (trunc (j_ino j) s) i = [])).
  { intros i. cbn. unfold set_data. destruct (Nat.eqb_spec i (j_ino j)); auto. }
  destruct CASES as [E|[E|[E|[E|[E|[E|E]]]]]].
  - apply (STEP (trunc (j_ino j) s)); try lia; auto.
    + rewrite E. apply tick_0; [exact NF|]. unfold stat. rewrite RS. apply LK. lia.
    + cbn. apply set_data_eq.
  - apply (STEP s); try lia; auto.
    + rewrite E. apply tick_1; [exact NF|]. apply (D1 k j J). lia.
    + apply (D1 k j J). lia.
  - apply (STEP (with_rng (s_rng s) (with_data (j_ino j) (s_data s (j_ino j)) [] s))); try lia; auto.
    + rewrite E. apply tick_2.
    + intros i. left. cbn. unfold set_data. destruct (Nat.eqb_spec i (j_ino j)); congruence.
    + cbn. rewrite set_data_eq. apply (D1 k j J). lia.
  - apply (STEP (trunc (j_ino j) s)); try lia; auto.
    + rewrite E. apply tick_3; exact NF.
    + cbn. apply set_data_eq.
  - apply (STEP s); try lia; auto.
    + rewrite E. apply tick_4; exact NF.
    + apply (D1 k j J). lia.
  - apply (GO (prog passes 6 (j_path j) (j_ino j))
              (with_nodes (remove_node (s_nodes s) (j_place j)) (FUnlink (j_place j)) s)).
    + rewrite E. apply tick_5; [exact NF|apply RS|apply LK; lia].
    + assert (NP : j_place j <> []) by (intros X; rewrite X in G3; discriminate).
      unfold inv. cbn [with_nodes s_nodes s_cwd s_data]. rewrite set_nth_length.
      assert (RB : forall r, removed (bump st k) r <-> r = j_place j \/ removed st r).
      { intros r. split.
        - intros [x [jx [X1 [X2 X3]]]]. destruct (Nat.eq_dec x k) as [->|NX].
          + left. congruence.
          + right. rewrite bump_other in X2 by exact NX. exists x, jx. auto.
        - intros [->|[x [jx [X1 [X2 X3]]]]].
          + exists k, j. rewrite bump_same, E. auto.
          + exists x, jx. repeat split; auto. unfold bump. destruct (x =? k); lia. }
      repeat split; auto.
      1,2: apply NF.
      * intros x jx JX. destruct (Nat.eq_dec x k) as [->|NX].
        -- rewrite nth_set_same; [|rewrite LN; apply nth_error_Some; congruence].
           rewrite bump_same, E. congruence.
        -- rewrite nth_set_other, bump_other by congruence. apply TT, JX.
      * intros r X. rewrite lookup_remove by exact NP.
        destruct (cpath_eqb r (j_place j)) eqn:Q; [reflexivity|].
        apply cpath_eqb_neq in Q. apply A. apply RB in X. destruct X; [contradiction|assumption].
      * intros r X. rewrite lookup_remove by exact NP.
        destruct (cpath_eqb r (j_place j)) eqn:Q.
        -- apply cpath_eqb_eq in Q. destruct X. apply RB. auto.
        -- apply B. intros Y. apply X, RB. auto.
      * intros x jx JX X. destruct (Nat.eq_dec x k) as [->|NX].
        -- apply (D1 k jx JX). lia.
        -- rewrite bump_other in X by exact NX. apply (D1 x jx JX X).
  - apply (STEP s); try lia; auto.
    + rewrite tick_6 by exact E. rewrite !prog_6 by lia. reflexivity.
    + apply (D1 k j J). lia.
Qed.

Lemma inv_sched : forall sched st ts s,
  inv st ts s -> exists st' ts' s', run_sched sched ts s = (ts', s') /\ inv st' ts' s'
    /\ (forall k, k < List.length jobs -> st k + turns sched k <= st' k).
Proof.
  induction sched as [|n sched IH]; intros st ts s I.
  - exists st, ts, s. split; [reflexivity|]. split; [exact I|]. cbn. intros. lia.
  - cbn [run_sched]. destruct (inv_tick st ts s n I) as [st1 [ts1 [s1 [E [I1 [O1 O2]]]]]].
    rewrite E. destruct (IH st1 ts1 s1 I1) as [st2 [ts2 [s2 [E2 [I2 O3]]]]].
    exists st2, ts2, s2. split; [exact E2|]. split; [exact I2|].
    intros k K. specialize (O3 k K). cbn [turns]. destruct (Nat.eqb_spec n k) as [->|N].
    + specialize (O2 K). lia.
    + rewrite O1 in O3 by congruence. lia.
Qed.

Lemma join_prog : forall st ts s, inv st ts s ->
  (join_all ts = Ok tt /\ (forall k, k < List.length jobs -> 6 <= st k))
  \/ (join_all ts = Diverge /\ exists k, k < List.length jobs /\ st k < 6).
Proof.
  intros st ts s [_ [_ [LN [T _]]]].
  assert (H : forall l base js, List.length l = List.length js ->
    (forall k j, nth_error js k = Some j ->
       nth_error l k = Some (prog passes (st (base + k)) (j_path j) (j_ino j))) ->
    (join_all l = Ok tt /\ (forall k, k < List.length js -> 6 <= st (base + k)))
    \/ (join_all l = Diverge /\ exists k, k < List.length js /\ st (base + k) < 6)).
  { induction l as [|t l IH]; intros base [|j js] L H; try discriminate L.
    - left. cbn. split; [reflexivity|]. intros. lia.
    - assert (T0 := H 0 j eq_refl). cbn [nth_error] in T0. rewrite Nat.add_0_r in T0.
      injection T0 as ->.
      destruct (le_lt_dec 6 (st base)) as [G|G].
      + assert (E : prog passes (st base) (j_path j) (j_ino j) = Done (Ok tt)).
        { apply prog_6, G. }
        rewrite E. cbn [join_all].
        destruct (IH (S base) js) as [[J1 J2]|[J1 [k [J2 J3]]]].
        * cbn in L. lia.
        * intros k jk JK. specialize (H (S k) jk JK). cbn [nth_error] in H.
          replace (S base + k) with (base + S k) by lia. exact H.
        * left. split; [exact J1|]. intros [|k] K; [rewrite Nat.add_0_r; exact G|].
          replace (base + S k) with (S base + k) by lia. apply J2. cbn in K. lia.
        * right. split; [exact J1|]. exists (S k). cbn. split; [lia|].
          replace (base + S k) with (S base + k) by lia. exact J3.
      + right. destruct (prog_done passes (st base) (j_path j) (j_ino j) G) as [X [m [c E]]].
        rewrite E. cbn [join_all]. split; [reflexivity|]. exists 0. cbn.
        rewrite Nat.add_0_r. split; [lia|exact G]. }
  apply (H ts 0 jobs LN T).
Qed.
End Threads.

(** ** The directory *)

(** The names below [q]. *)
Definition rels (t : nodes) (q : cpath) : list (list string) :=
  flat_map (fun e => match strip_prefix q (fst e) with
                     | Some (n :: r) => [n :: r]
                     | _ => []
                     end) t.

Lemma listing_rels : forall s p q, resolve true s p = Some q ->
  listing s p = p :: map (sub p) (rels (s_nodes s) q).
Proof.
  intros s p q R. unfold listing. rewrite R. f_equal. unfold rels.
  induction (s_nodes s) as [|e t IH]; [reflexivity|]. cbn [flat_map].
  rewrite map_app, <- IH. destruct (strip_prefix q (fst e)) as [[|n r]|]; reflexivity.
Qed.

Lemma rels_in : forall t q rel, In rel (rels t q) -> rel <> [] /\ In (q ++ rel) (map fst t).
Proof.
  intros t q rel I. unfold rels in I. apply in_flat_map in I. destruct I as [e [I1 I2]].
  destruct (strip_prefix q (fst e)) as [[|n r]|] eqn:S; try contradiction.
  destruct I2 as [<-|[]]. split; [discriminate|].
  apply strip_prefix_spec in S. rewrite <- S. apply in_map, I1.
Qed.

Lemma in_rels : forall t q rel, rel <> [] -> In (q ++ rel) (map fst t) -> In rel (rels t q).
Proof.
  intros t q rel N I. apply in_map_iff in I. destruct I as [e [E I]].
  apply in_flat_map. exists e. split; [exact I|].
  destruct e as [k nd]. cbn [fst] in *. subst k.
  replace (strip_prefix q (q ++ rel)) with (Some rel) by (symmetry; apply strip_prefix_spec; reflexivity).
  destruct rel; [contradiction|left; reflexivity].
Qed.

Lemma rels_nodup : forall t q, NoDup (map fst t) -> NoDup (rels t q).
Proof.
  intros t q. induction t as [|e t IH]; intros N; [constructor|].
  cbn in N. inversion N as [|x l N1 N2 Q]; subst. cbn.
  destruct (strip_prefix q (fst e)) as [[|n r]|] eqn:S; try (apply IH; assumption).
  cbn. constructor; [|apply IH; assumption].
  intros I. apply rels_in in I. destruct I as [_ I]. apply N1.
  apply strip_prefix_spec in S. rewrite S. exact I.
Qed.

Definition jobs_of (s : sys) (p : path) (q : cpath) (l : list (list string)) : list job :=
  flat_map (fun rel => match lookup (s_nodes s) (q ++ rel) with
                       | Some (NFile i) => [(sub p rel, q ++ rel, i)]
                       | _ => []
                       end) l.

Lemma jobs_in : forall s p q l j, In j (jobs_of s p q l) ->
  exists rel, In rel l /\ j_path j = sub p rel /\ j_place j = q ++ rel
    /\ lookup (s_nodes s) (q ++ rel) = Some (NFile (j_ino j)).
Proof.
  intros s p q l j I. apply in_flat_map in I. destruct I as [rel [I1 I2]]. exists rel.
  destruct (lookup (s_nodes s) (q ++ rel)) as [[|i|t]|] eqn:L; try contradiction.
  destruct I2 as [<-|[]]. auto.
Qed.

Lemma jobs_nodup : forall s p q l, NoDup l -> NoDup (map j_place (jobs_of s p q l)).
Proof.
  intros s p q l. induction l as [|rel l IH]; intros N; [constructor|].
  inversion N as [|x y N1 N2 Q]; subst. unfold jobs_of. cbn [flat_map].
  fold (jobs_of s p q l).
  destruct (lookup (s_nodes s) (q ++ rel)) as [[|i|t]|]; try (apply IH; assumption).
  cbn [app map]. constructor; [|apply IH; assumption].
  intros I. apply in_map_iff in I. destruct I as [j [E I]]. apply jobs_in in I.
  destruct I as [rel' [I1 [_ [P _]]]]. unfold j_place in E at 2. cbn in E.
  rewrite E in P. apply app_inv_head in P. subst rel'. contradiction.
Qed.

Lemma read_all_calm : forall ps s, no_faults s ->
  (forall p, In p ps -> is_dir s p = true \/ exists i, stat s p = Some (NFile i)) ->
  exists es, read_all ps s = (Ok es, s).
Proof.
  induction ps as [|p ps IH]; intros s [F PL] H.
  - exists []. reflexivity.
  - destruct (IH s (conj F PL)) as [es E]; [intros; apply H; right; assumption|].
    assert (X : exists e, read_file p s = (Ok e, s)).
    { unfold read_file. destruct (is_dir s p) eqn:D; [eauto|].
      rewrite call_or_calm by exact F.
      destruct (H p (or_introl eq_refl)) as [Y|[i Y]]; [congruence|]. rewrite Y.
      unfold new_handle, next_plan. rewrite PL. eauto. }
    destruct X as [e X]. exists (e :: es). cbn [read_all].
    erewrite bind_ok by exact X. erewrite bind_ok by exact E. reflexivity.
Qed.

Section Dir.
Context (s : sys) (p : path) (q : cpath) (passes : Z).
Hypothesis (TREE : tree_ok s) (NF : no_faults s) (RT : resolve true s p = Some q)
  (RF : resolve false s p = Some q) (DIR : lookup (s_nodes s) q = Some NDir) (NR : q <> [])
  (NL : no_links_inside s q).

Let rs := rels (s_nodes s) q.
Let js := jobs_of s p q rs.

Lemma rel_resolve : forall f rel, In rel rs -> resolve f s (sub p rel) = Some (q ++ rel).
Proof.
  intros f rel I. apply rels_in in I. destruct I as [N I].
  apply resolve_below; auto.
  - intros a b E NA NB. apply (ancestors s b (q ++ a) TREE NB).
    rewrite <- app_assoc, <- E. exact I.
  - right. intros t L. apply (NL (q ++ rel) t); [exists rel; reflexivity|exact L].
Qed.

Lemma threads_jobs : forall l es, incl l rs -> Forall2 (opened s) (map (sub p) l) es ->
  erase_threads passes es
  = map (fun j => prog passes 0 (j_path j) (j_ino j)) (jobs_of s p q l).
Proof.
  induction l as [|rel l IH]; intros es I F; cbn [map] in F.
  - inversion F. reflexivity.
  - inversion F as [|x e y es' O F' X1 X2]; subst.
    unfold erase_threads, jobs_of. cbn [flat_map filter].
    fold (jobs_of s p q l).
    assert (I' : incl l rs) by (intros z Z; apply I; right; exact Z).
    specialize (IH es' I' F'). unfold erase_threads in IH.
    destruct O as [O1 [O2 O3]].
    assert (ST : stat s (sub p rel) = lookup (s_nodes s) (q ++ rel)).
    { unfold stat. rewrite rel_resolve by (apply I; left; reflexivity). reflexivity. }
    rewrite O2. unfold is_dir. rewrite ST.
    destruct (rels_in _ _ _ (I rel (or_introl eq_refl))) as [_ IK].
    destruct (key_lookup s (q ++ rel) TREE IK) as [nd LN]. rewrite LN.
    destruct nd as [|i|t].
    + cbn [negb app]. exact IH.
    + cbn [negb app map]. rewrite IH, O1. reflexivity.
    + destruct (NL (q ++ rel) t); [exists rel; reflexivity|exact LN].
Qed.

Lemma good_jobs : Forall (good_job s) js.
Proof.
  apply Forall_forall. intros j I. apply jobs_in in I. destruct I as [rel [I [P [Q L]]]].
  unfold good_job. rewrite P, Q, !rel_resolve by exact I. auto.
Qed.

Lemma distinct_jobs : NoDup (map j_place js).
Proof. apply jobs_nodup, rels_nodup, TREE. Qed.

(** The number of files below the directory. *)
Lemma jobs_count : List.length js <= List.length (s_nodes s).
Proof.
  assert (A : forall l, List.length (jobs_of s p q l) <= List.length l).
  { induction l as [|rel l IH]; [cbn; lia|]. unfold jobs_of in *. cbn [flat_map].
    rewrite app_length. cbn [List.length].
    destruct (lookup (s_nodes s) (q ++ rel)) as [[|i|x]|]; cbn [List.length];
      unfold job, cpath in *; lia. }
  assert (B : forall t, List.length (rels t q) <= List.length t).
  { induction t as [|e t IH]; [cbn; lia|]. unfold rels in *. cbn [flat_map].
    rewrite app_length. cbn [List.length].
    destruct (strip_prefix q (fst e)) as [[|n r]|]; cbn [List.length]; lia. }
  unfold js, rs. specialize (A (rels (s_nodes s) q)). specialize (B (s_nodes s)). lia.
Qed.

Lemma inv_start : forall s1 ts, s1 = s ->
  ts = map (fun j => prog passes 0 (j_path j) (j_ino j)) js ->
  inv s passes js (fun _ => 0) ts s1.
Proof.
  intros s1 ts -> ->. unfold inv. rewrite map_length. repeat split; auto; try apply NF.
  - intros k j J. apply (map_nth_error (fun j => prog passes 0 (j_path j) (j_ino j))), J.
  - intros r [k [j [_ [X _]]]]. lia.
  - intros k j _ X. lia.
Qed.

Lemma erase_dir_all : forall sched o s',
  erase_dir_execute sched (EDir p) passes s = (o, s') ->
  (o = Ok tt
   /\ (forall r, inside q r -> at_place s' r = None)
   /\ (forall r, ~ inside q r -> lookup (s_nodes s') r = lookup (s_nodes s) r)
   /\ (forall i, s_data s' i <> s_data s i ->
         exists r, inside q r /\ lookup (s_nodes s) r = Some (NFile i))
   /\ no_faults s')
  \/ (o = Diverge /\ exists k, k < List.length (s_nodes s) /\ turns sched k < 6).
Proof.
  intros sched o s' H. unfold erase_dir_execute in H. cbn [entry_is_dir negb] in H.
  assert (RD : exists es, read_dir (EDir p) s = (Ok es, s)).
  { unfold read_dir. destruct NF as [F PL]. rewrite call_or_calm by exact F.
    apply read_all_calm; [exact NF|]. rewrite (listing_rels s p q RT).
    intros p' [<-|I].
    - left. unfold is_dir, stat. rewrite RT, DIR. reflexivity.
    - apply in_map_iff in I. destruct I as [rel [<- I]].
      unfold is_dir, stat. rewrite rel_resolve by exact I.
      destruct (rels_in _ _ _ I) as [_ IK].
      destruct (key_lookup s (q ++ rel) TREE IK) as [[|i|t] LN]; rewrite LN; eauto.
      destruct (NL (q ++ rel) t); [exists rel; reflexivity|exact LN]. }
  destruct RD as [es RD].
  erewrite bind_ok in H by (apply map_err_ok; exact RD).
  apply read_dir_any in RD. destruct RD as [_ [FO _]]. specialize (FO es eq_refl).
  rewrite (listing_rels s p q RT) in FO. inversion FO as [|x e y es' O F' X1 X2]; subst.
  assert (TS : erase_threads passes (e :: es')
               = map (fun j => prog passes 0 (j_path j) (j_ino j)) js).
  { unfold erase_threads. cbn [filter]. destruct O as [_ [O2 _]]. rewrite O2.
    unfold is_dir, stat. rewrite RT, DIR. cbn [negb].
    apply (threads_jobs rs es' (incl_refl _) F'). }
  rewrite TS in H.
  destruct (inv_sched s passes js good_jobs distinct_jobs sched (fun _ => 0) _ s
              (inv_start s _ eq_refl eq_refl)) as [st [ts [s2 [RS [I2 TU]]]]].
  erewrite bind_ok in H by (cbv beta; rewrite RS; reflexivity).
  destruct (join_prog s passes js st ts s2 I2) as [[J ALL]|[J [k [K1 K2]]]].
  2:{ right. rewrite J in H. cbn in H. injection H as <- <-. split; [reflexivity|].
      exists k. pose proof jobs_count. specialize (TU k K1). cbn in TU. split; lia. }
  left. rewrite J in H. erewrite bind_ok in H by reflexivity.
  pose proof I2 as [[F2 PL2] [C2 [_ [_ [A [B [_ D2]]]]]]].
  pose proof (inv_lost s passes js good_jobs st ts s2 I2) as LF.
  assert (R2 : resolve false s2 p = Some q) by (rewrite (resolve_lost_files false s s2 p LF C2); exact RF).
  assert (L2 : lookup (s_nodes s2) q = Some NDir).
  { destruct (LF q) as [E|[_ [i E]]]; congruence. }
  assert (RM : remove_dir_all (EDir p) s2
    = (Ok tt, with_nodes (filter (fun e => negb (below q (fst e))) (s_nodes s2)) (FRmTree q) s2)).
  { unfold remove_dir_all. rewrite call_or_calm by exact F2. rewrite R2, L2.
    destruct q; [contradiction|reflexivity]. }
  erewrite map_err_ok in H by exact RM. injection H as <- <-.
  split; [reflexivity|]. split; [|split; [|split; [|split; [exact F2|exact PL2]]]].
  - intros r [rel ->]. unfold at_place. cbn [with_nodes s_nodes].
    rewrite lookup_rmtree by exact NR.
    replace (below q (q ++ rel)) with true; [reflexivity|].
    symmetry. apply below_spec. exists rel. reflexivity.
  - intros r NI. cbn [with_nodes s_nodes]. rewrite lookup_rmtree by exact NR.
    destruct (below q r) eqn:E.
    + apply below_spec in E. destruct NI. exact E.
    + apply B. intros [k [j [J1 [_ ->]]]]. apply NI.
      apply nth_error_In, jobs_in in J1. destruct J1 as [rel [_ [_ [-> _]]]].
      exists rel. reflexivity.
  - cbn [with_nodes s_data]. intros i N. destruct (D2 i) as [E|[_ I]]; [contradiction|].
    apply in_map_iff in I. destruct I as [j [<- I]]. apply jobs_in in I.
    destruct I as [rel [_ [_ [_ L]]]]. exists (q ++ rel). split; [exists rel; reflexivity|exact L].
Qed.
End Dir.

Lemma erase_dir_holds : forall s p q passes sched o s',
  tree_ok s -> no_faults s -> resolve true s p = Some q -> resolve false s p = Some q ->
  lookup (s_nodes s) q = Some NDir -> q <> [] -> no_links_inside s q -> no_outside_names s q ->
  erase_dir_execute sched (EDir p) passes s = (o, s') ->
  (o = Ok tt
   /\ (forall r, inside q r -> at_place s' r = None)
   /\ (forall r, ~ inside q r -> at_place s' r = at_place s r))
  \/ (o = Diverge /\ exists k, k < List.length (s_nodes s) /\ turns sched k < 6).
Proof.
  intros s p q passes sched o s' T NF RT RF D NR NL NO H.
  destruct (erase_dir_all s p q passes T NF RT RF D NR NL sched o s' H)
    as [[-> [A [B [C _]]]]|X]; [left|right; exact X].
  split; [reflexivity|]. split; [exact A|]. intros r NI. apply at_place_ext; [apply B, NI|].
  intros i L. destruct (list_eq_dec Byte.byte_eq_dec (s_data s' i) (s_data s i)) as [E|E]; [exact E|].
  exfalso. destruct (C i E) as [r' [I' L']]. apply (NO r' r i I' NI L' L).
Qed.
