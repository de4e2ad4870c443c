(** The log tells what the commands do to files, whatever the outcome. *)
From Coq Require Import List Arith NArith ZArith Ascii String Lia Bool.
From Verif Require Import Bytes Outcome IO Primitives Crypto Header Stream KeyModel EncDec KeyOps HeaderOps.
From Verif Require Import Overwrite Hash FS Erase Archive Cli CliTools.
From Verif Require Import StreamSpec FileSpec KeySpec CliToolsSpec WorldFrames FreshSpec FreshLib StreamProofs.
From Verif Require Import IOFacts CliRuns CrashSpec CrashLib.
Import ListNotations.
Local Open Scope nat_scope.
Local Open Scope list_scope.

(** ** Redoing changes *)

Lemma same_files_refl : forall s, same_files s s.
Proof. intros s. repeat split. Qed.
Lemma same_files_trans : forall a b c, same_files a b -> same_files b c -> same_files a c.
Proof.
  intros a b c (A1 & A2 & A3 & A4 & A5 & A6) (B1 & B2 & B3 & B4 & B5 & B6).
  repeat split; try congruence.
Qed.
Lemma same_files_sym : forall a b, same_files a b -> same_files b a.
Proof. intros a b (A1 & A2 & A3 & A4 & A5 & A6). repeat split; try congruence. Qed.
Lemma redo1_same : forall e a b, same_files a b -> same_files (redo1 a e) (redo1 b e).
Proof.
  intros e a b (A1 & A2 & A3 & A4 & A5 & A6). unfold same_files, redo1. cbn.
  rewrite A1, A3, A4, A5, A6. repeat split. intros j. unfold content_after.
  destruct e; rewrite ?A2; reflexivity.
Qed.
Lemma redo_same : forall es a b, same_files a b -> same_files (redo es a) (redo es b).
Proof. induction es as [|e es IH]; intros a b H; [exact H|]. cbn. apply IH, redo1_same, H. Qed.
Lemma redo_app : forall a b s, redo (a ++ b) s = redo b (redo a s).
Proof. intros a b s. unfold redo. apply fold_left_app. Qed.
Lemma redo_log : forall es s, s_log (redo es s) = s_log s ++ es.
Proof.
  induction es as [|e es IH]; intros s; [symmetry; apply app_nil_r|]. cbn. rewrite IH. cbn.
  rewrite <- app_assoc. reflexivity.
Qed.

Lemma told_same : forall s s', same_files s s' -> told s s'.
Proof. intros s s' H. exists []. exact H. Qed.
Lemma told_refl : forall s, told s s. Proof. intros s. apply told_same, same_files_refl. Qed.
Lemma told_trans : forall a b c, told a b -> told b c -> told a c.
Proof.
  intros a b c [es H] [es' H']. exists (es ++ es'). rewrite redo_app.
  eapply same_files_trans; [|exact H']. apply redo_same, H.
Qed.
Lemma told1 : forall e s s', same_files (redo1 s e) s' -> told s s'.
Proof. intros e s s' H. exists [e]. exact H. Qed.

Lemma next_fault_same : forall s, same_files s (snd (next_fault s)).
Proof. intros s. unfold next_fault. destruct (s_faults s); repeat split. Qed.
Lemma next_plan_same : forall s, same_files s (snd (next_plan s)).
Proof. intros s. unfold next_plan. destruct (s_plans s); repeat split. Qed.

Lemma replay_redo : forall i l s,
  same_files (redo (map (fun w => FWrite i (fst w) (snd w)) l) s)
    (with_data i (replay (s_data s i) l) (map (fun w => FWrite i (fst w) (snd w)) l) s).
Proof.
  intros i l. induction l as [|w l IH]; intros s.
  - cbn. repeat split; [|cbn; apply app_nil_r]. intros j. cbn. unfold set_data. destruct (Nat.eqb_spec j i); congruence.
  - cbn [map redo fold_left]. eapply same_files_trans; [apply IH|]. unfold same_files, with_data, redo1. cbn.
    repeat split.
    + intros j. unfold set_data, content_after. destruct (Nat.eqb_spec j i) as [->|N].
      * rewrite Nat.eqb_refl. reflexivity.
      * reflexivity.
    + rewrite <- app_assoc. reflexivity.
Qed.
Lemma told_put : forall d h s, dl (handle_dev s h) d -> told s (put_handle d h s).
Proof.
  intros d h s (l & L & D). cbn in L, D. exists (map (fun w => FWrite (h_ino h) (fst w) (snd w)) l).
  unfold put_handle. rewrite L, D. apply replay_redo.
Qed.
Lemma told_rng : forall g s, told s (with_rng g s).
Proof. intros g s. apply told_same. repeat split. Qed.
Lemma t_call_or : forall {E A} (e : E) (m : M sys E A), always told m -> always told (call_or e m).
Proof.
  intros E A e m Hm s o s' H. unfold call_or in H. pose proof (next_fault_same s) as R.
  destruct (next_fault s) as [b s1]. cbn in R. apply told_same in R. destruct b.
  - inversion H. subst. exact R.
  - eapply told_trans; [exact R|]. eapply Hm; eauto.
Qed.
Lemma t_new_handle : forall p i, always told (new_handle p i).
Proof.
  intros p i s o s' H. unfold new_handle in H. pose proof (next_plan_same s) as R.
  destruct (next_plan s) as [pl s1]. inversion H. subst. apply told_same, R.
Qed.
Ltac same H := inversion H; subst; apply told_refl.
Ltac done e H := inversion H; subst; apply (told1 e); repeat split.

Lemma t_create_file : forall p, always told (create_file p).
Proof.
  intros p. apply t_call_or. intros s o s' H. destruct (resolve false s p) as [q|]; [|same H].
  destruct (lookup _ _); [same H|]. apply t_new_handle in H. eapply told_trans; [|exact H].
  apply (told1 (FCreate q (s_next s))). unfold same_files, redo1. cbn [s_nodes s_data s_next s_cwd s_tmp s_log].
  repeat split. symmetry. apply Nat.max_r, Nat.le_succ_diag_r.
Qed.
Lemma t_read_file : forall p, always told (read_file p).
Proof.
  intros p s o s' H. unfold read_file in H. destruct (is_dir s p); [same H|]. revert H. apply t_call_or.
  clear. intros s o s' H. destruct (stat s p) as [[|i|t]|]; try same H. apply t_new_handle in H. exact H.
Qed.
Lemma t_write_file : forall p, always told (write_file p).
Proof.
  intros p. apply t_call_or. intros s o s' H. destruct (stat s p) as [[|i|t]|]; try same H.
  apply t_new_handle in H. eapply told_trans; [|exact H]. apply (told1 (FTrunc i)). repeat split.
Qed.
Lemma t_file_len : forall e, always told (file_len e).
Proof. intros [h|p]; [apply t_call_or|]; intros s o s' H; same H. Qed.
Lemma t_truncate : forall h, always told (truncate h).
Proof. intros h. apply t_call_or. intros s o s' H. done (FTrunc (h_ino h)) H. Qed.
Lemma t_unlink : forall p, always told (unlink p).
Proof.
  intros p. apply t_call_or. intros s o s' H. destruct (resolve false s p) as [q|]; [|same H].
  destruct (lookup _ _) as [[|i|t]|]; try same H; done (FUnlink q) H.
Qed.
Lemma t_flush : always told flush.
Proof. apply t_call_or. intros s o s' H; same H. Qed.
Lemma t_flush_file : forall e, always told (flush_file e).
Proof. intros [h|p]; [apply t_flush|]. apply (always_err told told_refl). Qed.
Lemma t_remove_dir_all : forall e, always told (remove_dir_all e).
Proof.
  intros [h|p]; [apply (always_err told told_refl)|]. apply t_call_or.
  intros s o s' H. destruct (resolve false s p) as [[|x q]|]; try same H.
  destruct (lookup _ _) as [[|i|t]|]; try same H; [done (FRmTree (x :: q)) H|done (FUnlink (x :: q)) H].
Qed.
Lemma t_read_all : forall ps, always told (read_all ps).
Proof.
  induction ps as [|p ps IH]; cbn [read_all]; [apply (always_ret told told_refl)|].
  apply (always_bind told told_trans); [apply t_read_file|intros e].
  apply (always_bind told told_trans); [exact IH|intros es]. apply (always_ret told told_refl).
Qed.
Lemma t_read_dir : forall e, always told (read_dir e).
Proof.
  intros [h|p]; [apply (always_err told told_refl)|]. apply t_call_or. intros s o s' H.
  eapply t_read_all; eauto.
Qed.
Lemma t_mkdir : forall p s, told s (snd (mkdir p s)).
Proof.
  intros p s. unfold mkdir. pose proof (next_fault_same s) as R. destruct (next_fault s) as [b s1]. cbn in R.
  apply told_same in R. destruct b; [exact R|]. destruct (resolve false s1 p) as [q|]; [|exact R].
  destruct (lookup _ _); [exact R|]. eapply told_trans; [exact R|]. apply (told1 (FMkdir q)). repeat split.
Qed.
Lemma t_create_or_write : forall p, always told (create_or_write p).
Proof. intros p. apply (always_or_else told told_trans); [apply t_create_file|intros; apply t_write_file]. Qed.
Lemma t_temp : forall pick, always told (create_temp_file pick).
Proof.
  intros pick s o s' H. unfold create_temp_file in H. destruct (pick (s_rng s)) as [n g].
  apply t_create_file in H. eapply told_trans; [apply (told_rng g)|exact H].
Qed.
Lemma t_run_handle : forall {E A} (m : M ow_state E A) h s, always ol m -> told s (snd (run_handle m h s)).
Proof.
  intros E A m h s Hm. unfold run_handle. destruct (m (handle_dev s h, s_rng s)) as [o [d g]] eqn:X.
  apply Hm in X. unfold ol in X. cbn [fst snd] in *. eapply told_trans; [apply told_put; exact X|apply told_rng].
Qed.

(** Threads *)
Fixpoint steps_told {E A} (r : R E A) : Prop :=
  match r with
  | Done _ => True
  | Step X m k => (forall s, told s (snd (m s))) /\ forall x, steps_told (k x)
  end.
Lemma st_bind : forall {E A B} (r : R E A) (k : A -> R E B),
  steps_told r -> (forall a, steps_told (k a)) -> steps_told (rbind r k).
Proof.
  intros E A B r k. induction r as [o|X m c IH]; intros H K; cbn.
  - destruct o; cbn; auto.
  - destruct H as [H1 H2]. split; [exact H1|]. intros x. apply IH; auto.
Qed.
Lemma st_map_err : forall {E E' A} (f : E -> E') (r : R E A), steps_told r -> steps_told (rmap_err f r).
Proof.
  intros E E' A f r. induction r as [o|X m c IH]; intros H; cbn.
  - destruct o; exact I.
  - destruct H as [H1 H2]. split; [exact H1|]. intros x. apply IH; auto.
Qed.
Lemma st_atom : forall {E A} (m : M sys E A), always told m -> steps_told (atom m).
Proof.
  intros E A m H. split; [|intros x; exact I]. intros s. destruct (m s) as [o s'] eqn:X. exact (H _ _ _ X).
Qed.
Lemma st_act : forall {E X} (m : sys -> X * sys), (forall s, told s (snd (m s))) -> steps_told (@act E X m).
Proof. intros E X m H. split; [exact H|]. intros x. exact I. Qed.
Lemma st_run : forall {E A} (r : R E A), steps_told r -> always told (run r).
Proof.
  intros E A r. induction r as [o1|X m c IH]; intros H s o s' Y; cbn in Y.
  - inversion Y. apply told_refl.
  - destruct H as [H1 H2]. specialize (H1 s). destruct (m s) as [x s1].
    eapply told_trans; [exact H1|]. eapply IH; eauto.
Qed.
Lemma st_tick : forall {E A} (r : R E A) s, steps_told r ->
  steps_told (fst (tick r s)) /\ told s (snd (tick r s)).
Proof.
  intros E A [o|X m k] s H; cbn; [split; [exact I|apply told_refl]|].
  destruct H as [H1 H2]. specialize (H1 s). destruct (m s) as [x s1]. split; [apply H2|exact H1].
Qed.
Lemma st_step_nth : forall {E A} (ts : list (R E A)) i s, Forall steps_told ts ->
  Forall steps_told (fst (step_nth i ts s)) /\ told s (snd (step_nth i ts s)).
Proof.
  intros E A ts. induction ts as [|t ts IH]; intros i s F.
  - destruct i; (split; [constructor|apply told_refl]).
  - inversion F as [|? ? F1 F2]; subst. destruct i as [|i]; cbn [step_nth].
    + destruct (st_tick t s F1) as [H1 H2]. destruct (tick t s) as [t' s1]. split; [constructor; assumption|exact H2].
    + destruct (IH i s F2) as [H1 H2]. destruct (step_nth i ts s) as [ts2 s1]. split; [constructor; assumption|exact H2].
Qed.
Lemma st_run_sched : forall {E A} sched (ts : list (R E A)) s, Forall steps_told ts ->
  told s (snd (run_sched sched ts s)).
Proof.
  intros E A sched. induction sched as [|i sched IH]; intros ts s F; cbn; [apply told_refl|].
  destruct (st_step_nth ts i s F) as [H1 H2]. destruct (step_nth i ts s) as [ts1 s1].
  eapply told_trans; [exact H2|]. apply IH, H1.
Qed.
Lemma t_threads : forall {E A X} sched (ts : list (R E A)), Forall steps_told ts ->
  always told (fun s => let '(t', s') := run_sched sched ts s in (@Ok X _ t', s')).
Proof.
  intros E A X sched ts F s o s' H. pose proof (st_run_sched sched ts s F) as G.
  destruct (run_sched sched ts s) as [t1 s1]. inversion H. subst. exact G.
Qed.

Lemma st_is_dir : forall p, steps_told (d <~ act (fun s => (is_dir s p, s)) ;;
                                       if (d : bool) then rret tt else rerr StCreateDir)%r.
Proof. intros p. apply st_bind; [apply st_act; intros s; apply told_refl|]. intros []; exact I. Qed.
Lemma st_mkdir_or : forall p, steps_told (mkdir_or_is_dir p).
Proof.
  intros p. apply st_bind; [apply st_act, t_mkdir|]. intros [b|]; [|exact I]. apply st_is_dir.
Qed.
Lemma st_parents : forall abs rcs, steps_told (create_parents abs rcs).
Proof.
  intros abs rcs. induction rcs as [|c rcs IH]; cbn [create_parents].
  - destruct abs; [apply st_mkdir_or|exact I].
  - cbv zeta. apply st_bind; [apply st_act, t_mkdir|]. intros [[]|]; [| |exact I].
    + apply st_bind; [exact IH|intros _; apply st_mkdir_or].
    + apply st_is_dir.
Qed.
Lemma st_create_dir_all : forall p, steps_told (create_dir_all p).
Proof.
  intros p. unfold create_dir_all.
  assert (G : steps_told (b <~ act (mkdir p) ;;
      match b with
      | None => rret tt
      | Some false => d <~ act (fun s => (is_dir s p, s)) ;;
                      if (d : bool) then rret tt else rerr StCreateDir
      | Some true =>
          match rev (components p) with
          | [] => rerr StCreateDir
          | _ :: rcs' => create_parents (p_abs p) rcs' ~;; mkdir_or_is_dir p
          end
      end)%r).
  { apply st_bind; [apply st_act, t_mkdir|]. intros [[]|]; [| |exact I].
    - destruct (rev (components p)); [exact I|]. apply st_bind; [apply st_parents|intros _; apply st_mkdir_or].
    - apply st_is_dir. }
  destruct (p_abs p), (p_comps p); try exact I; exact G.
Qed.

(** Erasing *)
Lemma st_remove_file : forall e, steps_told (remove_file e).
Proof.
  intros e. apply st_bind; [|intros _; apply st_atom, t_unlink]. destruct e; [|exact I].
  apply st_bind; [apply st_atom, t_truncate|intros _; apply st_atom, t_flush].
Qed.
Lemma st_erase : forall p passes, steps_told (erase_execute p passes).
Proof.
  intros p passes. unfold erase_execute.
  apply st_bind; [apply st_map_err, st_atom, t_write_file|intros e].
  apply st_bind; [apply st_map_err, st_atom, t_file_len|intros cap].
  apply st_bind; [|intros e'; apply st_map_err, st_remove_file].
  destruct e as [h|q]; [|exact I]. apply st_bind; [apply st_act; intros s; apply t_run_handle, ol_overwrite|].
  intros [[] h']; exact I.
Qed.
Lemma t_erase_dir : forall sched e passes, always told (erase_dir_execute sched e passes).
Proof.
  intros sched e passes. unfold erase_dir_execute.
  destruct (negb (entry_is_dir e)); [apply (always_err told told_refl)|].
  apply (always_bind told told_trans); [apply (always_map_err told), t_read_dir|intros files].
  apply (always_bind told told_trans).
  { apply t_threads. unfold erase_threads. apply Forall_forall. intros r I.
    apply in_map_iff in I as (f & <- & _). apply st_map_err, st_erase. }
  intros ts. apply (always_bind told told_trans); [apply (always_lift told told_refl)|intros _].
  apply (always_map_err told), t_remove_dir_all.
Qed.

(** Archives *)
Lemma t_wipe : forall h cap passes, always told (wipe_temp h cap passes).
Proof.
  intros h cap passes s o s' H. unfold wipe_temp in H.
  pose proof (t_run_handle (overwrite_execute cap passes) h s (ol_overwrite cap passes)) as G.
  destruct (run_handle (overwrite_execute cap passes) h s) as [[o1 h'] s1]. cbn in G.
  assert (Q : forall o s', Archive.quiet (run (remove_file (EFile h'))) s1 = (o, s') -> told s s').
  { intros o2 s2 X. unfold Archive.quiet in X. destruct (run (remove_file (EFile h')) s1) as [o3 s3] eqn:Y.
    pose proof (st_run _ (st_remove_file _) _ _ _ Y) as Z.
    assert (s2 = s3) by (destruct o3; inversion X; reflexivity). subst. eapply told_trans; eauto. }
  destruct o1; eauto; inversion H; subst; exact G.
Qed.
Lemma t_put_archive : forall l h s, told s (snd (put_archive l h s)).
Proof. intros l h s. apply t_run_handle. eapply ol_dev; dev_step. Qed.
Lemma t_pack_add : forall bs es acc s, told s (snd (pack_add bs es acc s)).
Proof.
  intros bs es. induction es as [|[h|p] es IH]; intros acc s; cbn [pack_add]; [apply told_refl| |].
  - destruct (has_name _ _); [apply told_refl|]. cbv zeta. destruct (pack_read _ _ _ _) as [[[] data] d'];
      try apply told_refl. apply IH.
  - destruct (has_name _ _); [apply told_refl|]. apply IH.
Qed.
Lemma t_pack_archive : forall Z bs req h s, told s (snd (pack_archive Z bs req h s)).
Proof.
  intros Z bs req h s. unfold pack_archive. pose proof (t_pack_add bs (pr_files req) [] s) as G.
  destruct (pack_add bs (pr_files req) [] s) as [[o zs] s1]. cbn in G.
  pose proof (t_put_archive (z_encode Z (pr_compression req) zs) h s1) as G2.
  destruct (put_archive _ h s1) as [[w h'] s2]. cbn in *. eapply told_trans; eauto.
Qed.
Lemma t_extract : forall e, always told (extract e).
Proof.
  intros e. unfold extract.
  apply (always_bind told told_trans).
  { destruct (zr_open (snd e)); [apply (always_ret told told_refl)|apply (always_err told told_refl)]. }
  intros _. apply (always_bind told told_trans); [apply (always_map_err told), t_create_or_write|].
  intros [h|p]; [|apply (always_err told told_refl)].
  apply (always_bind told told_trans).
  - apply (always_map_err told). intros s o s' H. pose proof (t_put_archive (zr_data (snd e)) h s) as G.
    destruct (put_archive _ h s) as [[o1 h1] s1]. inversion H. subst. exact G.
  - intros _. destruct (zr_ok (snd e)); [apply (always_ret told told_refl)|apply (always_err told told_refl)].
Qed.
Lemma t_extract_all : forall es, always told (extract_all es).
Proof.
  induction es as [|e es IH]; cbn [extract_all]; [apply (always_ret told told_refl)|].
  apply (always_bind told told_trans); [apply t_extract|intros _; exact IH].
Qed.
Lemma t_unpack_archive : forall Z sched req h, always told (unpack_archive Z sched req h).
Proof.
  intros Z sched req h s o s' H. unfold unpack_archive in H.
  pose proof (t_run_handle (ow_dev dev_rewind) h s (ol_dev _ dl_rewind)) as G.
  destruct (run_handle (ow_dev dev_rewind) h s) as [[o1 h1] s1]. cbn in G.
  destruct o1; try (inversion H; subst; exact G).
  destruct (z_decode Z (s_data s1 (h_ino h))) as [zs|]; [|inversion H; subst; exact G]. cbv zeta in H.
  destruct (ur_ask req _) as [answers|]; [|inversion H; subst; exact G].
  eapply told_trans; [exact G|]. revert H. clear.
  set (acc := accepted _ _). generalize s1 o s'. fold (always told
    (ts <- (fun s => let '(ts, s') := run_sched sched (mkdir_threads (ur_out req) acc) s in (Ok ts, s')) ;;
     lift (join_all ts) ;;
     extract_all (filter (fun e => negb (ent_is_dir e)) acc) ;;
     ret h1)%m).
  apply (always_bind told told_trans).
  { apply t_threads. unfold mkdir_threads. apply Forall_forall. intros r I.
    apply in_map_iff in I as (p & <- & _). apply st_map_err, st_create_dir_all. }
  intros ts. apply (always_bind told told_trans); [apply (always_lift told told_refl)|intros _].
  apply (always_bind told told_trans); [apply t_extract_all|intros _]. apply (always_ret told told_refl).
Qed.

(** ** With the trace *)

Definition at_ (a a' : asys) : Prop := told (fst a) (fst a').
Lemma at_refl : forall a, at_ a a. Proof. intros a. apply told_refl. Qed.
Lemma at_trans : forall a b c, at_ a b -> at_ b c -> at_ a c.
Proof. unfold at_. intros. eapply told_trans; eauto. Qed.
Lemma a_sys : forall {X A} (m : M sys X A), always told m -> always at_ (on_sys m).
Proof.
  intros X A m Hm [s t] o a' H. unfold on_sys, zoom in H. cbn in H. destruct (m s) as [o1 s1] eqn:Y.
  inversion H. subst. unfold at_. cbn. eapply Hm; eauto.
Qed.

(** Calls of the library on open files: the first is not written, and the header file
    is not the output, if it is written. *)
Lemma dl_data : forall h s s' d, s_data s' (h_ino h) = s_data s (h_ino h) ->
  dl (handle_dev s h) d -> dl (handle_dev s' h) d.
Proof. intros h s s' d D (l & L & E). exists l. cbn in *. rewrite D. auto. Qed.
Lemma put_other : forall d h s j, j <> h_ino h -> s_data (put_handle d h s) j = s_data s j.
Proof.
  intros d h s j N. unfold put_handle, with_data, set_data. cbn. apply Nat.eqb_neq in N. rewrite N. reflexivity.
Qed.
Lemma put_kept : forall d h s, d_data d = s_data s (h_ino h) -> d_log d = [] ->
  same_files s (put_handle d h s).
Proof.
  intros d h s D L. unfold put_handle, with_data. rewrite L, D. cbn. repeat split; cbn; [|apply app_nil_r].
  intros j. unfold set_data. destruct (Nat.eqb_spec j (h_ino h)) as [->|N]; reflexivity.
Qed.
Lemma a_run_world : forall {X A} (m : M world X A) hi ho hh a, always wl m -> always kin m ->
  same_opt ho hh = false ->
  at_ a (snd (run_world m hi ho hh a)).
Proof.
  intros X A m hi ho hh [s t] HW HK NE. unfold run_world. cbv zeta. cbn [fst snd].
  destruct (m _) as [o w] eqn:Y. pose proof (HW _ _ _ Y) as (_ & WO & WH). pose proof (HK _ _ _ Y) as [KD KL].
  cbn [w_in w_out w_hdr] in WO, WH, KD, KL. cbn [handle_dev d_data d_log] in KD, KL.
  unfold at_. cbn [fst snd].
  pose proof (put_kept (w_in w) hi s KD KL) as S1. set (s1 := put_handle (w_in w) hi s) in *.
  assert (D1 : forall j, s_data s1 j = s_data s j) by (apply S1).
  eapply told_trans; [apply told_same; exact S1|].
  assert (T2 : told s1 (put_handle (w_out w) ho s1)).
  { apply told_put. eapply dl_data; [apply D1|exact WO]. }
  eapply told_trans; [exact T2|]. eapply told_trans; [|apply told_rng].
  destruct hh as [h|]; cbn [put_opt opt_dev] in *; [|apply told_refl].
  apply told_put. eapply dl_data; [|exact WH]. rewrite put_other; [apply D1|].
  unfold same_opt, same_file in NE. apply Nat.eqb_neq in NE. congruence.
Qed.
Lemma a_run_one : forall {X A} (m : M world X A) h a, always wl m -> at_ a (snd (run_one m h a)).
Proof.
  intros X A m h [s t] Hm. unfold run_one. cbv zeta. destruct (m _) as [o w] eqn:Y.
  apply Hm in Y as (WI & _). cbn [w_in fst snd] in WI. unfold at_. cbn [fst snd].
  eapply told_trans; [apply told_put; exact WI|apply told_rng].
Qed.

Lemma a_pack : forall E Z pick bs req, 0 < bs -> same_opt (pr_out req) (pr_hdr req) = false ->
  always at_ (pack_execute_bs E Z pick bs req).
Proof.
  intros E Z pick bs req L NE. unfold pack_execute_bs.
  apply (always_bind at_ at_trans); [apply (always_map_err at_), a_sys, t_temp|].
  intros [h0|p]; [|apply (always_err at_ at_refl)].
  apply (always_bind at_ at_trans).
  { intros [s t] o a' H. cbn [fst snd] in H. pose proof (t_pack_archive Z bs req h0 s) as G.
    destruct (pack_archive Z bs req h0 s) as [[o1 h1] s1]. cbn in H, G. inversion H. subst. exact G. }
  intros r1. cbv zeta.
  apply (always_bind at_ at_trans); [apply (always_map_err at_), a_sys, t_file_len|intros cap].
  intros a o a' H. set (req' := mkEncReq _ _ _ _) in H.
  pose proof (a_run_world (encrypt_execute_bs E bs req') (snd r1) (pr_out req) (pr_hdr req) a
                (wl_encrypt E bs req') (kin_encrypt E bs req' L) NE) as G.
  destruct (run_world _ _ _ _ a) as [[o1 [h2 h3]] a1]. cbn [snd] in G.
  assert (T : forall x : outcome enc_error unit, always at_
    (on_sys (map_err (fun _ => PkFinishArchive) (wipe_temp h2 cap 2)) ;; map_err PkEncrypt (lift x))%m).
  { intros x. apply (always_bind at_ at_trans).
    - apply a_sys, (always_map_err told), t_wipe.
    - intros _. apply (always_map_err at_), (always_lift at_ at_refl). }
  destruct o1; try (inversion H; subst; exact G); eapply at_trans; try exact G; eapply T; exact H.
Qed.

Lemma temp_new : forall pick s h s', create_temp_file pick s = (Ok (EFile h), s') -> h_ino h = s_next s.
Proof.
  intros pick s h s' H. unfold create_temp_file in H. destruct (pick (s_rng s)) as [n g].
  unfold create_file, call_or in H. pose proof (next_fault_same (with_rng g s)) as (_ & _ & N & _).
  destruct (next_fault (with_rng g s)) as [b s1]. cbn [snd] in N. destruct b; [discriminate|].
  destruct (resolve false s1 _) as [q|]; [|discriminate]. destruct (lookup _ _); [discriminate|].
  unfold new_handle in H. destruct (next_plan _) as [pl s2]. inversion H. cbn. exact N.
Qed.
Lemma a_unpack : forall E Z pick bs sched req a o a',
  (forall h, ur_hdr req = Some h -> h_ino h < s_next (fst a)) ->
  unpack_execute_bs E Z pick bs sched req a = (o, a') -> at_ a a'.
Proof.
  intros E Z pick bs sched req a o a' HN H. unfold unpack_execute_bs in H.
  apply bind_inv in H as [(tmp & a1 & H1 & H)|[(e & H1 & _)|[(H1 & _)|(H1 & _)]]];
    pose proof (always_map_err at_ UnStorage _ (a_sys _ (t_temp pick)) _ _ _ H1) as T1; try exact T1.
  eapply at_trans; [exact T1|]. destruct tmp as [h0|p]; [|inversion H; subst; apply at_refl].
  assert (NE : same_opt h0 (ur_hdr req) = false).
  { apply map_err_inv in H1 as [(x & H1 & X)|[(e & _ & X)|[(_ & X)|(_ & X)]]]; try discriminate X. injection X as <-.
    unfold on_sys in H1. apply zoom_inv in H1 as (s1 & H1 & ->). apply temp_new in H1.
    destruct (ur_hdr req) as [h|]; [|reflexivity]. cbn. unfold same_file. rewrite H1.
    specialize (HN h eq_refl). apply Nat.eqb_neq. lia. }
  revert H. clear HN H1 T1.
  enough (G : always at_ (r <- (fun a =>
        let '((o, (_, h1)), a1) :=
          run_world (decrypt_execute_bs E bs
                       (match ur_hdr req with Some _ => true | None => false end)
                       (ur_raw_key req))
                    (ur_in req) h0 (ur_hdr req) a in
        (match o with
         | Ok _ => Ok h1
         | Err e => Err (UnDecrypt e)
         | Panic => Panic
         | Diverge => Diverge
         end, a1)) ;;
      cap <- map_err UnStorage (on_sys (file_len (EFile r))) ;;
      h2 <- on_sys (unpack_archive Z sched req r) ;;
      on_sys (map_err UnStorage (wipe_temp h2 cap 1)))%m) by (intros H; eapply G; exact H).
  apply (always_bind at_ at_trans).
  { intros b ob b' H. set (det := match ur_hdr req with Some _ => true | None => false end) in H.
    pose proof (a_run_world (decrypt_execute_bs E bs det (ur_raw_key req)) (ur_in req) h0 (ur_hdr req) b
                  (wl_decrypt E bs det _) (kin_decrypt E bs det _) NE) as G.
    destruct (run_world _ _ _ _ b) as [[o1 [h2 h3]] b1]. inversion H. subst. exact G. }
  intros r. apply (always_bind at_ at_trans); [apply (always_map_err at_), a_sys, t_file_len|intros cap].
  apply (always_bind at_ at_trans); [apply a_sys, t_unpack_archive|intros h2].
  apply a_sys, (always_map_err told), t_wipe.
Qed.

(** ** Commands *)

Definition ct (c c' : cli) : Prop := at_ (c_a c) (c_a c').
Lemma ct_refl : forall c, ct c c. Proof. intros c. apply at_refl. Qed.
Lemma ct_trans : forall a b c, ct a b -> ct b c -> ct a c.
Proof. unfold ct. intros. eapply at_trans; eauto. Qed.
Lemma ct_same : forall c c', c_a c' = c_a c -> ct c c'.
Proof. intros c c' H. unfold ct. rewrite H. apply at_refl. Qed.

Lemma c_on_a : forall {X A} (m : M asys X A), always at_ m -> always ct (on_a m).
Proof.
  intros X A m Hm c o c' H. unfold on_a, zoom in H. destruct (m (c_a c)) as [o1 a1] eqn:Y.
  inversion H. subst. unfold ct. cbn. eapply Hm; eauto.
Qed.
Lemma c_on_fs : forall {X A} (m : M sys X A), always told m -> always ct (on_fs m).
Proof. intros X A m Hm. apply c_on_a, a_sys, Hm. Qed.
Lemma c_storage : forall {A} (m : M sys st_error A), always told m -> always ct (storage m).
Proof. intros A m Hm. apply c_on_fs, (always_map_err told), Hm. Qed.
Lemma c_say : forall n, always ct (say n).
Proof. intros n c o c' H. inversion H. subst. apply ct_same. reflexivity. Qed.
Lemma c_bind : forall {X A B} (m : M cli X A) (k : A -> M cli X B),
  always ct m -> (forall a, always ct (k a)) -> always ct (bind m k).
Proof. intros X A B. apply (always_bind ct ct_trans). Qed.
Lemma c_map_err : forall {X X' A} (f : X -> X') (m : M cli X A), always ct m -> always ct (map_err f m).
Proof. intros X X' A. apply (always_map_err ct). Qed.
Lemma c_ret : forall {X A} (a : A), always ct (@ret cli X A a).
Proof. intros X A. apply (always_ret ct ct_refl). Qed.
Lemma c_err : forall {X A} (e : X), always ct (@err cli X A e).
Proof. intros X A. apply (always_err ct ct_refl). Qed.
Lemma c_lift : forall {X A} (x : outcome X A), always ct (@lift cli X A x).
Proof. intros X A. apply (always_lift ct ct_refl). Qed.
Lemma c_lift_opt : forall {X A} (e : X) (o : option A), always ct (@lift_opt cli X A e o).
Proof. intros X A e []; [apply c_ret|apply c_err]. Qed.
Lemma c_panic : forall {X A}, always ct (@panic cli X A).
Proof. intros X A. apply panic_always, ct_refl. Qed.

Ltac go :=
  repeat lazymatch goal with
    | |- always ct (bind _ _) => apply c_bind; [|intros ?]
    | |- always ct (ret _) => apply c_ret
    | |- always ct (err _) => apply c_err
    | |- always ct (lift _) => apply c_lift
    | |- always ct (lift_opt _ _) => apply c_lift_opt
    | |- always ct panic => apply c_panic
    | |- always ct (say _) => apply c_say
    | |- always ct (map_err _ _) => apply c_map_err
    | |- always ct (if ?b then _ else _) => destruct b
    | |- always ct (match ?x with _ => _ end) => destruct x
    end.

Lemma c_contains : forall V m id, always ct (contains_id V m id).
Proof. intros V m id. unfold contains_id. go. Qed.
Lemma c_get_one : forall V m id, always ct (get_one V m id).
Proof. intros V m id. unfold get_one. go. Qed.
Lemma c_get_many : forall V m id, always ct (get_many V m id).
Proof. intros V m id. unfold get_many. go. Qed.
Lemma c_get_param : forall V n m, always ct (get_param V n m).
Proof. intros V n m. unfold get_param. go. apply c_get_one. Qed.
Lemma c_get_params : forall V n m, always ct (get_params V n m).
Proof. intros V n m. unfold get_params. go. apply c_get_many. Qed.
Lemma c_key_init : forall V m p d, always ct (key_init V m p d).
Proof. intros V m p d. unfold key_init. go; first [apply c_contains|apply c_get_one]. Qed.
Lemma c_hashing : forall V m, always ct (hashing_algorithm_of V m).
Proof. intros V m. unfold hashing_algorithm_of. go. apply c_contains. Qed.
Lemma c_algorithm : forall V m, always ct (algorithm_of V m).
Proof. intros V m. unfold algorithm_of. go. apply c_contains. Qed.
Lemma c_forcemode : forall V m, always ct (forcemode V m).
Proof. intros V m. unfold forcemode. go. apply c_contains. Qed.
Ltac params := first [apply c_contains|apply c_get_one|apply c_get_many|apply c_key_init|apply c_hashing
                     |apply c_algorithm|apply c_forcemode|apply c_get_param|apply c_get_params].
Lemma c_parameters : forall V m, always ct (parameter_handler V m).
Proof. intros V m. unfold parameter_handler. go; params. Qed.
Lemma c_erase_params : forall V m, always ct (erase_params V m).
Proof. intros V m. unfold erase_params. go; params. Qed.
Lemma c_pack_params : forall V m, always ct (pack_params_of V m).
Proof. intros V m. unfold pack_params_of. go; params. Qed.

Lemma c_prompt : always ct prompt_password.
Proof.
  intros c o c' H. unfold prompt_password in H. destruct (c_tty c) as [|[l|] r]; inversion H; subst;
    first [apply ct_refl|apply ct_same; reflexivity].
Qed.
Lemma c_password : forall n st, always ct (password_loop n st).
Proof.
  induction n as [|n IH]; intros st; cbn [password_loop]; [intros c o c' H; inversion H; subst; apply ct_refl|].
  go; try apply c_prompt. apply IH.
Qed.
Lemma c_read_keyfile : forall p, always told (read_keyfile p).
Proof.
  intros p. apply t_call_or. intros s o s' H. destruct (stat s p) as [[|i|t]|]; try same H.
  pose proof (next_plan_same s) as R. destruct (next_plan s) as [pl s1]. cbn in R.
  assert (X : s' = s1) by (destruct (dev_read_to_end _) as [[] d]; inversion H; reflexivity).
  subst. apply told_same, R.
Qed.
Lemma c_secret : forall V k st, always ct (get_secret V k st).
Proof.
  intros V k st. unfold get_secret. go.
  - intros c o c' H. inversion H. subst. apply ct_same. reflexivity.
  - apply c_on_fs, c_read_keyfile.
  - intros c o c' H. eapply c_password; eauto.
Qed.
Lemma c_answer_loop : forall n p d, always ct (answer_loop n p d).
Proof.
  induction n as [|n IH]; intros p d; cbn [answer_loop]; [intros c o c' H; inversion H; subst; apply ct_refl|].
  go; [|apply IH]. intros c o c' H. destruct (read_line (c_stdin c)). inversion H. subst. apply ct_same. reflexivity.
Qed.
Lemma c_answer : forall p d f, always ct (get_answer p d f).
Proof. intros p d []; [apply c_ret|]. intros c o c' H. eapply c_answer_loop; eauto. Qed.
Lemma c_check : forall n f, always ct (check_or_exit n f).
Proof.
  intros n f. unfold check_or_exit. go. intros c o c' H. unfold overwrite_check in H.
  destruct (exists_path _ _); [eapply c_answer; eauto|inversion H; subst; apply ct_refl].
Qed.
Lemma c_try : forall e, always ct (try_handle e).
Proof. intros []; cbn; go. Qed.
Lemma t_hash_file : forall V p, always told (hash_file V p).
Proof.
  intros V p. apply t_call_or. intros s o s' H. destruct (stat s p) as [[|i|t]|]; try same H.
  pose proof (next_plan_same s) as R. destruct (next_plan s) as [pl s1]. cbn in R.
  assert (X : s' = s1) by (destruct (hash_execute _ _ _) as [[] d]; inversion H; reflexivity).
  subst. apply told_same, R.
Qed.
Lemma c_hash_files : forall V l, always ct (hash_files V l).
Proof.
  intros V l. induction l as [|f l IH]; cbn [hash_files]; go; [|exact IH]. apply c_on_fs, t_hash_file.
Qed.
Lemma c_secure_erase : forall V i p f, always ct (secure_erase V i p f).
Proof.
  intros V i p f. unfold secure_erase. go.
  - apply c_storage, t_read_file.
  - apply c_answer.
  - apply c_on_fs, (always_map_err told), t_erase_dir.
  - apply c_on_fs, (always_map_err told), st_run, st_erase.
Qed.
Lemma c_open_header : forall p, always ct (Cli.open_header p).
Proof.
  intros p. unfold Cli.open_header. go; [apply c_check|apply c_storage, t_create_or_write].
Qed.
Lemma c_read_header : forall p, always ct (read_header p).
Proof. intros p. unfold read_header. go. apply c_storage, t_read_file. Qed.
Lemma c_flush_opt : forall h, always ct (flush_opt h).
Proof. intros h. unfold flush_opt. go. apply c_storage, t_flush_file. Qed.

Section Told.
Context (V : cenv) (VA : alias_told V).

Lemma a_alias : forall ws, always at_ (alias V ws).
Proof. intros ws a o a' H. pose proof (VA ws a) as G. rewrite H in G. exact G. Qed.
Lemma a_encrypt_files : forall req hi ho hh, always at_ (encrypt_files V req hi ho hh).
Proof.
  intros req hi ho hh. unfold encrypt_files. destruct (_ || _)%bool eqn:EQ; [apply a_alias|].
  apply Bool.orb_false_iff in EQ as (EQ & _). apply Bool.orb_false_iff in EQ as (_ & EQ).
  apply (always_map_err at_). intros a o a' H.
  pose proof (a_run_world (encrypt_execute (ce_E V) req) hi ho hh a (wl_encrypt _ _ req)
                (kin_encrypt _ _ req BLOCK_SIZE_pos) EQ) as G.
  destruct (run_world _ _ _ _ a) as [[o1 x] a1]. inversion H. subst. exact G.
Qed.
Lemma a_decrypt_files : forall raw hi ho hh, always at_ (decrypt_files V raw hi ho hh).
Proof.
  intros raw hi ho hh. unfold decrypt_files. destruct (_ || _)%bool eqn:EQ; [apply a_alias|].
  apply Bool.orb_false_iff in EQ as (_ & EQ).
  apply (always_map_err at_). intros a o a' H.
  pose proof (a_run_world (decrypt_execute (ce_E V) (is_some hh) raw) hi ho hh a (wl_decrypt _ _ _ raw)
                (kin_decrypt _ _ _ raw) EQ) as G.
  destruct (run_world _ _ _ _ a) as [[o1 x] a1]. inversion H. subst. exact G.
Qed.
Lemma c_each : forall {A B} (f : A -> M cli cli_error B) l, (forall x, always ct (f x)) -> always ct (each f l).
Proof. intros A B f l H. induction l as [|x l IH]; cbn [each]; go; [apply H|exact IH]. Qed.
Lemma c_each_ : forall {A} (f : A -> M cli cli_error unit) l, (forall x, always ct (f x)) -> always ct (each_ f l).
Proof. intros A f l H. induction l as [|x l IH]; cbn [each_]; go; [apply H|exact IH]. Qed.

Ltac pieces := first
  [ params | apply c_parameters | apply c_erase_params | apply c_pack_params | apply c_secret | apply c_check
  | apply c_try | apply c_hash_files | apply c_secure_erase | apply c_open_header | apply c_read_header
  | apply c_flush_opt | apply c_storage, t_read_file | apply c_storage, t_create_or_write
  | apply c_storage, t_flush_file ].

Lemma c_command : forall cmd g, always ct (run_command V cmd g).
Proof.
  intros cmd g. unfold run_command. cbv zeta. destruct cmd.
  - unfold encrypt_cmd, encrypt_stream. go; try pieces. apply c_on_a, a_encrypt_files.
  - unfold decrypt_cmd, decrypt_stream. go; try pieces. apply c_on_a, a_decrypt_files.
  - unfold erase_cmd. go; pieces.
  - unfold hash_cmd. go; pieces.
  - unfold pack_cmd, pack_cli. go; try pieces.
    + intros c o c' H. destruct (existsb _ _); inversion H; subst; apply ct_refl.
    + apply c_each. intros x. pieces.
    + apply c_each. intros x. go. apply c_storage, t_read_dir.
    + apply c_on_a. destruct (same_opt _ _) eqn:EQ; [apply a_alias|]. apply (always_map_err at_).
      apply a_pack; [apply BLOCK_SIZE_pos|exact EQ].
    + apply c_each_. intros x. pieces.
  - unfold unpack_cmd. go; try pieces. unfold get_flag. go.
Qed.

Lemma c_encrypt_main : forall i o p a, always ct (encrypt_main V i o p a).
Proof. intros i o p a. unfold encrypt_main. go; try pieces. apply c_on_a, a_encrypt_files. Qed.
Lemma c_decrypt_main : forall i o p, always ct (decrypt_main V i o p).
Proof. intros i o p. unfold decrypt_main. go; try pieces. apply c_on_a, a_decrypt_files. Qed.

Lemma c_on_handle : forall {X A} (m : M world X A) h, always wl m -> always ct (on_handle m h).
Proof.
  intros X A m h Hm. apply c_on_a. intros a o a' H. pose proof (a_run_one m h a Hm) as G.
  destruct (run_one m h a) as [[o1 h1] a1]. inversion H. subst. exact G.
Qed.
Lemma c_on_handles : forall {X A} (m : M world X A) hi ho, always wl m -> always kin m -> always ct (on_handles m hi ho).
Proof.
  intros X A m hi ho Hm Hk. apply c_on_a. intros a o a' H.
  pose proof (a_run_world m hi ho None a Hm Hk eq_refl) as G.
  destruct (run_world m hi ho None a) as [[o1 h1] a1]. inversion H. subst. exact G.
Qed.
Lemma t_open_rw : forall p, always told (open_rw p).
Proof.
  intros p. apply t_call_or. intros s o s' H. destruct (stat s p) as [[|i|t]|]; try same H.
  pose proof (next_plan_same s) as R. destruct (next_plan s) as [pl s1]. inversion H. subst. apply told_same, R.
Qed.
Lemma w_map_err : forall {X X' A} (f : X -> X') (m : M world X A), always wl m -> always wl (map_err f m).
Proof. intros X X' A. apply (always_map_err wl). Qed.
Lemma c_open_v5 : forall i, always ct (open_v5 i).
Proof.
  intros i. unfold open_v5. go.
  - apply c_on_fs, t_open_rw.
  - apply c_on_handle, w_map_err, wl_in; dev_step.
  - apply c_on_handle, w_map_err, wl_in; dev_step.
Qed.
Lemma c_info : forall k, always ct (info_if_user k).
Proof. intros []; cbn; go. Qed.
Lemma c_tool : forall input t, always ct (run_tool V input t).
Proof.
  intros input t. unfold run_tool.
  destruct t as [old new ha|old new ha|k|k]; unfold add, change, delete, verify, up; go;
    try apply c_open_v5; try apply c_info; try apply c_secret; apply c_on_handle, w_map_err.
  - apply (wl_op _ (OpAdd _ _ _)).
  - apply (wl_op _ (OpChange _ _ _)).
  - apply (wl_op _ (OpDelete _)).
  - apply (wl_op _ (OpVerify _)).
Qed.
Lemma c_say_lines : forall l, always ct (say_lines l).
Proof. induction l as [|x l IH]; cbn [say_lines]; go. exact IH. Qed.
Lemma c_details : forall i, always ct (details i).
Proof.
  intros i. unfold details, up. go.
  - apply c_on_fs, t_open_rw.
  - apply c_on_handle, w_map_err, wl_in; dev_step.
  - apply c_say_lines.
Qed.
Lemma c_dump : forall i o f, always ct (dump i o f).
Proof.
  intros i o f. unfold dump, up. go; try pieces.
  apply c_on_handles; [apply w_map_err, wl_dump|apply (always_map_err kin), kin_dump].
Qed.
Lemma c_restore : forall i o, always ct (restore i o).
Proof.
  intros i o. unfold restore, up. go; try pieces; [apply c_on_fs, t_open_rw|].
  apply c_on_handles; [apply w_map_err, wl_restore|apply (always_map_err kin), kin_restore].
Qed.
Lemma c_strip : forall i, always ct (strip i).
Proof.
  intros i. unfold strip, up. go; [apply c_on_fs, t_open_rw|].
  apply c_on_handle, w_map_err, wl_strip.
Qed.

End Told.
