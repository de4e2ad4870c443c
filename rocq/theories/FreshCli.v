(** The random numbers and encryptions of the commands, whatever the outcome. *)
From Coq Require Import List Arith NArith ZArith Ascii String Lia Bool.
From Verif Require Import Bytes Outcome IO Primitives Crypto Header Stream KeyModel EncDec KeyOps HeaderOps.
From Verif Require Import Overwrite Hash FS Erase Archive Cli CliTools.
From Verif Require Import StreamSpec FileSpec KeySpec CliToolsSpec WorldFrames FreshSpec FreshFacts FreshLib StreamProofs.
Import ListNotations.
Local Open Scope nat_scope.
Local Open Scope list_scope.

(** ** The file system: random bytes are taken in their order *)

Definition fwd (r r' : rng) : Prop := exists k, forall i, r' i = r (k + i).
Lemma fwd_refl : forall r, fwd r r. Proof. intros r. exists 0. reflexivity. Qed.
Lemma fwd_trans : forall a b c, fwd a b -> fwd b c -> fwd a c.
Proof. intros a b c [k H] [k' H']. exists (k + k'). intros i. rewrite H', H. f_equal. lia. Qed.

Definition sfwd (s s' : sys) : Prop := fwd (s_rng s) (s_rng s').
Lemma sfwd_refl : forall s, sfwd s s. Proof. intros s. apply fwd_refl. Qed.
Lemma sfwd_trans : forall a b c, sfwd a b -> sfwd b c -> sfwd a c.
Proof. unfold sfwd. intros. eapply fwd_trans; eauto. Qed.
Lemma sfwd_same : forall s s', s_rng s' = s_rng s -> sfwd s s'.
Proof. intros s s' H. unfold sfwd. rewrite H. apply fwd_refl. Qed.

Lemma next_fault_rng : forall s, s_rng (snd (next_fault s)) = s_rng s.
Proof. intros s. unfold next_fault. destruct (s_faults s); reflexivity. Qed.
Lemma next_plan_rng : forall s, s_rng (snd (next_plan s)) = s_rng s.
Proof. intros s. unfold next_plan. destruct (s_plans s); reflexivity. Qed.

Lemma f_call_or : forall {E A} (e : E) (m : M sys E A), always sfwd m -> always sfwd (call_or e m).
Proof.
  intros E A e m Hm s o s' H. unfold call_or in H. pose proof (next_fault_rng s) as R.
  destruct (next_fault s) as [b s1]. cbn in R. apply sfwd_same in R. destruct b.
  - inversion H. subst. exact R.
  - eapply sfwd_trans; [exact R|]. eapply Hm; eauto.
Qed.
Lemma f_new_handle : forall p i, always sfwd (new_handle p i).
Proof.
  intros p i s o s' H. unfold new_handle in H. pose proof (next_plan_rng s) as R.
  destruct (next_plan s) as [pl s1]. inversion H. subst. apply sfwd_same, R.
Qed.
Ltac same H := inversion H; subst; apply sfwd_same; reflexivity.

Lemma f_create_file : forall p, always sfwd (create_file p).
Proof.
  intros p. apply f_call_or. intros s o s' H. destruct (resolve false s p); [|same H].
  destruct (lookup _ _); [same H|]. apply f_new_handle in H. exact H.
Qed.
Lemma f_read_file : forall p, always sfwd (read_file p).
Proof.
  intros p s o s' H. unfold read_file in H. destruct (is_dir s p); [same H|]. revert H. apply f_call_or.
  clear. intros s o s' H. destruct (stat s p) as [[|i|t]|]; try same H. apply f_new_handle in H. exact H.
Qed.
Lemma f_write_file : forall p, always sfwd (write_file p).
Proof.
  intros p. apply f_call_or. intros s o s' H. destruct (stat s p) as [[|i|t]|]; try same H.
  apply f_new_handle in H. exact H.
Qed.
Lemma f_file_len : forall e, always sfwd (file_len e).
Proof. intros [h|p]; [apply f_call_or|]; intros s o s' H; same H. Qed.
Lemma f_truncate : forall h, always sfwd (truncate h).
Proof. intros h. apply f_call_or. intros s o s' H; same H. Qed.
Lemma f_unlink : forall p, always sfwd (unlink p).
Proof.
  intros p. apply f_call_or. intros s o s' H. destruct (resolve false s p); [|same H].
  destruct (lookup _ _) as [[|i|t]|]; same H.
Qed.
Lemma f_flush : always sfwd flush.
Proof. apply f_call_or. intros s o s' H; same H. Qed.
Lemma f_flush_file : forall e, always sfwd (flush_file e).
Proof. intros [h|p]; [apply f_flush|]. apply (always_err sfwd sfwd_refl). Qed.
Lemma f_remove_dir_all : forall e, always sfwd (remove_dir_all e).
Proof.
  intros [h|p]; [apply (always_err sfwd sfwd_refl)|]. apply f_call_or.
  intros s o s' H. destruct (resolve false s p) as [[|x q]|]; try same H.
  destruct (lookup _ _) as [[|i|t]|]; same H.
Qed.
Lemma f_read_all : forall ps, always sfwd (read_all ps).
Proof.
  induction ps as [|p ps IH]; cbn [read_all]; [apply (always_ret sfwd sfwd_refl)|].
  apply (always_bind sfwd sfwd_trans); [apply f_read_file|intros e].
  apply (always_bind sfwd sfwd_trans); [exact IH|intros es]. apply (always_ret sfwd sfwd_refl).
Qed.
Lemma f_read_dir : forall e, always sfwd (read_dir e).
Proof.
  intros [h|p]; [apply (always_err sfwd sfwd_refl)|]. apply f_call_or. intros s o s' H.
  eapply f_read_all; eauto.
Qed.
Lemma f_mkdir : forall p s, sfwd s (snd (mkdir p s)).
Proof.
  intros p s. unfold mkdir. pose proof (next_fault_rng s) as R. destruct (next_fault s) as [b s1]. cbn in R.
  apply sfwd_same in R. destruct b; [exact R|]. destruct (resolve false s1 p); [|exact R].
  destruct (lookup _ _); exact R.
Qed.
Lemma f_create_or_write : forall p, always sfwd (create_or_write p).
Proof. intros p. apply (always_or_else sfwd sfwd_trans); [apply f_create_file|intros; apply f_write_file]. Qed.
Lemma f_temp : forall pick, (forall r, fwd r (snd (pick r))) -> always sfwd (create_temp_file pick).
Proof.
  intros pick P s o s' H. unfold create_temp_file in H. specialize (P (s_rng s)).
  destruct (pick (s_rng s)) as [n g]. apply f_create_file in H. unfold sfwd in *. cbn in *.
  eapply fwd_trans; eauto.
Qed.

(** Overwriting *)
Definition ofwd (a b : ow_state) : Prop := fwd (snd a) (snd b).
Lemma ofwd_refl : forall s, ofwd s s. Proof. intros s. apply fwd_refl. Qed.
Lemma ofwd_trans : forall a b c, ofwd a b -> ofwd b c -> ofwd a c.
Proof. unfold ofwd. intros. eapply fwd_trans; eauto. Qed.
Lemma f_ow_dev : forall {E A} (m : M dev E A), always ofwd (ow_dev m).
Proof. intros E A m s o s' H. unfold ow_dev, zoom in H. destruct (m (fst s)). inversion H. apply fwd_refl. Qed.
Lemma f_ow_random : forall l, always ofwd (ow_random l).
Proof.
  induction l as [|n l IH]; cbn [ow_random]; [apply (always_ret ofwd ofwd_refl)|].
  apply (always_bind ofwd ofwd_trans).
  { intros s o s' H. unfold fill_slice in H. inversion H. exists (List.length (vec_with_capacity n)). reflexivity. }
  intros b. apply (always_bind ofwd ofwd_trans); [apply (always_map_err ofwd), f_ow_dev|intros _; exact IH].
Qed.
Lemma f_ow_passes : forall n cap, always ofwd (ow_passes n cap).
Proof.
  induction n as [|n IH]; intros cap; cbn [ow_passes]; [apply (always_ret ofwd ofwd_refl)|].
  apply (always_bind ofwd ofwd_trans); [|intros _; apply IH]. unfold ow_pass.
  apply (always_bind ofwd ofwd_trans); [apply (always_map_err ofwd), f_ow_dev|intros _].
  apply (always_bind ofwd ofwd_trans); [apply f_ow_random|intros _]. apply (always_map_err ofwd), f_ow_dev.
Qed.
Lemma f_overwrite : forall cap passes, always ofwd (overwrite_execute cap passes).
Proof.
  intros cap passes. unfold overwrite_execute.
  apply (always_bind ofwd ofwd_trans); [apply f_ow_passes|intros _].
  apply (always_bind ofwd ofwd_trans); [apply (always_map_err ofwd), f_ow_dev|intros _].
  apply (always_bind ofwd ofwd_trans); [apply (always_map_err ofwd), f_ow_dev|intros _].
  apply (always_map_err ofwd), f_ow_dev.
Qed.
Lemma f_run_handle : forall {E A} (m : M ow_state E A) h s, always ofwd m -> sfwd s (snd (run_handle m h s)).
Proof.
  intros E A m h s Hm. unfold run_handle. destruct (m (handle_dev s h, s_rng s)) as [o [d g]] eqn:X.
  apply Hm in X. exact X.
Qed.

(** Threads *)
Fixpoint steps_fwd {E A} (r : R E A) : Prop :=
  match r with
  | Done _ => True
  | Step X m k => (forall s, sfwd s (snd (m s))) /\ forall x, steps_fwd (k x)
  end.
Lemma sf_bind : forall {E A B} (r : R E A) (k : A -> R E B),
  steps_fwd r -> (forall a, steps_fwd (k a)) -> steps_fwd (rbind r k).
Proof.
  intros E A B r k. induction r as [o|X m c IH]; intros H K; cbn.
  - destruct o; cbn; auto.
  - destruct H as [H1 H2]. split; [exact H1|]. intros x. apply IH; auto.
Qed.
Lemma sf_map_err : forall {E E' A} (f : E -> E') (r : R E A), steps_fwd r -> steps_fwd (rmap_err f r).
Proof.
  intros E E' A f r. induction r as [o|X m c IH]; intros H; cbn.
  - destruct o; exact I.
  - destruct H as [H1 H2]. split; [exact H1|]. intros x. apply IH; auto.
Qed.
Lemma sf_atom : forall {E A} (m : M sys E A), always sfwd m -> steps_fwd (atom m).
Proof.
  intros E A m H. split; [|intros x; exact I]. intros s. destruct (m s) as [o s'] eqn:X. exact (H _ _ _ X).
Qed.
Lemma sf_act : forall {E X} (m : sys -> X * sys), (forall s, sfwd s (snd (m s))) -> steps_fwd (@act E X m).
Proof. intros E X m H. split; [exact H|]. intros x. exact I. Qed.
Lemma sf_run : forall {E A} (r : R E A), steps_fwd r -> always sfwd (run r).
Proof.
  intros E A r. induction r as [o1|X m c IH]; intros H s o s' Y; cbn in Y.
  - inversion Y. apply sfwd_refl.
  - destruct H as [H1 H2]. specialize (H1 s). destruct (m s) as [x s1].
    eapply sfwd_trans; [exact H1|]. eapply IH; eauto.
Qed.
Lemma sf_tick : forall {E A} (r : R E A) s, steps_fwd r ->
  steps_fwd (fst (tick r s)) /\ sfwd s (snd (tick r s)).
Proof.
  intros E A [o|X m k] s H; cbn; [split; [exact I|apply sfwd_refl]|].
  destruct H as [H1 H2]. specialize (H1 s). destruct (m s) as [x s1]. split; [apply H2|exact H1].
Qed.
Lemma sf_step_nth : forall {E A} (ts : list (R E A)) i s, Forall steps_fwd ts ->
  Forall steps_fwd (fst (step_nth i ts s)) /\ sfwd s (snd (step_nth i ts s)).
Proof.
  intros E A ts. induction ts as [|t ts IH]; intros i s F.
  - destruct i; (split; [constructor|apply sfwd_refl]).
  - inversion F as [|? ? F1 F2]; subst. destruct i as [|i]; cbn [step_nth].
    + destruct (sf_tick t s F1) as [H1 H2]. destruct (tick t s) as [t' s1]. split; [constructor; assumption|exact H2].
    + destruct (IH i s F2) as [H1 H2]. destruct (step_nth i ts s) as [ts2 s1]. split; [constructor; assumption|exact H2].
Qed.
Lemma sf_run_sched : forall {E A} sched (ts : list (R E A)) s, Forall steps_fwd ts ->
  sfwd s (snd (run_sched sched ts s)).
Proof.
  intros E A sched. induction sched as [|i sched IH]; intros ts s F; cbn; [apply sfwd_refl|].
  destruct (sf_step_nth ts i s F) as [H1 H2]. destruct (step_nth i ts s) as [ts1 s1].
  eapply sfwd_trans; [exact H2|]. apply IH, H1.
Qed.
Lemma f_threads : forall {E A X} sched (ts : list (R E A)), Forall steps_fwd ts ->
  always sfwd (fun s => let '(t', s') := run_sched sched ts s in (@Ok X _ t', s')).
Proof.
  intros E A X sched ts F s o s' H. pose proof (sf_run_sched sched ts s F) as G.
  destruct (run_sched sched ts s) as [t1 s1]. inversion H. subst. exact G.
Qed.

Lemma sf_is_dir : forall p, steps_fwd (d <~ act (fun s => (is_dir s p, s)) ;;
                                       if (d : bool) then rret tt else rerr StCreateDir)%r.
Proof. intros p. apply sf_bind; [apply sf_act; intros s; apply sfwd_refl|]. intros []; exact I. Qed.
Lemma sf_mkdir_or : forall p, steps_fwd (mkdir_or_is_dir p).
Proof.
  intros p. apply sf_bind; [apply sf_act, f_mkdir|]. intros [b|]; [|exact I]. apply sf_is_dir.
Qed.
Lemma sf_parents : forall abs rcs, steps_fwd (create_parents abs rcs).
Proof.
  intros abs rcs. induction rcs as [|c rcs IH]; cbn [create_parents].
  - destruct abs; [apply sf_mkdir_or|exact I].
  - cbv zeta. apply sf_bind; [apply sf_act, f_mkdir|]. intros [[]|]; [| |exact I].
    + apply sf_bind; [exact IH|intros _; apply sf_mkdir_or].
    + apply sf_is_dir.
Qed.
Lemma sf_create_dir_all : forall p, steps_fwd (create_dir_all p).
Proof.
  intros p. unfold create_dir_all.
  assert (G : steps_fwd (b <~ act (mkdir p) ;;
      match b with
      | None => rret tt
      | Some false => d <~ act (fun s => (is_dir s p, s)) ;;
                      if (d : bool) then rret tt else rerr StCreateDir
      | Some true =>
          match rev (components p) with
          | [] => rerr StCreateDir
          | _ :: rcs' => create_parents (p_abs p) rcs' ~;; mkdir_or_is_dir p
          end
      end)%r).
  { apply sf_bind; [apply sf_act, f_mkdir|]. intros [[]|]; [| |exact I].
    - destruct (rev (components p)); [exact I|]. apply sf_bind; [apply sf_parents|intros _; apply sf_mkdir_or].
    - apply sf_is_dir. }
  destruct (p_abs p), (p_comps p); try exact I; exact G.
Qed.

(** Erasing *)
Lemma sf_remove_file : forall e, steps_fwd (remove_file e).
Proof.
  intros e. apply sf_bind; [|intros _; apply sf_atom, f_unlink]. destruct e; [|exact I].
  apply sf_bind; [apply sf_atom, f_truncate|intros _; apply sf_atom, f_flush].
Qed.
Lemma sf_erase : forall p passes, steps_fwd (erase_execute p passes).
Proof.
  intros p passes. unfold erase_execute.
  apply sf_bind; [apply sf_map_err, sf_atom, f_write_file|intros e].
  apply sf_bind; [apply sf_map_err, sf_atom, f_file_len|intros cap].
  apply sf_bind; [|intros e'; apply sf_map_err, sf_remove_file].
  destruct e as [h|q]; [|exact I]. apply sf_bind; [apply sf_act; intros s; apply f_run_handle, f_overwrite|].
  intros [[] h']; exact I.
Qed.
Lemma f_erase_dir : forall sched e passes, always sfwd (erase_dir_execute sched e passes).
Proof.
  intros sched e passes. unfold erase_dir_execute.
  destruct (negb (entry_is_dir e)); [apply (always_err sfwd sfwd_refl)|].
  apply (always_bind sfwd sfwd_trans); [apply (always_map_err sfwd), f_read_dir|intros files].
  apply (always_bind sfwd sfwd_trans).
  { apply f_threads. unfold erase_threads. apply Forall_forall. intros r I.
    apply in_map_iff in I as (f & <- & _). apply sf_map_err, sf_erase. }
  intros ts. apply (always_bind sfwd sfwd_trans); [apply (always_lift sfwd sfwd_refl)|intros _].
  apply (always_map_err sfwd), f_remove_dir_all.
Qed.

(** Archives *)
Lemma f_wipe : forall h cap passes, always sfwd (wipe_temp h cap passes).
Proof.
  intros h cap passes s o s' H. unfold wipe_temp in H.
  pose proof (f_run_handle (overwrite_execute cap passes) h s (f_overwrite cap passes)) as G.
  destruct (run_handle (overwrite_execute cap passes) h s) as [[o1 h'] s1]. cbn in G.
  assert (Q : forall o s', Archive.quiet (run (remove_file (EFile h'))) s1 = (o, s') -> sfwd s s').
  { intros o2 s2 X. unfold Archive.quiet in X. destruct (run (remove_file (EFile h')) s1) as [o3 s3] eqn:Y.
    pose proof (sf_run _ (sf_remove_file _) _ _ _ Y) as Z.
    assert (s2 = s3) by (destruct o3; inversion X; reflexivity). subst. eapply sfwd_trans; eauto. }
  destruct o1; eauto; inversion H; subst; exact G.
Qed.
Lemma f_put_archive : forall l h s, sfwd s (snd (put_archive l h s)).
Proof. intros l h s. apply f_run_handle, f_ow_dev. Qed.
Lemma f_pack_add : forall bs es acc s, sfwd s (snd (pack_add bs es acc s)).
Proof.
  intros bs es. induction es as [|[h|p] es IH]; intros acc s; cbn [pack_add]; [apply sfwd_refl| |].
  - destruct (has_name _ _); [apply sfwd_refl|]. cbv zeta. destruct (pack_read _ _ _ _) as [[[] data] d'];
      try apply sfwd_refl. apply IH.
  - destruct (has_name _ _); [apply sfwd_refl|]. apply IH.
Qed.
Lemma f_pack_archive : forall Z bs req h s, sfwd s (snd (pack_archive Z bs req h s)).
Proof.
  intros Z bs req h s. unfold pack_archive. pose proof (f_pack_add bs (pr_files req) [] s) as G.
  destruct (pack_add bs (pr_files req) [] s) as [[o zs] s1]. cbn in G.
  pose proof (f_put_archive (z_encode Z (pr_compression req) zs) h s1) as G2.
  destruct (put_archive _ h s1) as [[w h'] s2]. cbn in *. eapply sfwd_trans; eauto.
Qed.
Lemma f_extract : forall e, always sfwd (extract e).
Proof.
  intros e. unfold extract.
  apply (always_bind sfwd sfwd_trans).
  { destruct (zr_open (snd e)); [apply (always_ret sfwd sfwd_refl)|apply (always_err sfwd sfwd_refl)]. }
  intros _. apply (always_bind sfwd sfwd_trans); [apply (always_map_err sfwd), f_create_or_write|].
  intros [h|p]; [|apply (always_err sfwd sfwd_refl)].
  apply (always_bind sfwd sfwd_trans).
  - apply (always_map_err sfwd). intros s o s' H. pose proof (f_put_archive (zr_data (snd e)) h s) as G.
    destruct (put_archive _ h s) as [[o1 h1] s1]. inversion H. subst. exact G.
  - intros _. destruct (zr_ok (snd e)); [apply (always_ret sfwd sfwd_refl)|apply (always_err sfwd sfwd_refl)].
Qed.
Lemma f_extract_all : forall es, always sfwd (extract_all es).
Proof.
  induction es as [|e es IH]; cbn [extract_all]; [apply (always_ret sfwd sfwd_refl)|].
  apply (always_bind sfwd sfwd_trans); [apply f_extract|intros _; exact IH].
Qed.
Lemma f_unpack_archive : forall Z sched req h, always sfwd (unpack_archive Z sched req h).
Proof.
  intros Z sched req h s o s' H. unfold unpack_archive in H.
  pose proof (f_run_handle (ow_dev dev_rewind) h s (f_ow_dev _)) as G.
  destruct (run_handle (ow_dev dev_rewind) h s) as [[o1 h1] s1]. cbn in G.
  destruct o1; try (inversion H; subst; exact G).
  destruct (z_decode Z (s_data s1 (h_ino h))) as [zs|]; [|inversion H; subst; exact G]. cbv zeta in H.
  destruct (ur_ask req _) as [answers|]; [|inversion H; subst; exact G].
  eapply sfwd_trans; [exact G|]. revert H. clear.
  set (acc := accepted _ _). generalize s1 o s'. fold (always sfwd
    (ts <- (fun s => let '(ts, s') := run_sched sched (mkdir_threads (ur_out req) acc) s in (Ok ts, s')) ;;
     lift (join_all ts) ;;
     extract_all (filter (fun e => negb (ent_is_dir e)) acc) ;;
     ret h1)%m).
  apply (always_bind sfwd sfwd_trans).
  { apply f_threads. unfold mkdir_threads. apply Forall_forall. intros r I.
    apply in_map_iff in I as (p & <- & _). apply sf_map_err, sf_create_dir_all. }
  intros ts. apply (always_bind sfwd sfwd_trans); [apply (always_lift sfwd sfwd_refl)|intros _].
  apply (always_bind sfwd sfwd_trans); [apply f_extract_all|intros _]. apply (always_ret sfwd sfwd_refl).
Qed.

(** ** With the trace *)

Section Spent.
Context (E : env) (HE : env_ok E).

Definition asp (a a' : asys) : Prop :=
  exists n, spent E n (s_rng (fst a)) (snd a) (s_rng (fst a')) (snd a').
Lemma asp_refl : forall a, asp a a.
Proof. intros a. exists 0. apply spent_none; reflexivity. Qed.
Lemma asp_trans : forall a b c, asp a b -> asp b c -> asp a c.
Proof. intros a b c [n H] [m H']. exists (n + m). eapply spent_seq; eauto. Qed.
Lemma spent_skip : forall r t r', fwd r r' -> exists n, spent E n r t r' t.
Proof. intros r t r' [k H]. exists k, k, []. rewrite app_nil_r. repeat split; auto. constructor. Qed.
Lemma asp_fwd : forall s s' t, sfwd s s' -> asp (s, t) (s', t).
Proof. intros s s' t H. apply spent_skip. exact H. Qed.

Lemma a_sys : forall {X A} (m : M sys X A), always sfwd m -> always asp (on_sys m).
Proof.
  intros X A m Hm [s t] o a' H. unfold on_sys, zoom in H. cbn in H. destruct (m s) as [o1 s1] eqn:Y.
  inversion H. subst. apply asp_fwd. eapply Hm; eauto.
Qed.

(** Calls of the library on open files *)
Definition wsp (w w' : world) : Prop := exists n, spent E n (w_rng w) (w_tr w) (w_rng w') (w_tr w').
Lemma wsp_quiet : forall w w', quiet w w' -> wsp w w'.
Proof. intros w w' [A B]. exists 0. apply spent_none; [intros i; now rewrite A|exact B]. Qed.
Lemma w_encrypt : forall bs req, 0 < bs -> always wsp (encrypt_execute_bs E bs req).
Proof. intros bs req L w o w' H. exists 96. eapply encrypt_spent; eauto. Qed.
Lemma w_decrypt : forall bs det pw, always wsp (decrypt_execute_bs E bs det pw).
Proof. intros bs det pw w o w' H. apply wsp_quiet. eapply decrypt_quiet; eauto. Qed.
Lemma w_op : forall op, always wsp (run_op E op).
Proof. intros op w o w' H. eexists. eapply key_op_spent; eauto. Qed.
Lemma w_always_quiet : forall {X A} (m : M world X A), always quiet m -> always wsp m.
Proof. intros X A m Q w o w' H. apply wsp_quiet. eapply Q; eauto. Qed.

Lemma a_run_world : forall {X A} (m : M world X A) hi ho hh a, always wsp m -> asp a (snd (run_world m hi ho hh a)).
Proof.
  intros X A m hi ho hh a Hm. unfold run_world. cbv zeta.
  destruct (m _) as [o w] eqn:Y. apply Hm in Y. exact Y.
Qed.
Lemma a_run_one : forall {X A} (m : M world X A) h a, always wsp m -> asp a (snd (run_one m h a)).
Proof.
  intros X A m h a Hm. unfold run_one. cbv zeta. destruct (m _) as [o w] eqn:Y. apply Hm in Y. exact Y.
Qed.

Lemma a_pack : forall Z pick bs req, 0 < bs -> (forall r, fwd r (snd (pick r))) ->
  always asp (pack_execute_bs E Z pick bs req).
Proof.
  intros Z pick bs req L P. unfold pack_execute_bs.
  apply (always_bind asp asp_trans); [apply (always_map_err asp), a_sys, f_temp, P|].
  intros [h0|p]; [|apply (always_err asp asp_refl)].
  apply (always_bind asp asp_trans).
  { intros [s t] o a' H. cbn [fst snd] in H. pose proof (f_pack_archive Z bs req h0 s) as G.
    destruct (pack_archive Z bs req h0 s) as [[o1 h1] s1]. cbn in H, G. inversion H. subst.
    apply asp_fwd, G. }
  intros r1. cbv zeta.
  apply (always_bind asp asp_trans); [apply (always_map_err asp), a_sys, f_file_len|intros cap].
  intros a o a' H. set (req' := mkEncReq _ _ _ _) in H.
  pose proof (a_run_world (encrypt_execute_bs E bs req') (snd r1) (pr_out req) (pr_hdr req) a (w_encrypt bs req' L)) as G.
  destruct (run_world _ _ _ _ a) as [[o1 [h2 h3]] a1]. cbn [snd] in G.
  assert (T : forall x : outcome enc_error unit, always asp
    (on_sys (map_err (fun _ => PkFinishArchive) (wipe_temp h2 cap 2)) ;; map_err PkEncrypt (lift x))%m).
  { intros x. apply (always_bind asp asp_trans).
    - apply a_sys, (always_map_err sfwd), f_wipe.
    - intros _. apply (always_map_err asp), (always_lift asp asp_refl). }
  destruct o1; try (inversion H; subst; exact G); eapply asp_trans; try exact G; eapply T; exact H.
Qed.

Lemma a_unpack : forall Z pick bs sched req, (forall r, fwd r (snd (pick r))) ->
  always asp (unpack_execute_bs E Z pick bs sched req).
Proof.
  intros Z pick bs sched req P. unfold unpack_execute_bs.
  apply (always_bind asp asp_trans); [apply (always_map_err asp), a_sys, f_temp, P|].
  intros [h0|p]; [|apply panic_always, asp_refl].
  apply (always_bind asp asp_trans).
  { intros a o a' H. set (det := match ur_hdr req with Some _ => true | None => false end) in H.
    pose proof (a_run_world (decrypt_execute_bs E bs det (ur_raw_key req)) (ur_in req) h0 (ur_hdr req) a
                  (w_decrypt bs det _)) as G.
    destruct (run_world _ _ _ _ a) as [[o1 [h2 h3]] a1]. inversion H. subst. exact G. }
  intros r. apply (always_bind asp asp_trans); [apply (always_map_err asp), a_sys, f_file_len|intros cap].
  apply (always_bind asp asp_trans); [apply a_sys, f_unpack_archive|intros h2].
  apply a_sys, (always_map_err sfwd), f_wipe.
Qed.

(** ** Commands *)

Definition csp (c c' : cli) : Prop := asp (c_a c) (c_a c').
Lemma csp_refl : forall c, csp c c. Proof. intros c. apply asp_refl. Qed.
Lemma csp_trans : forall a b c, csp a b -> csp b c -> csp a c.
Proof. unfold csp. intros. eapply asp_trans; eauto. Qed.
Lemma csp_same : forall c c', c_a c' = c_a c -> csp c c'.
Proof. intros c c' H. unfold csp. rewrite H. apply asp_refl. Qed.

Lemma c_on_a : forall {X A} (m : M asys X A), always asp m -> always csp (on_a m).
Proof.
  intros X A m Hm c o c' H. unfold on_a, zoom in H. destruct (m (c_a c)) as [o1 a1] eqn:Y.
  inversion H. subst. unfold csp. cbn. eapply Hm; eauto.
Qed.
Lemma c_on_fs : forall {X A} (m : M sys X A), always sfwd m -> always csp (on_fs m).
Proof. intros X A m Hm. apply c_on_a, a_sys, Hm. Qed.
Lemma c_storage : forall {A} (m : M sys st_error A), always sfwd m -> always csp (storage m).
Proof. intros A m Hm. apply c_on_fs, (always_map_err sfwd), Hm. Qed.
Lemma c_say : forall n, always csp (say n).
Proof. intros n c o c' H. inversion H. subst. apply csp_same. reflexivity. Qed.
Lemma c_bind : forall {X A B} (m : M cli X A) (k : A -> M cli X B),
  always csp m -> (forall a, always csp (k a)) -> always csp (bind m k).
Proof. intros X A B. apply (always_bind csp csp_trans). Qed.
Lemma c_map_err : forall {X X' A} (f : X -> X') (m : M cli X A), always csp m -> always csp (map_err f m).
Proof. intros X X' A. apply (always_map_err csp). Qed.
Lemma c_ret : forall {X A} (a : A), always csp (@ret cli X A a).
Proof. intros X A. apply (always_ret csp csp_refl). Qed.
Lemma c_err : forall {X A} (e : X), always csp (@err cli X A e).
Proof. intros X A. apply (always_err csp csp_refl). Qed.
Lemma c_lift : forall {X A} (x : outcome X A), always csp (@lift cli X A x).
Proof. intros X A. apply (always_lift csp csp_refl). Qed.
Lemma c_lift_opt : forall {X A} (e : X) (o : option A), always csp (@lift_opt cli X A e o).
Proof. intros X A e []; [apply c_ret|apply c_err]. Qed.
Lemma c_panic : forall {X A}, always csp (@panic cli X A).
Proof. intros X A. apply panic_always, csp_refl. Qed.

Ltac go :=
  repeat lazymatch goal with
    | |- always csp (bind _ _) => apply c_bind; [|intros ?]
    | |- always csp (ret _) => apply c_ret
    | |- always csp (err _) => apply c_err
    | |- always csp (lift _) => apply c_lift
    | |- always csp (lift_opt _ _) => apply c_lift_opt
    | |- always csp panic => apply c_panic
    | |- always csp (say _) => apply c_say
    | |- always csp (map_err _ _) => apply c_map_err
    | |- always csp (if ?b then _ else _) => destruct b
    | |- always csp (match ?x with _ => _ end) => destruct x
    end.

Lemma c_contains : forall V m id, always csp (contains_id V m id).
Proof. intros V m id. unfold contains_id. go. Qed.
Lemma c_get_one : forall V m id, always csp (get_one V m id).
Proof. intros V m id. unfold get_one. go. Qed.
Lemma c_get_many : forall V m id, always csp (get_many V m id).
Proof. intros V m id. unfold get_many. go. Qed.
Lemma c_get_param : forall V n m, always csp (get_param V n m).
Proof. intros V n m. unfold get_param. go. apply c_get_one. Qed.
Lemma c_get_params : forall V n m, always csp (get_params V n m).
Proof. intros V n m. unfold get_params. go. apply c_get_many. Qed.
Lemma c_key_init : forall V m p d, always csp (key_init V m p d).
Proof. intros V m p d. unfold key_init. go; first [apply c_contains|apply c_get_one]. Qed.
Lemma c_hashing : forall V m, always csp (hashing_algorithm_of V m).
Proof. intros V m. unfold hashing_algorithm_of. go. apply c_contains. Qed.
Lemma c_algorithm : forall V m, always csp (algorithm_of V m).
Proof. intros V m. unfold algorithm_of. go. apply c_contains. Qed.
Lemma c_forcemode : forall V m, always csp (forcemode V m).
Proof. intros V m. unfold forcemode. go. apply c_contains. Qed.
Ltac params := first [apply c_contains|apply c_get_one|apply c_get_many|apply c_key_init|apply c_hashing
                     |apply c_algorithm|apply c_forcemode|apply c_get_param|apply c_get_params].
Lemma c_parameters : forall V m, always csp (parameter_handler V m).
Proof. intros V m. unfold parameter_handler. go; params. Qed.
Lemma c_erase_params : forall V m, always csp (erase_params V m).
Proof. intros V m. unfold erase_params. go; params. Qed.
Lemma c_pack_params : forall V m, always csp (pack_params_of V m).
Proof. intros V m. unfold pack_params_of. go; params. Qed.

Lemma c_prompt : always csp prompt_password.
Proof.
  intros c o c' H. unfold prompt_password in H. destruct (c_tty c) as [|[l|] r]; inversion H; subst;
    first [apply csp_refl|apply csp_same; reflexivity].
Qed.
Lemma c_password : forall n st, always csp (password_loop n st).
Proof.
  induction n as [|n IH]; intros st; cbn [password_loop]; [intros c o c' H; inversion H; subst; apply csp_refl|].
  go; try apply c_prompt. apply IH.
Qed.
Lemma c_read_keyfile : forall p, always sfwd (read_keyfile p).
Proof.
  intros p. apply f_call_or. intros s o s' H. destruct (stat s p) as [[|i|t]|]; try same H.
  pose proof (next_plan_rng s) as R. destruct (next_plan s) as [pl s1]. cbn in R.
  assert (X : s' = s1) by (destruct (dev_read_to_end _) as [[] d]; inversion H; reflexivity).
  subst. apply sfwd_same, R.
Qed.
Lemma c_secret : forall V k st, always csp (get_secret V k st).
Proof.
  intros V k st. unfold get_secret. go.
  - intros c o c' H. inversion H. subst. apply csp_same. reflexivity.
  - apply c_on_fs, c_read_keyfile.
  - intros c o c' H. eapply c_password; eauto.
Qed.
Lemma c_answer_loop : forall n p d, always csp (answer_loop n p d).
Proof.
  induction n as [|n IH]; intros p d; cbn [answer_loop]; [intros c o c' H; inversion H; subst; apply csp_refl|].
  go; [|apply IH]. intros c o c' H. destruct (read_line (c_stdin c)). inversion H. subst. apply csp_same. reflexivity.
Qed.
Lemma c_answer : forall p d f, always csp (get_answer p d f).
Proof. intros p d []; [apply c_ret|]. intros c o c' H. eapply c_answer_loop; eauto. Qed.
Lemma c_check : forall n f, always csp (check_or_exit n f).
Proof.
  intros n f. unfold check_or_exit. go. intros c o c' H. unfold overwrite_check in H.
  destruct (exists_path _ _); [eapply c_answer; eauto|inversion H; subst; apply csp_refl].
Qed.
Lemma c_try : forall e, always csp (try_handle e).
Proof. intros []; cbn; go. Qed.
Lemma f_hash_file : forall V p, always sfwd (hash_file V p).
Proof.
  intros V p. apply f_call_or. intros s o s' H. destruct (stat s p) as [[|i|t]|]; try same H.
  pose proof (next_plan_rng s) as R. destruct (next_plan s) as [pl s1]. cbn in R.
  assert (X : s' = s1) by (destruct (hash_execute _ _ _) as [[] d]; inversion H; reflexivity).
  subst. apply sfwd_same, R.
Qed.
Lemma c_hash_files : forall V l, always csp (hash_files V l).
Proof.
  intros V l. induction l as [|f l IH]; cbn [hash_files]; go; [|exact IH]. apply c_on_fs, f_hash_file.
Qed.
Lemma c_secure_erase : forall V i p f, always csp (secure_erase V i p f).
Proof.
  intros V i p f. unfold secure_erase. go.
  - apply c_storage, f_read_file.
  - apply c_answer.
  - apply c_on_fs, (always_map_err sfwd), f_erase_dir.
  - apply c_on_fs, (always_map_err sfwd), sf_run, sf_erase.
Qed.
Lemma c_open_header : forall p, always csp (Cli.open_header p).
Proof.
  intros p. unfold Cli.open_header. go; [apply c_check|apply c_storage, f_create_or_write].
Qed.
Lemma c_read_header : forall p, always csp (read_header p).
Proof. intros p. unfold read_header. go. apply c_storage, f_read_file. Qed.
Lemma c_flush_opt : forall h, always csp (flush_opt h).
Proof. intros h. unfold flush_opt. go. apply c_storage, f_flush_file. Qed.

Context (V : cenv) (VE : ce_E V = E) (VP : picks_in_order V) (VA : alias_is_call V).

Lemma a_alias : forall ws, always asp (alias V ws).
Proof.
  intros ws a o a' H. unfold alias in H. cbv zeta in H. inversion H. subst a'. clear H.
  unfold asp. cbn [fst snd s_rng].
  destruct (VA a) as (k & x & w & R & T & RR & TT). rewrite RR, TT, VE.
  destruct (lib_call_spent E x w HE) as (k1 & cs & L & A & B & C).
  destruct (spent_skip (s_rng (fst a)) (snd a) (w_rng w) (ex_intro _ k R)) as [n S].
  exists (n + 96). eapply spent_seq; [exact S|]. rewrite <- T. exists k1, cs. auto.
Qed.
Lemma a_encrypt_files : forall req hi ho hh, always asp (encrypt_files V req hi ho hh).
Proof.
  intros req hi ho hh. unfold encrypt_files. destruct (_ || _)%bool; [apply a_alias|].
  apply (always_map_err asp). intros a o a' H. rewrite VE in H.
  pose proof (a_run_world (encrypt_execute E req) hi ho hh a (w_encrypt _ req BLOCK_SIZE_pos)) as G.
  destruct (run_world _ _ _ _ a) as [[o1 x] a1]. inversion H. subst. exact G.
Qed.
Lemma a_decrypt_files : forall raw hi ho hh, always asp (decrypt_files V raw hi ho hh).
Proof.
  intros raw hi ho hh. unfold decrypt_files. destruct (_ || _)%bool; [apply a_alias|].
  apply (always_map_err asp). intros a o a' H. rewrite VE in H.
  pose proof (a_run_world (decrypt_execute E (is_some hh) raw) hi ho hh a (w_decrypt _ _ raw)) as G.
  destruct (run_world _ _ _ _ a) as [[o1 x] a1]. inversion H. subst. exact G.
Qed.
Lemma c_each : forall {A B} (f : A -> M cli cli_error B) l, (forall x, always csp (f x)) -> always csp (each f l).
Proof. intros A B f l H. induction l as [|x l IH]; cbn [each]; go; [apply H|exact IH]. Qed.
Lemma c_each_ : forall {A} (f : A -> M cli cli_error unit) l, (forall x, always csp (f x)) -> always csp (each_ f l).
Proof. intros A f l H. induction l as [|x l IH]; cbn [each_]; go; [apply H|exact IH]. Qed.

Ltac pieces := first
  [ params | apply c_parameters | apply c_erase_params | apply c_pack_params | apply c_secret | apply c_check
  | apply c_try | apply c_hash_files | apply c_secure_erase | apply c_open_header | apply c_read_header
  | apply c_flush_opt | apply c_storage, f_read_file | apply c_storage, f_create_or_write
  | apply c_storage, f_flush_file ].

Lemma c_command : forall cmd g, always csp (run_command V cmd g).
Proof.
  intros cmd g. unfold run_command. cbv zeta. destruct cmd.
  - unfold encrypt_cmd, encrypt_stream. go; try pieces. apply c_on_a, a_encrypt_files.
  - unfold decrypt_cmd, decrypt_stream. go; try pieces. apply c_on_a, a_decrypt_files.
  - unfold erase_cmd. go; pieces.
  - unfold hash_cmd. go; pieces.
  - unfold pack_cmd, pack_cli. go; try pieces.
    + intros c o c' H. destruct (existsb _ _); inversion H; subst; apply csp_refl.
    + apply c_each. intros x. pieces.
    + apply c_each. intros x. go. apply c_storage, f_read_dir.
    + apply c_on_a. destruct (same_opt _ _); [apply a_alias|]. apply (always_map_err asp). rewrite VE.
      apply a_pack; [apply BLOCK_SIZE_pos|exact VP].
    + apply c_each_. intros x. pieces.
  - unfold unpack_cmd. go; try pieces. unfold get_flag. go.
Qed.

Lemma c_on_handle : forall {X A} (m : M world X A) h, always wsp m -> always csp (on_handle m h).
Proof.
  intros X A m h Hm. apply c_on_a. intros a o a' H. pose proof (a_run_one m h a Hm) as G.
  destruct (run_one m h a) as [[o1 h1] a1]. inversion H. subst. exact G.
Qed.
Lemma c_on_handles : forall {X A} (m : M world X A) hi ho, always wsp m -> always csp (on_handles m hi ho).
Proof.
  intros X A m hi ho Hm. apply c_on_a. intros a o a' H. pose proof (a_run_world m hi ho None a Hm) as G.
  destruct (run_world m hi ho None a) as [[o1 h1] a1]. inversion H. subst. exact G.
Qed.
Lemma f_open_rw : forall p, always sfwd (open_rw p).
Proof.
  intros p. apply f_call_or. intros s o s' H. destruct (stat s p) as [[|i|t]|]; try same H.
  pose proof (next_plan_rng s) as R. destruct (next_plan s) as [pl s1]. inversion H. subst. apply sfwd_same, R.
Qed.
Lemma w_map_err : forall {X X' A} (f : X -> X') (m : M world X A), always wsp m -> always wsp (map_err f m).
Proof. intros X X' A. apply (always_map_err wsp). Qed.
Lemma c_open_v5 : forall i, always csp (open_v5 i).
Proof.
  intros i. unfold open_v5. go.
  - apply c_on_fs, f_open_rw.
  - apply c_on_handle, w_map_err, w_always_quiet, quiet_in.
  - apply c_on_handle, w_map_err, w_always_quiet, quiet_in.
Qed.
Lemma c_info : forall k, always csp (info_if_user k).
Proof. intros []; cbn; go. Qed.
Lemma c_tool : forall input t, always csp (run_tool V input t).
Proof.
  intros input t. unfold run_tool.
  destruct t as [old new ha|old new ha|k|k]; unfold add, change, delete, verify, up; go;
    try apply c_open_v5; try apply c_info; try apply c_secret; apply c_on_handle, w_map_err; rewrite VE.
  - apply (w_op (OpAdd _ _ _)).
  - apply (w_op (OpChange _ _ _)).
  - apply (w_op (OpDelete _)).
  - apply (w_op (OpVerify _)).
Qed.
Lemma c_unpack_cli : forall i o v p, always csp (unpack_cli V i o v p).
Proof.
  intros i o v p. unfold unpack_cli, up. go; try pieces.
  intros c o1 c' H. revert H. apply c_on_a, (always_map_err asp). rewrite VE. apply a_unpack, VP.
Qed.
Lemma c_say_lines : forall l, always csp (say_lines l).
Proof. induction l as [|x l IH]; cbn [say_lines]; go. exact IH. Qed.
Lemma c_details : forall i, always csp (details i).
Proof.
  intros i. unfold details, up. go.
  - apply c_on_fs, f_open_rw.
  - apply c_on_handle, w_map_err, w_always_quiet, quiet_in.
  - apply c_say_lines.
Qed.
Lemma c_dump : forall i o f, always csp (dump i o f).
Proof.
  intros i o f. unfold dump, up. go; try pieces. apply c_on_handles, w_map_err, w_always_quiet.
  unfold header_dump. repeat quiet_step.
Qed.
Lemma c_restore : forall i o, always csp (restore i o).
Proof.
  intros i o. unfold restore, up. go; try pieces; [apply c_on_fs, f_open_rw|].
  apply c_on_handles, w_map_err, w_always_quiet. unfold header_restore. repeat quiet_step.
  destruct (negb _); repeat quiet_step.
Qed.
Lemma c_strip : forall i, always csp (strip i).
Proof.
  intros i. unfold strip, up. go; [apply c_on_fs, f_open_rw|].
  apply c_on_handle, w_map_err, w_always_quiet. unfold header_strip. repeat quiet_step.
Qed.

Lemma path_call_spent : forall x c, csp c (path_run V x c).
Proof.
  intros x c. destruct x; cbn [path_run];
    match goal with |- csp c (snd (?m c)) => destruct (m c) as [o1 c1] eqn:Y end; cbn [snd]; revert Y.
  - apply c_command.
  - apply c_tool.
  - apply c_unpack_cli.
  - apply c_details.
  - apply c_dump.
  - apply c_restore.
  - apply c_strip.
Qed.
End Spent.

Lemma path_nonces_fresh : forall E r r' t', env_ok E -> path_history E r r' t' ->
  exists n, (forall i, r' i = r (n + i)) /\ (~ bad_luck E r n -> nonces_fresh t').
Proof.
  intros E r r' t' HE H.
  assert (S : exists n, spent E n r [] r' t').
  { induction H as [|V x c VE VP VA H [n IH]].
    - exists 0. apply spent_none; reflexivity.
    - destruct (path_call_spent E HE V VE VP VA x c) as [m S]. exists (n + m). eapply spent_seq; eauto. }
  destruct S as (n & k & cs & L & A & B & C). exists k. split; [exact A|].
  apply (spent_fresh E k r r'). exists k, cs. auto.
Qed.
