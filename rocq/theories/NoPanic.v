(** Where panics can come from: the commands [erase], [hash] and [pack], and the
    function behind [unpack]. *)
From Coq Require Import List Arith NArith ZArith Ascii String Bool Lia.
From Verif Require Import Bytes Outcome IO Primitives Crypto Header Stream KeyModel EncDec KeyOps HeaderOps.
From Verif Require Import Overwrite Hash FS Erase Archive Cli CliTools.
From Verif Require Import BytesFacts IOSpec IOFacts FileProofs.
From Verif Require Import FSSpec FSFacts ArchiveSpec ArchiveWalk EraseProofs EraseDirProofs UnpackProofs.
From Verif Require Import CliSpec CliCommands CliKeys CliRuns CliProofs CliSafety CliToolsSpec CliToolsRuns CliToolsUnpack.
Import ListNotations.
Local Open Scope nat_scope.
Local Open Scope list_scope.

(** No panic, and results with the property [Q]. *)
Definition okp {E A} (Q : A -> Prop) (o : outcome E A) : Prop :=
  match o with Ok a => Q a | Panic => False | _ => True end.
Definition np {S E A} (m : M S E A) (Q : A -> Prop) : Prop := forall s, okp Q (fst (m s)).
Definition any {A} (_ : A) : Prop := True.

Lemma okp_panic : forall {E A} (Q : A -> Prop) (o : outcome E A), okp Q o -> o <> Panic.
Proof. intros E A Q o H ->. exact H. Qed.
Lemma okp_any : forall {E A} (o : outcome E A), o <> Panic -> okp any o.
Proof. intros E A [x|e| |] H; cbn; unfold any; auto. Qed.

Lemma np_bind : forall {S E A B} (m : M S E A) (k : A -> M S E B) P Q,
  np m P -> (forall x, P x -> np (k x) Q) -> np (bind m k) Q.
Proof.
  intros S E A B m k P Q H K s. unfold bind. specialize (H s). destruct (m s) as [[x|e| |] s']; cbn in *; auto.
  apply K. exact H.
Qed.
Lemma np_weak : forall {S E A} (m : M S E A) (P Q : A -> Prop), np m P -> (forall x, P x -> Q x) -> np m Q.
Proof. intros S E A m P Q H I s. specialize (H s). destruct (fst (m s)); cbn in *; auto. Qed.
Lemma np_ret : forall {S E A} (x : A) (Q : A -> Prop), Q x -> np (@ret S E A x) Q.
Proof. intros S E A x Q H s. exact H. Qed.
Lemma np_err : forall {S E A} (e : E) (Q : A -> Prop), np (@err S E A e) Q.
Proof. intros S E A e Q s. exact I. Qed.
Lemma np_map_err : forall {S E E' A} (f : E -> E') (m : M S E A) Q, np m Q -> np (map_err f m) Q.
Proof. intros S E E' A f m Q H s. unfold map_err. specialize (H s). destruct (m s) as [[x|e| |] s']; exact H. Qed.
Lemma np_or_else : forall {S E E' A} (m : M S E A) (h : E -> M S E' A) Q, np m Q -> (forall e, np (h e) Q) ->
  np (or_else m h) Q.
Proof.
  intros S E E' A m h Q H K s. unfold or_else. specialize (H s). destruct (m s) as [[x|e| |] s']; try exact H. apply K.
Qed.
Lemma np_zoom : forall {S T E A} (g : S -> T) f (m : M T E A) Q, np m Q -> np (zoom g f m) Q.
Proof. intros S T E A g f m Q H s. unfold zoom. specialize (H (g s)). destruct (m (g s)). exact H. Qed.
Lemma np_call : forall {E A} (e : E) (m : M sys E A) Q, np m Q -> np (call_or e m) Q.
Proof. intros E A e m Q H s. unfold call_or. destruct (next_fault s) as [[|] s1]; [exact I|apply H]. Qed.
Lemma np_lift : forall {S E A} (o : outcome E A) Q, okp Q o -> np (@lift S E A o) Q.
Proof. intros S E A o Q H s. exact H. Qed.

(** ** Devices *)

Lemma np_read : forall n, np (dev_read n) any.
Proof. intros n d. unfold dev_read. destruct (next_ev d) as [[|k| |] d1]; exact I. Qed.
Lemma np_flush : np dev_flush any.
Proof. intros d. unfold dev_flush. destruct (next_ev d) as [[|k| |] d1]; exact I. Qed.
Lemma np_rewind : np dev_rewind any.
Proof. intros d. unfold dev_rewind, dev_seek_start. destruct (next_ev d) as [[|k| |] d1]; exact I. Qed.
Lemma np_write_all : forall l, np (dev_write_all l) any.
Proof.
  intros l d. unfold dev_write_all. generalize (S (List.length (d_plan d) + List.length l)) as fuel.
  intros fuel. revert l d. induction fuel as [|fuel IH]; intros l d.
  - destruct l; exact I.
  - cbn [write_all_loop]. destruct l as [|b l]; [exact I|]. unfold dev_write.
    destruct (next_ev d) as [[|k| |] d1]; cbn; try exact I; try apply IH.
    destruct k; cbn; [exact I|apply IH].
Qed.

Lemma np_handle : forall {E A} (m : M ow_state E A) Q h s, np m Q -> okp Q (fst (fst (run_handle m h s))).
Proof.
  intros E A m Q h s H. unfold run_handle. specialize (H (handle_dev s h, s_rng s)).
  destruct (m _) as [o [d g]]. exact H.
Qed.

Lemma np_overwrite : forall cap passes, np (overwrite_execute cap passes) any.
Proof.
  assert (RW : forall (f : io_error -> ow_error), np (map_err f (ow_dev dev_rewind)) any)
    by (intros; apply np_map_err, np_zoom, np_rewind).
  assert (FL : forall (f : io_error -> ow_error), np (map_err f (ow_dev dev_flush)) any)
    by (intros; apply np_map_err, np_zoom, np_flush).
  intros cap passes. unfold overwrite_execute. apply np_bind with (P := any).
  - generalize (Z.to_nat passes) as n. induction n as [|n IH]; [apply np_ret; exact I|].
    apply np_bind with (P := any); [|intros _ _; exact IH]. unfold ow_pass.
    apply np_bind with (P := any); [apply RW|intros _ _].
    apply np_bind with (P := any); [|intros _ _; apply FL].
    generalize (take_pos (ow_blocks cap)) as bl. induction bl as [|b bl IHb]; [apply np_ret; exact I|].
    apply np_bind with (P := any); [intros s; exact I|intros l _].
    apply np_bind with (P := any); [apply np_map_err, np_zoom, np_write_all|intros _ _; exact IHb].
  - intros _ _. apply np_bind with (P := any); [apply RW|intros _ _].
    apply np_bind with (P := any); [apply np_map_err, np_zoom, np_write_all|intros _ _; apply FL].
Qed.

(** ** Files *)

Definition a_file (e : entry) : Prop := exists h, e = EFile h.

Lemma np_new : forall p i s, okp a_file (fst (new_handle p i s)).
Proof. intros p i s. unfold new_handle. destruct (next_plan s). eexists. reflexivity. Qed.
Lemma np_create : forall p, np (create_file p) a_file.
Proof.
  intros p. apply np_call. intros s. destruct (resolve false s p) as [q|]; [|exact I].
  destruct (lookup (s_nodes s) q); [exact I|apply np_new].
Qed.
Lemma np_write_file : forall p, np (write_file p) a_file.
Proof. intros p. apply np_call. intros s. destruct (stat s p) as [[|i|t]|]; try exact I. apply np_new. Qed.
Lemma np_temp : forall pick, np (create_temp_file pick) a_file.
Proof. intros pick s. unfold create_temp_file. destruct (pick (s_rng s)). apply np_create. Qed.
Lemma np_len : forall e, np (file_len e) any.
Proof. intros [h|p]; [apply np_call; intros s; exact I|apply np_err]. Qed.
Lemma np_read_file : forall p, np (read_file p) any.
Proof.
  intros p s. unfold read_file. destruct (is_dir s p); [exact I|].
  apply np_call. intros s1. destruct (stat s1 p) as [[|i|t]|]; try exact I.
  unfold new_handle. destruct (next_plan s1). exact I.
Qed.
Lemma np_read_dir : forall e, np (read_dir e) any.
Proof.
  intros [h|p]; [apply np_err|]. apply np_call. intros s. generalize (listing s p) as ps.
  intros ps. revert s. change (np (read_all ps) any). induction ps as [|q ps IH]; [apply np_ret; exact I|].
  apply np_bind with (P := any); [apply np_read_file|intros e _].
  apply np_bind with (P := any); [exact IH|intros es _; apply np_ret; exact I].
Qed.
Lemma np_remove_dir : forall e, np (remove_dir_all e) any.
Proof.
  intros [h|p]; [apply np_err|]. apply np_call. intros s. destruct (resolve false s p) as [[|x q]|]; try exact I.
  destruct (lookup (s_nodes s) (x :: q)) as [[|i|t]|]; exact I.
Qed.

(** ** Threads *)

Fixpoint rnp {E A} (Q : A -> Prop) (r : R E A) : Prop :=
  match r with
  | Done o => okp Q o
  | Step X m k => forall s, rnp Q (k (fst (m s)))
  end.

Lemma rnp_bind : forall {E A B} (r : R E A) (k : A -> R E B) P Q,
  rnp P r -> (forall x, P x -> rnp Q (k x)) -> rnp Q (rbind r k).
Proof.
  intros E A B r k P Q. induction r as [[x|e| |]|X m c IH]; intros H K; cbn in *; auto.
Qed.
Lemma rnp_map_err : forall {E E' A} (f : E -> E') (r : R E A) Q, rnp Q r -> rnp Q (rmap_err f r).
Proof. intros E E' A f r Q. induction r as [[x|e| |]|X m c IH]; intros H; cbn in *; auto. Qed.
Lemma rnp_atom : forall {E A} (m : M sys E A) Q, np m Q -> rnp Q (atom m).
Proof. intros E A m Q H s. exact (H s). Qed.
Lemma rnp_act : forall {E X} (m : sys -> X * sys), rnp any (@act E X m).
Proof. intros E X m s. exact I. Qed.
Lemma rnp_run : forall {E A} (r : R E A) Q s, rnp Q r -> okp Q (fst (run r s)).
Proof.
  intros E A r Q. induction r as [o|X m c IH]; intros s H; cbn; [exact H|].
  specialize (H s). destruct (m s) as [x s']. apply IH. exact H.
Qed.
Lemma rnp_step : forall {E A} (Q : A -> Prop) (ts : list (R E A)) i s, Forall (rnp Q) ts ->
  Forall (rnp Q) (fst (step_nth i ts s)).
Proof.
  intros E A Q. induction ts as [|t ts IH]; intros i s F; [destruct i; exact F|].
  inversion F as [|? ? F1 F2]; subst. destruct i; cbn [step_nth].
  - destruct t as [o|X m k]; cbn; [constructor; auto|].
    specialize (F1 s). destruct (m s) as [x s']. constructor; auto.
  - specialize (IH i s F2). destruct (step_nth i ts s) as [ts2 s']. constructor; auto.
Qed.
Lemma rnp_sched : forall {E A} (Q : A -> Prop) sched (ts : list (R E A)) s, Forall (rnp Q) ts ->
  Forall (rnp Q) (fst (run_sched sched ts s)).
Proof.
  intros E A Q. induction sched as [|i l IH]; intros ts s F; [exact F|].
  cbn [run_sched]. pose proof (rnp_step Q ts i s F) as F1. destruct (step_nth i ts s) as [ts1 s1]. apply IH. exact F1.
Qed.
Lemma rnp_join : forall {E} (ts : list (R E unit)), Forall (rnp any) ts -> okp any (join_all ts).
Proof.
  intros E ts F. induction F as [|t ts F1 F IH]; [exact I|].
  destruct t as [[x|e| |]|X m k]; cbn in *; auto.
Qed.
Lemma np_threads : forall {E A} sched (ts : list (R E A)), Forall (rnp any) ts ->
  @np sys E _ (fun s => let '(ts', s') := run_sched sched ts s in (Ok ts', s')) (Forall (rnp any)).
Proof.
  intros E A sched ts F s. pose proof (rnp_sched any sched ts s F) as X.
  destruct (run_sched sched ts s) as [ts' s']. exact X.
Qed.

Lemma rnp_remove : forall e, rnp any (remove_file e).
Proof.
  assert (U : forall p, rnp any (atom (unlink p))).
  { intros p. apply rnp_atom, np_call. intros s. destruct (resolve false s p) as [q|]; [|exact I].
    destruct (lookup (s_nodes s) q) as [[|i|t]|]; exact I. }
  intros [h|p]; unfold remove_file; (apply rnp_bind with (P := any); [|intros _ _; apply U]); [|exact I].
  apply rnp_bind with (P := any); [apply rnp_atom, np_call; intros s; exact I|intros _ _].
  apply rnp_atom, np_call. intros s. exact I.
Qed.

Lemma rnp_erase : forall p passes, rnp any (erase_execute p passes).
Proof.
  intros p passes. unfold erase_execute.
  apply rnp_bind with (P := a_file); [apply rnp_map_err, rnp_atom, np_write_file|intros f (h & ->)].
  apply rnp_bind with (P := any); [apply rnp_map_err, rnp_atom, np_len|intros cap _].
  apply rnp_bind with (P := any); [|intros f _; apply rnp_map_err, rnp_remove].
  cbn [overwrite_file]. intros s. cbn [rbind act].
  pose proof (np_handle _ _ h s (np_overwrite cap passes)) as X.
  destruct (fst (run_handle (overwrite_execute cap passes) h s)) as [[u|e| |] h']; cbn in *; auto; exact I.
Qed.

Lemma np_erase_dir : forall sched e passes, np (erase_dir_execute sched e passes) any.
Proof.
  intros sched e passes. unfold erase_dir_execute. destruct (negb (entry_is_dir e)); [apply np_err|].
  apply np_bind with (P := any); [apply np_map_err, np_read_dir|intros files _].
  apply np_bind with (P := Forall (rnp any)).
  - apply np_threads. unfold erase_threads. apply Forall_forall. intros t IN. apply in_map_iff in IN.
    destruct IN as (f & <- & _). apply rnp_map_err, rnp_erase.
  - intros ts F. apply np_bind with (P := any); [apply np_lift, rnp_join; exact F|intros _ _].
    apply np_map_err, np_remove_dir.
Qed.

Lemma rnp_mkdirs : forall p, rnp any (create_dir_all p).
Proof.
  assert (M1 : forall p, rnp any (mkdir_or_is_dir p)).
  { intros p. apply rnp_bind with (P := any); [apply rnp_act|intros [b|] _; [|exact I]].
    apply rnp_bind with (P := any); [apply rnp_act|intros [|] _; exact I]. }
  assert (M2 : forall abs rcs, rnp any (create_parents abs rcs)).
  { intros abs rcs. induction rcs as [|x rcs IH]; [cbn [create_parents]; destruct abs; [apply M1|exact I]|].
    cbn [create_parents]. apply rnp_bind with (P := any); [apply rnp_act|intros [[|]|] _].
    - apply rnp_bind with (P := any); [exact IH|intros _ _; apply M1].
    - apply rnp_bind with (P := any); [apply rnp_act|intros [|] _; exact I].
    - exact I. }
  intros p. unfold create_dir_all.
  assert (M3 : rnp any (b <~ act (mkdir p);; match b with
      | None => rret tt
      | Some false => d <~ act (fun s => (is_dir s p, s)) ;;
                      if (d : bool) then rret tt else rerr StCreateDir
      | Some true =>
          match rev (components p) with
          | [] => rerr StCreateDir
          | _ :: rcs' => create_parents (p_abs p) rcs' ~;; mkdir_or_is_dir p
          end
      end)%r).
  { apply rnp_bind with (P := any); [apply rnp_act|intros [[|]|] _].
    - destruct (rev (components p)); [exact I|]. apply rnp_bind with (P := any); [apply M2|intros _ _; apply M1].
    - apply rnp_bind with (P := any); [apply rnp_act|intros [|] _; exact I].
    - exact I. }
  destruct (p_abs p), (p_comps p); try exact M3. exact I.
Qed.

(** ** Archives *)

Lemma np_put : forall l h s, okp any (fst (fst (put_archive l h s))).
Proof. intros l h s. apply np_handle, np_zoom, np_write_all. Qed.

Lemma np_wipe : forall h cap passes, np (wipe_temp h cap passes) any.
Proof.
  intros h cap passes s. unfold wipe_temp. pose proof (np_handle _ _ h s (np_overwrite cap passes)) as X.
  assert (Q : forall h' s1, okp any (fst (quiet (run (remove_file (EFile h'))) s1))).
  { intros h' s1. unfold quiet. pose proof (rnp_run _ _ s1 (rnp_remove (EFile h'))) as Y.
    destruct (run (remove_file (EFile h')) s1) as [[u|e| |] s2]; exact Y || exact I. }
  destruct (run_handle (overwrite_execute cap passes) h s) as [[[u|e| |] h'] s1]; cbn in X; try contradiction; cbn [fst]; try exact I; apply Q.
Qed.

Lemma np_pack_read : forall bs fuel acc d, okp any (fst (fst (pack_read fuel bs acc d))).
Proof.
  intros bs. induction fuel as [|fuel IH]; intros acc d; [exact I|]. cbn [pack_read].
  pose proof (np_read bs d) as X. destruct (dev_read bs d) as [[got|e| |] d']; try exact X; try exact I.
  destruct (List.length got =? bs); [apply IH|exact I].
Qed.
Lemma np_pack_add : forall bs es acc s, okp any (fst (fst (pack_add bs es acc s))).
Proof.
  intros bs. induction es as [|[h|p] es IH]; intros acc s; [exact I| |]; cbn [pack_add].
  - destruct (has_name _ acc); [exact I|].
    pose proof (np_pack_read bs (S (List.length (d_data (handle_dev s h)))) [] (handle_dev s h)) as X.
    destruct (pack_read _ bs [] (handle_dev s h)) as [[[u|e| |] data] d']; try exact X; try exact I. apply IH.
  - destruct (has_name _ acc); [exact I|apply IH].
Qed.

Lemma np_pack : forall E Z pick bs req, env_ok E -> 0 < bs -> ht_version (pr_header_type req) <> V3 ->
  np (pack_execute_bs E Z pick bs req) any.
Proof.
  intros E Z pick bs req HE HB HV. unfold pack_execute_bs.
  apply np_bind with (P := a_file); [apply np_map_err, np_zoom, np_temp|intros f (h0 & ->)].
  apply np_bind with (P := any).
  - intros a. unfold lift_h, pack_archive.
    pose proof (np_pack_add bs (pr_files req) [] (fst a)) as X.
    destruct (pack_add bs (pr_files req) [] (fst a)) as [[o zs] s1]. cbn [fst] in X.
    pose proof (np_put (z_encode Z (pr_compression req) zs) h0 s1) as Y.
    destruct (put_archive _ h0 s1) as [[w h'] s2]. cbn [fst] in Y.
    destruct o as [u|e| |]; try exact X; try exact I. destruct w as [u'|e| |]; try exact Y; exact I.
  - intros r _. apply np_bind with (P := any); [apply np_map_err, np_zoom, np_len|intros cap _].
    intros a. unfold run_world.
    destruct (encrypt_execute_bs E bs _ _) as [o w] eqn:EE.
    apply encrypt_no_panic in EE; [|exact HE|exact HB|exact HV]. destruct EE as [NP _].
    assert (W : forall a, okp any (fst ((on_sys (map_err (fun _ => PkFinishArchive) (wipe_temp (move_handle (w_in w) (snd r)) cap 2)) ;;
             map_err PkEncrypt (lift o)) a))).
    { apply np_bind with (P := any); [apply np_zoom, np_map_err, np_wipe|intros _ _].
      apply np_map_err, np_lift, okp_any, NP. }
    destruct o as [u|e| |]; try congruence; try apply W; try exact I.
Qed.

Lemma np_extract : forall e, np (extract e) any.
Proof.
  intros e. unfold extract. apply np_bind with (P := any).
  { destruct (zr_open (snd e)); [apply np_ret; exact I|apply np_err]. }
  intros _ _. apply np_bind with (P := a_file).
  { apply np_map_err, np_or_else; [apply np_create|intros _; apply np_write_file]. }
  intros f (h & ->). apply np_bind with (P := any).
  - apply np_map_err. intros s. pose proof (np_put (zr_data (snd e)) h s) as X.
    destruct (put_archive (zr_data (snd e)) h s) as [[o h'] s']. exact X.
  - intros _ _. destruct (zr_ok (snd e)); [apply np_ret; exact I|apply np_err].
Qed.

(** The only panic of unpacking is one of the callback. *)
Lemma unpack_panic : forall E Z pick bs sched req a a', env_ok E ->
  unpack_execute_bs E Z pick bs sched req a = (Panic, a') ->
  exists l zs, z_decode Z l = Some zs /\ ur_ask req (map fst (entities (ur_out req) zs)) = None.
Proof.
  intros E Z pick bs sched req a a' HE H.
  destruct (unpack_execute_bs E Z pick bs sched req a) as [o b] eqn:U. injection H as -> ->.
  assert (X : fst (unpack_execute_bs E Z pick bs sched req a) = Panic) by (rewrite U; reflexivity). clear U. revert X.
  set (G := exists l zs, z_decode Z l = Some zs /\ ur_ask req (map fst (entities (ur_out req) zs)) = None).
  assert (GB : forall S Er A B (m : M S Er A) (k : A -> M S Er B) P s,
     np m P -> (forall x s', P x -> fst (k x s') = Panic -> G) -> fst (bind m k s) = Panic -> G).
  { intros S Er A B m k P s N K X. unfold bind in X. specialize (N s).
    destruct (m s) as [[x|e| |] s']; cbn in N, X; try discriminate; try contradiction. eapply K; eauto. }
  unfold unpack_execute_bs. apply (GB _ _ _ _ _ _ a_file); [apply np_map_err, np_zoom, np_temp|].
  intros f a1 (h0 & ->). apply (GB _ _ _ _ _ _ any).
  { intros a2. unfold run_world. destruct (decrypt_execute_bs E bs _ _ _) as [o w] eqn:D.
    apply decrypt_no_panic in D; [|exact HE]. destruct D as [NP _]. destruct o; try congruence; exact I. }
  intros h1 a2 _. apply (GB _ _ _ _ _ _ any); [apply np_map_err, np_zoom, np_len|].
  intros cap a3 _ X. unfold bind in X.
  assert (UA : forall s, fst (unpack_archive Z sched req h1 s) = Panic -> G).
  { intros s Y. unfold unpack_archive in Y.
    pose proof (np_handle (ow_dev dev_rewind) any h1 s (np_zoom _ _ _ _ np_rewind)) as RW.
    destruct (run_handle (ow_dev dev_rewind) h1 s) as [[[u|e| |] h2] s1]; cbn in RW, Y; try discriminate; try contradiction.
    destruct (z_decode Z (s_data s1 (h_ino h1))) as [zs|] eqn:ZD; [|discriminate].
    destruct (ur_ask req (map fst (entities (ur_out req) zs))) as [ans|] eqn:ASK; [|eexists; exists zs; split; [exact ZD|exact ASK]].
    exfalso. revert Y. apply (okp_panic any).
    assert (N : forall m : M sys unpack_error handle, np m any -> okp any (fst (m s1))) by (intros m Nm; apply Nm).
    apply N. apply np_bind with (P := Forall (rnp any)).
    - apply np_threads. unfold mkdir_threads. apply Forall_forall. intros t IN. apply in_map_iff in IN.
      destruct IN as (q & <- & _). apply rnp_map_err, rnp_mkdirs.
    - intros ts F. apply np_bind with (P := any); [apply np_lift, rnp_join; exact F|intros _ _].
      apply np_bind with (P := any); [|intros _ _; apply np_ret; exact I].
      generalize (filter (fun e => negb (ent_is_dir e)) (accepted (entities (ur_out req) zs) ans)) as l.
      induction l as [|e l IH]; [apply np_ret; exact I|].
      apply np_bind with (P := any); [apply np_extract|intros _ _; exact IH]. }
  unfold on_sys, zoom in X. specialize (UA (fst a3)).
  destruct (unpack_archive Z sched req h1 (fst a3)) as [[h2|e| |] s4]; cbn [fst] in UA; try discriminate; auto.
  exfalso. pose proof (np_map_err UnStorage _ any (np_wipe h2 cap 1) s4) as W. cbn [fst] in X.
  destruct (map_err UnStorage (wipe_temp h2 cap 1) s4) as [o5 s5]. cbn in X, W. subst o5. exact W.
Qed.

(** ** Commands *)

Lemma np_on_fs : forall {E A} (m : M sys E A) Q, np m Q -> np (on_fs m) Q.
Proof. intros E A m Q H c. rewrite on_fs_run. apply H. Qed.
Lemma np_on_a : forall {E A} (m : M asys E A) Q, np m Q -> np (on_a m) Q.
Proof. intros E A m Q H c. rewrite on_a_run. apply H. Qed.
Lemma np_safe : forall {A} (m : M cli cli_error A), safe m -> np m any.
Proof. intros A m H c. apply okp_any. destruct (m c) as [o c'] eqn:E. apply (H _ _ _ E). Qed.

Lemma np_secure_erase : forall V input passes force, np (secure_erase V input passes force) any.
Proof.
  intros V input passes force. unfold secure_erase.
  apply np_bind with (P := any); [apply np_safe, safe_read_file|intros f _].
  destruct (entry_is_dir f).
  - apply np_bind with (P := any).
    + intros c. apply okp_any. destruct (get_answer erase_dir_prompt false force c) as [r c1] eqn:G.
      destruct (get_answer_any _ _ _ _ _ _ G) as (_ & _ & [(b & ->)| ->]); discriminate.
    + intros [|] _; [|apply np_err]. apply np_on_fs, np_map_err, np_erase_dir.
  - apply np_on_fs, np_map_err. intros s. apply rnp_run, rnp_erase.
Qed.

Lemma np_each : forall {A B} (f : A -> M cli cli_error B) l, (forall x, np (f x) any) -> np (each f l) any.
Proof.
  intros A B f l H. induction l as [|x l IH]; [apply np_ret; exact I|].
  apply np_bind with (P := any); [apply H|intros y _].
  apply np_bind with (P := any); [exact IH|intros ys _; apply np_ret; exact I].
Qed.
Lemma np_each_ : forall {A} (f : A -> M cli cli_error unit) l, (forall x, np (f x) any) -> np (each_ f l) any.
Proof.
  intros A f l H. induction l as [|x l IH]; [apply np_ret; exact I|].
  apply np_bind with (P := any); [apply H|intros _ _; exact IH].
Qed.

Lemma np_pack_cli : forall V inputs output p pp a, env_ok (ce_E V) -> alias_calm V ->
  (forall n, cp_key p = Generate n -> generate_passphrase (ce_words V) (ce_draw V) n <> Panic) ->
  np (pack_cli V inputs output p pp a) any.
Proof.
  intros V inputs output p pp a HE AC G. unfold pack_cli.
  destruct (existsb (fun f => String.eqb f output) inputs); [apply np_err|].
  apply np_bind with (P := any).
  { intros c. destruct (existsb _ inputs); exact I. }
  intros _ _. apply np_bind with (P := any); [apply np_safe, safe_check|intros _ _].
  apply np_bind with (P := any); [apply np_each; intros f; apply np_safe, safe_read_file|intros fis _].
  apply np_bind with (P := any); [apply np_safe, safe_secret; exact G|intros raw _].
  apply np_bind with (P := any); [apply np_safe, safe_create|intros fo _].
  apply np_bind with (P := any); [apply np_safe, safe_open_header|intros fh _].
  apply np_bind with (P := any).
  { apply np_each. intros f. destruct (entry_is_dir f); [|apply np_ret; exact I].
    apply np_on_fs, np_map_err, np_read_dir. }
  intros lists _. apply np_bind with (P := any); [apply np_safe, safe_handle|intros ho _].
  apply np_bind with (P := any).
  { apply np_on_a. destruct (same_opt ho (ok_handle fh)).
    - intros b. apply okp_any. destruct (alias V [h_ino ho] b) as [o1 a1] eqn:AE. eapply alias_safe; eauto.
    - apply np_map_err, np_pack; [exact HE|apply Nat.ltb_lt; reflexivity|discriminate]. }
  intros _ _. apply np_bind with (P := any); [apply np_safe, safe_flush_opt|intros _ _].
  apply np_bind with (P := any); [apply np_safe, safe_flush|intros _ _].
  apply np_bind with (P := any).
  { destruct (cp_hash p); [apply np_safe, safe_hash_files|apply np_ret; exact I]. }
  intros _ _. destruct (pp_erase pp); [|apply np_ret; exact I].
  apply np_each_. intros f. apply np_secure_erase.
Qed.

Theorem commands_no_panic : forall V cmd g c c',
  env_ok (ce_E V) -> alias_calm V -> In cmd [CmdErase; CmdHash; CmdPack] ->
  g "input"%string <> [] -> (cmd = CmdPack -> g "output"%string <> []) ->
  run_command V cmd g c = (Panic, c') ->
  exists n, key_source V cmd g (Generate n)
    /\ generate_passphrase (ce_words V) (ce_draw V) n = Panic.
Proof.
  intros V cmd g c c' HE AC IC GI GO H.
  destruct IC as [<-|[<-|[<-|[]]]].
  - destruct (g "input"%string) as [|input r] eqn:GIN; [contradiction|].
    destruct (erase_cmd_run V g c input) as [n R]; [exists r; exact GIN|]. rewrite R in H.
    pose proof (np_secure_erase V input (passes_of (g "passes"%string))
      (match g "force"%string with [] => Prompt | _ => Force end) (printed n c)) as X. rewrite H in X. destruct X.
  - destruct (hash_prints V g c _ _ GI H) as (_ & NP & _). congruence.
  - destruct (g "output"%string) as [|output r] eqn:GOUT; [destruct (GO eq_refl eq_refl)|].
    destruct (pack_cmd_run V g c (g "input"%string) output GI eq_refl) as (p & pp & n & PO & _ & _ & R); [exists r; exact GOUT|].
    rewrite R in H.
    assert (X : (exists m, cp_key p = Generate m /\ generate_passphrase (ce_words V) (ce_draw V) m = Panic)
      \/ forall m, cp_key p = Generate m -> generate_passphrase (ce_words V) (ce_draw V) m <> Panic).
    { destruct (cp_key p) as [q| |m|]; try (right; discriminate).
      destruct (generate_passphrase (ce_words V) (ce_draw V) m) eqn:GP; [| |left; eauto|];
        right; intros m' E; injection E as <-; congruence. }
    destruct X as [(m & K & GP)|G].
    + exists m. split; [rewrite <- K; apply PO|exact GP].
    + pose proof (np_pack_cli V (g "input"%string) output p pp (algorithm_asked g) HE AC G (printed n c)) as X.
      rewrite H in X. destruct X.
Qed.

Theorem unpack_cli_panics : forall V input output verbose p c c', env_ok (ce_E V) ->
  unpack_cli V input output verbose p c = (Panic, c') ->
  (exists n, cp_key p = Generate n /\ generate_passphrase (ce_words V) (ce_draw V) n = Panic)
  \/ exists s1 l zs, let paths := map fst (entities (parse_path output) zs) in
       with_temp (disk c) s1 /\ z_decode (ce_Z V) l = Some zs
       /\ (cp_force p = Force -> exists q, In q paths /\ nameless q)
       /\ (cp_force p = Prompt -> forall ls, lines (stdin_left (cp_key p) c) ls -> unanswered s1 ls paths).
Proof.
  intros V input output verbose p c c' HE H.
  destruct (unpack_cli_any _ _ _ _ _ _ _ _ H) as [(_ & _ & _ & _ & X)|(c1 & hi & hh & raw & r & a2 & RD & UX & _ & _ & NK & OK & _)].
  { left. exact (X eq_refl). }
  assert (RP : r = Panic).
  { destruct r as [[]|e| |]; [destruct (OK eq_refl) as [Y|(e & Y & _)]; discriminate| | reflexivity|];
      destruct NK as [Y _]; discriminate. }
  subst r. destruct (unpack_panic _ _ _ _ _ _ _ _ HE UX) as (l & zs & ZD & ASK). cbn [ur_ask ur_out] in ASK.
  right. exists (snd (create_temp_file (ce_pick V) (disk c1))), l, zs. cbv zeta.
  split; [eapply with_temp_disk; [exact (rd_disk _ _ _ _ _ _ _ _ RD)|apply temp_with]|]. split; [exact ZD|].
  unfold ask_user in ASK. fold (disk c1) in ASK.
  destruct (zip_questions _ (cp_force p) verbose (map fst (entities (parse_path output) zs)) c1) as [zo c2] eqn:ZQ.
  destruct (zip_questions_any _ _ _ _ _ _ _ ZQ) as (A & B & C). cbn [fst] in ASK.
  assert (zo = Panic) by (destruct A as [->|(bs & -> & _)]; [reflexivity|discriminate]). subst zo.
  split.
  - intros F. destruct (B F) as [[_ X]|X]; [exact X|discriminate].
  - intros F ls LS. rewrite <- (rd_stdin _ _ _ _ _ _ _ _ RD) in LS. destruct (C F ls LS) as [_ D]. exact (D eq_refl).
Qed.
