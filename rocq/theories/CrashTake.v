(** Erasing only takes away: what is there at the end has been there all the time. *)
From Coq Require Import List Arith NArith ZArith String Lia Bool.
From Verif Require Import Bytes Outcome IO Primitives Overwrite Crypto EncDec FS Erase Archive Cli.
From Verif Require Import IOFacts FSSpec FSFacts EraseProofs EraseDirProofs WorldFrames CliSpec CliKeys CliRuns CliCommands CrashSpec CrashLog.
Import ListNotations.
Local Open Scope nat_scope.
Local Open Scope list_scope.

Definition taking (e : fsev) : Prop :=
  match e with FTrunc _ | FUnlink _ | FRmTree _ => True | _ => False end.
(** Nothing but taking away; what is empty stays empty. *)
Definition takes (s s' : sys) : Prop :=
  (exists es, added s s' es /\ Forall taking es) /\ forall i, s_data s i = [] -> s_data s' i = [].
Lemma takes_refl : forall s, takes s s.
Proof. intros s. split; [|auto]. exists []. split; [symmetry; apply app_nil_r|constructor]. Qed.
Lemma takes_trans : forall a b c, takes a b -> takes b c -> takes a c.
Proof.
  intros a b c [(x & X & FX) D1] [(y & Y & FY) D2]. split; [|auto]. exists (x ++ y).
  split; [unfold added in *; rewrite Y, X, app_assoc; reflexivity|apply Forall_app; auto].
Qed.
Lemma takes_disk : forall s s', same_disk s s' -> takes s s'.
Proof.
  intros s s' (_ & D & _ & _ & _ & L). split; [|intros i; rewrite D; auto].
  exists []. split; [unfold added; rewrite L; symmetry; apply app_nil_r|constructor].
Qed.
Lemma takes_then : forall s s1 s', same_disk s s1 -> takes s1 s' -> takes s s'.
Proof. intros s s1 s' D. apply takes_trans, takes_disk, D. Qed.
Lemma takes_trunc : forall i s, takes s (with_data i [] [FTrunc i] s).
Proof.
  intros i s. split.
  - exists [FTrunc i]. split; [reflexivity|repeat constructor].
  - intros j D. cbn. unfold set_data. destruct (j =? i); [reflexivity|exact D].
Qed.
Lemma takes_nodes : forall t e s, taking e -> takes s (with_nodes t e s).
Proof. intros t e s T. split; [|auto]. exists [e]. split; [reflexivity|repeat constructor; exact T]. Qed.

Lemma k_unlink : forall p, always takes (unlink p).
Proof.
  intros p s o s' U. apply unlink_any in U.
  destruct U as [(_ & D & _)|(q & s1 & _ & _ & _ & D & _ & _ & _ & ->)]; [apply takes_disk, D|].
  eapply takes_then; [exact D|]. apply takes_nodes. exact I.
Qed.
Lemma k_remove_dir_all : forall e, always takes (remove_dir_all e).
Proof.
  intros [h|p] s o s' H; cbn [remove_dir_all] in H; [inversion H; apply takes_refl|].
  apply call_or_inv in H as (s1 & D & _ & _ & _ & [(_ & -> & _)|H]); [apply takes_disk, D|].
  eapply takes_then; [exact D|]. destruct (resolve false s1 p) as [[|x q]|]; try (inversion H; apply takes_refl).
  destruct (lookup (s_nodes s1) (x :: q)) as [[|j|t]|]; inversion H; try apply takes_refl; apply takes_nodes; exact I.
Qed.

(** ** Threads *)

Definition empty_in (K : list nat) (s : sys) : Prop := forall i, In i K -> s_data s i = [].
Lemma empty_more : forall K s s', empty_in K s -> takes s s' -> empty_in K s'.
Proof. intros K s s' H [_ D] i I. apply D, H, I. Qed.
(** Each step takes away only, if the files [K] are empty. *)
Fixpoint thief {E A} (K : list nat) (r : R E A) : Prop :=
  match r with
  | Done _ => True
  | Step X m k => forall s, empty_in K s ->
      takes s (snd (m s)) /\ exists K', empty_in K' (snd (m s)) /\ thief K' (k (fst (m s)))
  end.
Lemma thief_tick : forall {E A} (r : R E A) K s, thief K r -> empty_in K s ->
  takes s (snd (tick r s)) /\ exists K', empty_in K' (snd (tick r s)) /\ thief K' (fst (tick r s)).
Proof.
  intros E A [o|X m k] K s H EM; cbn.
  - split; [apply takes_refl|]. exists K. auto.
  - destruct (H s EM) as (T & K' & E' & G). destruct (m s) as [x s']. cbn in *. eauto.
Qed.
Lemma thief_step : forall {E A} (ts : list (R E A)) i s,
  Forall (fun r => exists K, empty_in K s /\ thief K r) ts ->
  takes s (snd (step_nth i ts s))
  /\ Forall (fun r => exists K, empty_in K (snd (step_nth i ts s)) /\ thief K r) (fst (step_nth i ts s)).
Proof.
  intros E A ts. induction ts as [|t ts IH]; intros i s F; cbn [step_nth].
  - destruct i; (split; [apply takes_refl|constructor]).
  - inversion F as [|? ? (K & EK & TK) F2]; subst. destruct i as [|i]; cbn [step_nth].
    + destruct (thief_tick t K s TK EK) as (T & K' & E' & G). destruct (tick t s) as [t' s1]. cbn in *.
      split; [exact T|]. constructor; [eauto|]. eapply Forall_impl; [|exact F2].
      intros r (K2 & A2 & B2). exists K2. split; [eapply empty_more; eauto|exact B2].
    + destruct (IH i s F2) as [T G]. destruct (step_nth i ts s) as [ts2 s1]. cbn in *. split; [exact T|].
      constructor; [|exact G]. exists K. split; [eapply empty_more; eauto|exact TK].
Qed.
Lemma thief_sched : forall {E A} sched (ts : list (R E A)) s,
  Forall (fun r => exists K, empty_in K s /\ thief K r) ts -> takes s (snd (run_sched sched ts s)).
Proof.
  intros E A sched. induction sched as [|i sched IH]; intros ts s F; cbn [run_sched]; [apply takes_refl|].
  destruct (thief_step ts i s F) as [T G]. destruct (step_nth i ts s) as [ts1 s1]. cbn in *.
  eapply takes_trans; [exact T|]. apply IH, G.
Qed.
Lemma thief_run : forall {E A} (r : R E A) K s, thief K r -> empty_in K s -> takes s (snd (run r s)).
Proof.
  intros E A r. induction r as [o|X m k IH]; intros K s H EM; cbn [run]; [apply takes_refl|].
  destruct (H s EM) as (T & K' & E' & G). destruct (m s) as [x s']. cbn in *.
  eapply takes_trans; [exact T|]. eapply IH; eauto.
Qed.

Lemma no_empties : forall s, empty_in [] s. Proof. intros s i []. Qed.
Lemma thief_always : forall {E A B} K (m : M sys E A) (k : outcome E A -> R E B), always takes m ->
  (forall o, thief [] (k o)) -> thief K (Step _ m k).
Proof.
  intros E A B K m k H G s EM. destruct (m s) as [o s'] eqn:X. cbn. split; [exact (H _ _ _ X)|].
  exists []. split; [apply no_empties|apply G].
Qed.

Lemma k_truncate : forall h, always takes (truncate h).
Proof.
  intros h s o s' H. unfold truncate in H. apply call_or_inv in H as (s1 & D & _ & _ & _ & [(_ & -> & _)|H]); [apply takes_disk, D|].
  inversion H. eapply takes_then; [exact D|apply takes_trunc].
Qed.
Lemma k_flush : always takes flush.
Proof.
  intros s o s' H. unfold flush in H. apply call_or_inv in H as (s1 & D & _ & _ & _ & [(_ & -> & _)|H]); [apply takes_disk, D|].
  inversion H. subst. apply takes_disk, D.
Qed.

Lemma thief_map_err : forall {E E' A} (f : E -> E') (r : R E A) K, thief K r -> thief K (rmap_err f r).
Proof.
  intros E E' A f r. induction r as [[a|e| |]|X m k IH]; intros K H; try exact I. cbn [rmap_err thief].
  intros s EM. destruct (H s EM) as (T & K' & E1 & G). split; [exact T|]. exists K'. auto.
Qed.
Lemma thief_remove_file : forall e K, thief K (remove_file e).
Proof.
  intros [h|p] K; unfold remove_file; cbn [rbind atom act rret rerr entry_path].
  - apply thief_always; [apply k_truncate|]. intros [[]|e| |]; try exact I. cbn [rbind].
    apply thief_always; [apply k_flush|]. intros [[]|e| |]; try exact I. cbn [rbind].
    apply thief_always; [apply k_unlink|]. intros [[]|e| |]; exact I.
  - apply thief_always; [apply k_unlink|]. intros [[]|e| |]; exact I.
Qed.
Lemma thief_erase : forall p passes K, thief K (erase_execute p passes).
Proof.
  intros p passes K. unfold erase_execute. cbn [rbind rmap_err atom thief]. intros s _.
  destruct (write_file p s) as [o s'] eqn:W. cbn [fst snd]. apply write_file_any in W.
  destruct W as [(-> & D & _)|(i & plan & s1 & s2 & _ & -> & D1 & -> & D2 & _)].
  { split; [apply takes_disk, D|]. exists []. split; [apply no_empties|exact I]. }
  assert (EM : empty_in [i] s').
  { intros j [<-|[]]. destruct D2 as (_ & DD & _). rewrite DD. cbn. unfold set_data. rewrite Nat.eqb_refl. reflexivity. }
  split; [eapply takes_then; [exact D1|]; eapply takes_trans; [apply takes_trunc|apply takes_disk, D2]|].
  exists [i]. split; [exact EM|]. cbn [rbind rmap_err thief file_len h_ino]. clear.
  intros s EM. destruct (call_or _ _ s) as [o s'] eqn:W. cbn [fst snd]. apply call_or_inv in W.
  destruct W as (s1 & D & _ & _ & _ & W).
  assert (X : same_disk s s' /\ (o = Err StFileLen \/ o = Ok 0)).
  { destruct W as [(-> & -> & _)|W]; [auto|]. injection W as <- <-. split; [exact D|]. right.
    destruct D as (_ & DD & _). rewrite DD, (EM i (or_introl eq_refl)). reflexivity. }
  destruct X as [D' [-> | ->]]; (split; [apply takes_disk, D'|]).
  { exists []. split; [apply no_empties|exact I]. }
  exists [i]. split; [eapply empty_more; [exact EM|apply takes_disk, D']|]. cbn [rbind rmap_err overwrite_file act thief].
  clear. intros s EM. destruct (run_handle _ _ s) as [r s'] eqn:RH. cbn [fst snd].
  destruct (overwrite_zero _ _ _ _ _ RH) as (_ & _ & _ & DD & _ & _ & _ & L & _). split.
  { split; [|intros j; rewrite DD; auto]. exists []. split; [unfold added; rewrite L; symmetry; apply app_nil_r|constructor]. }
  exists []. split; [apply no_empties|]. destruct r as [[[]|x| |] h']; cbn [rbind rret rerr]; try exact I.
  apply thief_map_err, thief_remove_file.
Qed.

Lemma k_erase_dir : forall sched e passes, always takes (erase_dir_execute sched e passes).
Proof.
  intros sched e passes. unfold erase_dir_execute.
  destruct (negb (entry_is_dir e)); [apply (always_err takes takes_refl)|].
  apply (always_bind takes takes_trans).
  { apply (always_map_err takes). intros s o s' H. destruct e as [h|p]; [inversion H; apply takes_refl|].
    destruct (read_dir_any _ _ _ _ H) as (D & _). apply takes_disk, D. }
  intros files. apply (always_bind takes takes_trans).
  { intros s o s' H. destruct (run_sched sched (erase_threads passes files) s) as [ts s1] eqn:RS. inversion H. subst.
    replace s' with (snd (run_sched sched (erase_threads passes files) s)) by (rewrite RS; reflexivity).
    apply thief_sched. unfold erase_threads. apply Forall_forall. intros r IR.
    apply in_map_iff in IR as (f & <- & _). exists []. split; [apply no_empties|]. apply thief_map_err, thief_erase. }
  intros ts. apply (always_bind takes takes_trans); [apply (always_lift takes takes_refl)|intros _].
  apply (always_map_err takes), k_remove_dir_all.
Qed.

Definition kc (c c' : cli) : Prop := takes (disk c) (disk c').
Lemma kc_refl : forall c, kc c c. Proof. intros c. apply takes_refl. Qed.
Lemma kc_trans : forall a b c, kc a b -> kc b c -> kc a c. Proof. intros a b c. apply takes_trans. Qed.
Lemma kc_on_fs : forall {X A} (m : M sys X A), always takes m -> always kc (on_fs m).
Proof.
  intros X A m H c o c' E. rewrite on_fs_run in E. destruct (m (disk c)) as [o1 s1] eqn:R. inversion E. subst.
  unfold kc. rewrite set_disk_disk. exact (H _ _ _ R).
Qed.
Lemma kc_secure_erase : forall V input passes force, always kc (secure_erase V input passes force).
Proof.
  intros V input passes force. unfold secure_erase.
  apply (always_bind kc kc_trans).
  { apply kc_on_fs, (always_map_err takes). intros s o s' H. destruct (read_file_any _ _ _ _ H) as (D & _). apply takes_disk, D. }
  intros f. destruct (entry_is_dir f).
  - apply (always_bind kc kc_trans).
    + intros c o c' H. destruct (get_answer_any _ _ _ _ _ _ H) as (CA & _). unfold kc, disk. rewrite CA. apply takes_refl.
    + intros [|]; [|apply (always_err kc kc_refl)]. apply kc_on_fs, (always_map_err takes), k_erase_dir.
  - apply kc_on_fs, (always_map_err takes). intros s o s' H.
    replace s' with (snd (run (erase_execute (os_path input) passes) s)) by (rewrite H; reflexivity).
    eapply thief_run; [apply thief_erase|apply no_empties].
Qed.
Lemma kc_each : forall {A} (f : A -> M cli cli_error unit) l, (forall x, always kc (f x)) -> always kc (each_ f l).
Proof.
  intros A f l H. induction l as [|x l IH]; cbn [each_]; [apply (always_ret kc kc_refl)|].
  apply (always_bind kc kc_trans); [apply H|intros _; exact IH].
Qed.

(** ** What was there *)

Lemma take_names : forall es s r n, Forall taking es -> lookup (s_nodes (redo es s)) r = Some n -> lookup (s_nodes s) r = Some n.
Proof.
  assert (FI : forall (f : cpath * node -> bool) t r n, lookup (filter f t) r = Some n -> (forall x y, cpath_eqb x y = true -> forall m m', f (x, m) = f (y, m')) -> lookup t r = Some n).
  { intros f t r n L FE. destruct r as [|x r]; [exact L|]. cbn [lookup] in *. revert L.
    induction t as [|[q m] t IH]; [auto|]. cbn [filter]. destruct (f (q, m)) eqn:FQ; cbn [find_node].
    { destruct (cpath_eqb (x :: r) q); auto. }
    intros L. specialize (IH L). destruct (cpath_eqb (x :: r) q) eqn:Q; [|exact IH]. exfalso. clear IH.
    revert L. clear - FQ Q FE. induction t as [|[q' m'] t IH]; [discriminate|]. cbn [filter].
    destruct (f (q', m')) eqn:F'; [|exact IH]. cbn [find_node]. destruct (cpath_eqb (x :: r) q') eqn:Q'; [|exact IH].
    intros _. apply cpath_eqb_eq in Q. apply cpath_eqb_eq in Q'.
    assert (EQ : cpath_eqb q' q = true) by (apply cpath_eqb_eq; congruence).
    rewrite (FE q' q EQ m' m) in F'. congruence. }
  induction es as [|e es IH]; intros s r n F L; [exact L|]. inversion F as [|? ? F1 F2]; subst.
  apply IH in L; [|exact F2]. destruct e; cbn in F1; try contradiction; cbn [redo1 s_nodes names_after] in L.
  - exact L.
  - eapply FI; [exact L|]. intros x y E m m'. apply cpath_eqb_eq in E. subst. reflexivity.
  - eapply FI; [exact L|]. intros x y E m m'. apply cpath_eqb_eq in E. subst. reflexivity.
Qed.
Lemma take_data : forall es s j, Forall taking es -> s_data (redo es s) j = s_data s j \/ s_data (redo es s) j = [].
Proof.
  induction es as [|e es IH]; intros s j F; [left; reflexivity|]. inversion F as [|? ? F1 F2]; subst. cbn [redo fold_left].
  destruct (IH (redo1 s e) j F2) as [E|E]; [|right; exact E].
  destruct e; cbn in F1; try contradiction; unfold redo in E; rewrite E; cbn; auto. destruct (j =? i); auto.
Qed.
Lemma take_between : forall x y s r j l, Forall taking x -> Forall taking y ->
  at_place s r = Some (SFile j l) -> at_place (redo (x ++ y) s) r = Some (SFile j l) ->
  at_place (redo x s) r = Some (SFile j l).
Proof.
  intros x y s r j l FX FY A B. rewrite redo_app in B. unfold at_place in *.
  destruct (lookup (s_nodes (redo y (redo x s))) r) as [[|j'|t]|] eqn:L; try discriminate. injection B as -> B.
  rewrite (take_names _ _ _ _ FY L). do 2 f_equal.
  pose proof (take_names _ _ _ _ FX (take_names _ _ _ _ FY L)) as L0. rewrite L0 in A. injection A as A.
  destruct (take_data x s j FX) as [E|E]; [congruence|].
  destruct (take_data y (redo x s) j FY) as [E2|E2]; congruence.
Qed.
