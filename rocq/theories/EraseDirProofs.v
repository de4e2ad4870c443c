(** Proofs about erasing directories with one thread per file. *)
From Coq Require Import List Arith NArith ZArith Ascii String Bool Lia.
From Verif Require Import Bytes Outcome IO Primitives Overwrite FS Erase.
From Verif Require Import BytesFacts IOFacts IOSpec ToolSpec ToolProofs FSSpec FSFacts EraseProofs.
Import ListNotations.
Local Open Scope nat_scope.
Local Open Scope list_scope.

(** ** Threads and invariants *)

(** Every step from a state with [I] leads to a state with [I], whatever other
    threads do in between as long as they preserve [I]; results satisfy [P];
    no panic. *)
Inductive keeps {E A} (I : sys -> Prop) (P : A -> Prop) : R E A -> Prop :=
| keeps_ok : forall a, P a -> keeps I P (Done (Ok a))
| keeps_err : forall e, keeps I P (Done (Err e))
| keeps_step : forall X m k,
    (forall s x s', I s -> m s = (x, s') -> I s') ->
    (forall s x s', I s -> m s = (x, s') -> keeps I P (k x)) ->
    keeps I P (Step X m k).

Lemma keeps_bind : forall {E A B} I P Q (r : R E A) (k : A -> R E B),
  keeps I P r -> (forall a, P a -> keeps I Q (k a)) -> keeps I Q (rbind r k).
Proof.
  intros E A B I P Q r k H K. induction H; cbn; try constructor; eauto.
Qed.

Lemma keeps_map_err : forall {E E' A} I P (f : E -> E') (r : R E A),
  keeps I P r -> keeps I P (rmap_err f r).
Proof.
  intros E E' A I P f r H. induction H; cbn; try constructor; eauto.
Qed.

Lemma keeps_atom : forall {E A} (I : sys -> Prop) (P : A -> Prop) (m : M sys E A),
  (forall s o s', I s -> m s = (o, s') -> I s' /\ match o with Ok a => P a | Err _ => True | _ => False end) ->
  keeps I P (atom m).
Proof.
  intros E A I P m H. constructor; intros s o s' IS M;
    destruct (H s o s' IS M) as [H1 H2]; [exact H1|].
  destruct o; try contradiction; constructor; auto.
Qed.

Lemma keeps_act : forall {E X} (I : sys -> Prop) (P : X -> Prop) (m : sys -> X * sys),
  (forall s x s', I s -> m s = (x, s') -> I s' /\ P x) -> keeps I P (@act E X m).
Proof.
  intros E X I P m H. constructor; intros s x s' IS M;
    destruct (H s x s' IS M) as [H1 H2]; [exact H1|]. constructor. exact H2.
Qed.

Lemma tick_keeps : forall {E A} I P (r : R E A) s r' s',
  keeps I P r -> I s -> tick r s = (r', s') -> I s' /\ keeps I P r'.
Proof.
  intros E A I P r s r' s' K IS T.
  destruct K as [a p|e|X m k H K]; cbn in T;
    try (injection T as <- <-; split; [exact IS|constructor; assumption]).
  destruct (m s) as [x s1] eqn:M. injection T as <- <-. eauto.
Qed.

Lemma step_nth_keeps : forall {E A} I P (ts : list (R E A)) n s ts' s',
  Forall (keeps I P) ts -> I s -> step_nth n ts s = (ts', s') ->
  I s' /\ Forall (keeps I P) ts'.
Proof.
  intros E A I P. induction ts as [|t ts IH]; intros n s ts' s' F IS H; cbn [step_nth] in H.
  - destruct n; injection H as <- <-; auto.
  - pose proof (Forall_inv F) as F1. pose proof (Forall_inv_tail F) as F2. destruct n as [|n]; cbn [step_nth] in H.
    + destruct (tick t s) as [t1 s1] eqn:T. injection H as <- <-.
      destruct (tick_keeps I P _ _ _ _ F1 IS T). auto.
    + destruct (step_nth n ts s) as [ts1 s1] eqn:T. injection H as <- <-.
      destruct (IH _ _ _ _ F2 IS T). auto.
Qed.

Lemma run_sched_keeps : forall {E A} I P sched (ts : list (R E A)) s ts' s',
  Forall (keeps I P) ts -> I s -> run_sched sched ts s = (ts', s') ->
  I s' /\ Forall (keeps I P) ts'.
Proof.
  intros E A I P. induction sched as [|n sched IH]; intros ts s ts' s' F IS H; cbn [run_sched] in H.
  - injection H as <- <-. auto.
  - destruct (step_nth n ts s) as [ts1 s1] eqn:T.
    destruct (step_nth_keeps I P _ _ _ _ _ F IS T). eapply IH; eauto.
Qed.

Lemma run_keeps : forall {E A} I P (r : R E A) s o s',
  keeps I P r -> I s -> run r s = (o, s') -> I s' /\ forall a, o = Ok a -> P a.
Proof.
  intros E A I P r s o s' K. revert s. induction K; intros s IS RU; cbn in RU;
    try (injection RU as <- <-; split; [exact IS|congruence]).
  destruct (m s) as [x s1] eqn:M. eauto.
Qed.

(** ** Listing and opening *)

Definition opened (s : sys) (p : path) (e : entry) : Prop :=
  entry_path e = p /\ entry_is_dir e = is_dir s p
  /\ forall h, e = EFile h -> stat s p = Some (NFile (h_ino h)).

Lemma opened_disk : forall s s' p e, same_disk s s' -> opened s' p e -> opened s p e.
Proof.
  intros s s' p e D [H1 [H2 H3]]. unfold opened, is_dir in *.
  rewrite (stat_disk _ _ p D) in *. auto.
Qed.

Lemma read_file_any : forall p s o s', read_file p s = (o, s') ->
  same_disk s s'
  /\ (forall e, o = Ok e -> opened s p e)
  /\ o <> Panic /\ o <> Diverge.
Proof.
  intros p s o s' H. unfold read_file in H. destruct (is_dir s p) eqn:ID.
  - injection H as <- <-. split; [apply same_disk_refl|]. split; [|split; discriminate].
    intros e X. injection X as <-. repeat split; auto. discriminate.
  - apply call_or_inv in H. destruct H as [s1 [D [R [PL [F [[-> [-> NF]]|H]]]]]].
    + split; [exact D|]. repeat split; discriminate.
    + destruct (stat s1 p) as [[|i|t]|] eqn:ST;
        try (injection H as <- <-; split; [exact D|]; repeat split; discriminate).
      unfold new_handle in H. destruct (next_plan s1) as [plan s2] eqn:NP.
      apply next_plan_spec in NP. injection H as <- <-.
      split; [eapply same_disk_trans; [exact D|apply NP]|].
      split; [|split; discriminate]. intros e X. injection X as <-.
      repeat split; auto. intros h X. injection X as <-.
      rewrite <- (stat_disk _ _ p D). exact ST.
Qed.

Lemma read_all_any : forall ps s o s', read_all ps s = (o, s') ->
  same_disk s s'
  /\ (forall es, o = Ok es -> Forall2 (opened s) ps es)
  /\ o <> Panic /\ o <> Diverge.
Proof.
  induction ps as [|p ps IH]; intros s o s' H; cbn [read_all] in H.
  - injection H as <- <-. split; [apply same_disk_refl|]. split; [|split; discriminate].
    intros es X. injection X as <-. constructor.
  - apply bind_inv in H. destruct H as [[e [s1 [H1 H2]]]|[[e [H1 ->]]|[[H1 ->]|[H1 ->]]]].
    + apply read_file_any in H1. destruct H1 as [D [P _]].
      apply bind_inv in H2. destruct H2 as [[es [s2 [H2 H3]]]|[[x [H2 ->]]|[[H2 ->]|[H2 ->]]]].
      * apply IH in H2. destruct H2 as [D2 [P2 _]]. injection H3 as <- <-.
        split; [eapply same_disk_trans; eassumption|]. split; [|split; discriminate].
        intros es' X. injection X as <-. constructor; [apply P; reflexivity|].
        specialize (P2 es eq_refl). clear - P2 D. induction P2; constructor; auto.
        eapply opened_disk; eassumption.
      * apply IH in H2. destruct H2 as [D2 _].
        split; [eapply same_disk_trans; eassumption|]. repeat split; discriminate.
      * apply IH in H2. destruct H2 as [_ [_ [X _]]]. contradiction.
      * apply IH in H2. destruct H2 as [_ [_ [_ X]]]. contradiction.
    + apply read_file_any in H1. destruct H1 as [D _].
      split; [exact D|]. repeat split; discriminate.
    + apply read_file_any in H1. destruct H1 as [_ [_ [X _]]]. contradiction.
    + apply read_file_any in H1. destruct H1 as [_ [_ [_ X]]]. contradiction.
Qed.

Lemma listing_disk : forall s s' p, same_disk s s' -> listing s' p = listing s p.
Proof.
  intros s s' p D. unfold listing. rewrite (resolve_disk true s s' p D).
  destruct D as [-> _]. reflexivity.
Qed.

Lemma read_dir_any : forall p s o s', read_dir (EDir p) s = (o, s') ->
  same_disk s s'
  /\ (forall es, o = Ok es -> Forall2 (opened s) (listing s p) es)
  /\ o <> Panic /\ o <> Diverge.
Proof.
  intros p s o s' H. unfold read_dir in H. apply call_or_inv in H.
  destruct H as [s1 [D [R [PL [F [[-> [-> NF]]|H]]]]]].
  - split; [exact D|]. repeat split; discriminate.
  - apply read_all_any in H. destruct H as [D2 [P [N1 N2]]].
    split; [eapply same_disk_trans; eassumption|]. split; [|auto].
    intros es X. specialize (P es X). rewrite (listing_disk _ _ p D) in P.
    clear - P D. induction P; constructor; auto. eapply opened_disk; eassumption.
Qed.

(** ** What is touched, whatever happens *)

(** The path of a name below the directory [p]. *)
Definition sub (p : path) (rel : list string) : path :=
  mkPath (p_abs p) (p_comps p ++ map Nm rel).

Lemma sub_nil : forall p, sub p [] = p.
Proof. intros [a c]. unfold sub. cbn. rewrite app_nil_r. reflexivity. Qed.

Lemma listing_in : forall s p q p', resolve true s p = Some q -> In p' (listing s p) ->
  p' = p \/ exists n r, p' = sub p (n :: r) /\ In (q ++ n :: r) (map fst (s_nodes s)).
Proof.
  intros s p q p' R I. unfold listing in I. rewrite R in I. destruct I as [I|I]; [auto|].
  right. apply in_flat_map in I. destruct I as [[k nd] [I1 I2]].
  destruct (strip_prefix q (fst (k, nd))) as [[|n r]|] eqn:S; try contradiction.
  destruct I2 as [<-|[]]. exists n, r. split; [reflexivity|].
  apply strip_prefix_spec in S. cbn in S. rewrite <- S. apply (in_map fst) in I1. exact I1.
Qed.

(** Every proper ancestor of a name in the tree is a directory. *)
Lemma ancestors : forall s b r, tree_ok s -> b <> [] ->
  In (r ++ b) (map fst (s_nodes s)) -> lookup (s_nodes s) r = Some NDir.
Proof.
  intros s b r [_ [NN T]]. revert r. induction b as [|n b IH]; intros r NB I; [contradiction|].
  destruct b as [|m b].
  - apply (T r n I).
  - assert (L : lookup (s_nodes s) (r ++ [n]) = Some NDir).
    { apply IH; [discriminate|]. rewrite <- app_assoc. exact I. }
    apply (T r n). destruct (r ++ [n]) as [|x y] eqn:E.
    + apply app_eq_nil in E. destruct E. discriminate.
    + unfold lookup in L. apply find_in in L. apply (in_map fst) in L. exact L.
Qed.

Lemma key_lookup : forall s r, tree_ok s -> In r (map fst (s_nodes s)) ->
  exists n, lookup (s_nodes s) r = Some n.
Proof.
  intros s r T I. destruct r as [|x r]; [exists NDir; reflexivity|].
  apply in_map_iff in I. destruct I as [[k n] [E I]]. cbn in E. subst k.
  apply (in_find _ _ _ I).
Qed.

Lemma sub_resolve_nofollow : forall s p q n r, tree_ok s -> resolve true s p = Some q ->
  lookup (s_nodes s) q = Some NDir -> In (q ++ n :: r) (map fst (s_nodes s)) ->
  resolve false s (sub p (n :: r)) = Some (q ++ n :: r).
Proof.
  intros s p q n r T R L I. apply resolve_below; auto; [discriminate|].
  intros a b E NA NB. apply (ancestors s b (q ++ a) T NB). rewrite <- app_assoc, <- E. exact I.
Qed.

(** The files a listing reaches. *)
Definition reached (s : sys) (p : path) (i : nat) : Prop :=
  exists rel, stat s (sub p rel) = Some (NFile i).

Definition scope (s0 : sys) (p : path) (q : cpath) (s : sys) : Prop :=
  s_cwd s = s_cwd s0
  /\ (forall r, lookup (s_nodes s) r = lookup (s_nodes s0) r
        \/ (lookup (s_nodes s) r = None /\ lookup (s_nodes s0) r <> Some NDir /\ inside q r))
  /\ (forall i, s_data s i = s_data s0 i \/ reached s0 p i).

Lemma scope_shrunk : forall s0 p q s, scope s0 p q s -> shrunk (s_nodes s0) (s_nodes s).
Proof. intros s0 p q s [_ [H _]] r. destruct (H r) as [E|[E [N _]]]; auto. Qed.

Lemma scope_disk : forall s0 p q s s', same_disk s s' -> scope s0 p q s -> scope s0 p q s'.
Proof.
  intros s0 p q s s' [D1 [D2 [D3 [D4 [D5 D6]]]]] [H1 [H2 H3]].
  unfold scope. rewrite D1, D2, D4. auto.
Qed.

Lemma scope_data : forall s0 p q s i l es, scope s0 p q s -> reached s0 p i ->
  scope s0 p q (with_data i l es s).
Proof.
  intros s0 p q s i l es [H1 [H2 H3]] RE. unfold scope. cbn. repeat split; auto.
  intros j. unfold set_data. destruct (Nat.eqb_spec j i); [subst; auto|apply H3].
Qed.

Lemma scope_stat : forall s0 p q s p' n, scope s0 p q s -> stat s p' = Some n ->
  stat s0 p' = Some n.
Proof.
  intros s0 p q s p' n SC ST. pose proof (scope_shrunk _ _ _ _ SC) as SH.
  destruct SC as [C [L _]].
  unfold stat in *. destruct (resolve true s p') as [r|] eqn:R; [|discriminate].
  rewrite (resolve_shrunk true s0 s p' r SH C R) by congruence.
  destruct (L r) as [E|[E _]]; congruence.
Qed.

Section Scope.
Context (s0 : sys) (p : path) (q : cpath).
Hypothesis (TREE : tree_ok s0) (RP : resolve true s0 p = Some q)
  (DIR : lookup (s_nodes s0) q = Some NDir).

Let I := scope s0 p q.

(** The erase thread of any listed path stays in scope. *)
Lemma erase_keeps : forall p' passes, In p' (listing s0 p) -> p' <> p ->
  keeps I (fun _ => True) (erase_execute p' passes).
Proof.
  intros p' passes IN NP.
  destruct (listing_in _ _ _ _ RP IN) as [X|[n [r [-> IK]]]]; [contradiction|].
  set (p1 := sub p (n :: r)).
  unfold erase_execute.
  apply keeps_bind with (P := fun e => exists h, e = EFile h /\ h_path h = p1
                                         /\ reached s0 p (h_ino h)).
  { apply keeps_map_err, keeps_atom. intros s o s' IS W.
    destruct (write_file_any _ _ _ _ W) as [[-> [D _]]|[i [plan [sa [sb [ST [-> [Da [-> [Db _]]]]]]]]]].
    - split; [apply (scope_disk _ _ _ _ _ D IS)|exact Logic.I].
    - assert (RE : reached s0 p i).
      { exists (n :: r). apply (scope_stat _ _ _ _ _ _ IS ST). }
      split.
      + eapply scope_disk; [exact Db|]. apply scope_data; auto.
        eapply scope_disk; [exact Da|exact IS].
      + exists (mkHandle p1 i 0 plan). auto. }
  intros a [h [-> [HP HR]]].
  apply keeps_bind with (P := fun _ => True).
  { apply keeps_map_err, keeps_atom. intros s o s' IS C. cbn [file_len] in C.
    apply call_or_inv in C. destruct C as [s1 [D [_ [_ [_ [[-> [-> _]]|C]]]]]].
    - split; [apply (scope_disk _ _ _ _ _ D IS)|exact Logic.I].
    - injection C as <- <-. split; [apply (scope_disk _ _ _ _ _ D IS)|exact Logic.I]. }
  intros cap _.
  apply keeps_bind with (P := fun e => exists h', e = EFile h' /\ h_path h' = p1
                                         /\ reached s0 p (h_ino h')).
  { cbn [overwrite_file].
    apply keeps_bind with (P := fun r => fst r <> Panic /\ fst r <> Diverge
                                          /\ h_path (snd r) = p1 /\ reached s0 p (h_ino (snd r))).
    { apply keeps_act. intros s x s' IS OW. unfold run_handle in OW.
      destruct (overwrite_execute cap passes (handle_dev s h, s_rng s)) as [o [d g]] eqn:OX.
      apply overwrite_any in OX. destruct OX as [_ [_ [_ OX]]].
      injection OW as <- <-. split; [|cbn; destruct o; try contradiction; repeat split; auto; discriminate]. unfold with_rng.
      apply (scope_disk s0 p q (put_handle d h s)); [unfold same_disk; cbn; auto 10|].
      apply scope_data; auto. }
    intros [o h'] [N1 [N2 [HP' HR']]]. cbn [fst snd] in *.
    destruct o; try congruence; constructor. eauto. }
  intros e [h' [-> [HP' HR']]]. apply keeps_map_err. unfold remove_file. cbn [entry_path].
  apply keeps_bind with (P := fun _ => True).
  - apply keeps_bind with (P := fun _ => True).
    + apply keeps_atom. intros s o s' IS C. unfold truncate in C.
      apply call_or_inv in C. destruct C as [s1 [D [_ [_ [_ [[-> [-> _]]|C]]]]]].
      * split; [apply (scope_disk _ _ _ _ _ D IS)|exact Logic.I].
      * injection C as <- <-. split; [|exact Logic.I].
        apply scope_data; auto. apply (scope_disk _ _ _ _ _ D IS).
    + intros _ _. apply keeps_atom. intros s o s' IS C. unfold flush in C.
      apply call_or_inv in C. destruct C as [s1 [D [_ [_ [_ [[-> [-> _]]|C]]]]]].
      * split; [apply (scope_disk _ _ _ _ _ D IS)|exact Logic.I].
      * injection C as <- <-. split; [apply (scope_disk _ _ _ _ _ D IS)|exact Logic.I].
  - intros _ _. apply keeps_atom. intros s o s' IS U.
    rewrite HP' in U. apply unlink_any in U.
    destruct U as [[-> [D _]]|[k [s1 [RK [[nd [LK ND]] [-> [D [_ [_ [_ ->]]]]]]]]]];
      [split; [apply (scope_disk _ _ _ _ _ D IS)|exact Logic.I]|].
    split; [|exact Logic.I].
    assert (K : k = q ++ n :: r).
    { pose proof (scope_shrunk _ _ _ _ IS) as SH.
      assert (R0 : resolve false s0 p1 = Some k).
      { apply (resolve_shrunk false s0 s p1 k SH); [apply IS|exact RK|congruence]. }
      unfold p1 in R0. rewrite (sub_resolve_nofollow s0 p q n r TREE RP DIR IK) in R0. congruence. }
    assert (NK : k <> []) by (rewrite K; destruct q; discriminate).
    pose proof (scope_disk _ _ _ _ _ D IS) as [C [L DA]].
    unfold I, scope. cbn [with_nodes s_nodes s_cwd s_data]. repeat split; auto.
    intros x. rewrite lookup_remove by exact NK.
    destruct (cpath_eqb x k) eqn:E; [|apply L].
    apply cpath_eqb_eq in E. subst x. right. split; [reflexivity|]. split.
    + destruct IS as [_ [LS _]]. destruct (LS k) as [E|[E _]]; congruence.
    + exists (n :: r). exact K.
Qed.

Lemma threads_keep : forall s es passes, same_disk s0 s ->
  Forall2 (opened s) (listing s p) es ->
  Forall (keeps I (fun _ => True)) (erase_threads passes es).
Proof.
  intros s es passes D F. rewrite (listing_disk _ _ p D) in F. unfold erase_threads.
  apply Forall_forall. intros t IT. apply in_map_iff in IT. destruct IT as [e [<- IE]].
  apply filter_In in IE. destruct IE as [IE NE].
  assert (X : exists p', In p' (listing s0 p) /\ opened s p' e).
  { clear - F IE. induction F; [contradiction|]. destruct IE as [->|IE].
    - exists x. split; [left; reflexivity|assumption].
    - destruct (IHF IE) as [p' [H1 H2]]. exists p'. split; [right; exact H1|exact H2]. }
  destruct X as [p' [IP [OP [OD _]]]]. rewrite OP.
  apply keeps_map_err, erase_keeps; [exact IP|].
  intros ->. rewrite OD in NE. unfold is_dir in NE. rewrite (stat_disk _ _ p D) in NE.
  unfold stat in NE. rewrite RP, DIR in NE. discriminate.
Qed.

(** Whatever fails and however the threads interleave. *)
Lemma erase_dir_scope : forall sched passes o s',
  erase_dir_execute sched (EDir p) passes s0 = (o, s') ->
  (forall r, at_place s' r <> at_place s0 r ->
     inside q r \/ resolve false s0 p = Some r
     \/ exists i, lookup (s_nodes s0) r = Some (NFile i) /\ reached s0 p i)
  /\ (o = Ok tt -> resolve false s0 p = Some q ->
      forall r, inside q r -> at_place s' r = None)
  /\ o <> Panic.
Proof.
  intros sched passes o s' H. unfold erase_dir_execute in H. cbn [entry_is_dir negb] in H.
  assert (INI : I s0).
  { unfold I, scope. repeat split; auto. }
  assert (PL : forall s, I s -> forall r, at_place s r <> at_place s0 r ->
     inside q r \/ exists i, lookup (s_nodes s0) r = Some (NFile i) /\ reached s0 p i).
  { intros s [C [L DA]] r N. destruct (L r) as [E|[_ [_ IN]]]; [|auto].
    right. destruct (lookup (s_nodes s0) r) as [[|i|t]|] eqn:LR;
      try (exfalso; apply N; unfold at_place; rewrite E, LR; reflexivity).
    exists i. split; [reflexivity|]. destruct (DA i) as [EQ|RE]; [|exact RE].
    exfalso. apply N. unfold at_place. rewrite E, LR, EQ. reflexivity. }
  assert (PL' : forall s, I s -> forall r, at_place s r <> at_place s0 r ->
     inside q r \/ resolve false s0 p = Some r
     \/ exists i, lookup (s_nodes s0) r = Some (NFile i) /\ reached s0 p i).
  { intros s IS r N. destruct (PL s IS r N); auto. }
  apply bind_inv in H. destruct H as [[es [s1 [H1 H]]]|[[e [H1 ->]]|[[H1 ->]|[H1 ->]]]];
    apply map_err_inv in H1;
    destruct H1 as [[a [H1 Z]]|[[e' [H1 Z]]|[[H1 Z]|[H1 Z]]]]; try discriminate Z;
    apply read_dir_any in H1; destruct H1 as [D [F [N1 N2]]]; try contradiction.
  2:{ split; [|split; discriminate]. apply PL'. apply (scope_disk _ _ _ _ _ D INI). }
  injection Z as ->. specialize (F a eq_refl).
  assert (F' : Forall2 (opened s1) (listing s1 p) a).
  { rewrite (listing_disk _ _ p D). clear - F D. induction F; constructor; auto.
    unfold opened, is_dir in *. rewrite (stat_disk _ _ x D). assumption. }
  destruct (run_sched sched (erase_threads passes a) s1) as [ts s2] eqn:RS.
  erewrite bind_ok in H by (cbv beta; rewrite RS; reflexivity).
  apply (run_sched_keeps I (fun _ => True)) in RS;
    [|apply (threads_keep s1 a passes D F')|apply (scope_disk _ _ _ _ _ D INI)].
  destruct RS as [I2 K2].
  apply bind_inv in H.
  assert (JP : join_all ts <> Panic).
  { clear - K2. induction K2 as [|t ts KT K2 IH]; cbn; [discriminate|].
    destruct KT; try discriminate; assumption. }
  assert (PLK := PL' s2 I2).
  destruct H as [[[] [s3 [J H]]]|[[e [J ->]]|[[J ->]|[J ->]]]]; injection J as J <-;
    try (split; [exact PLK|]; split; [discriminate|discriminate]); [|congruence].
  assert (PD : forall s3, same_disk s2 s3 -> forall r, at_place s3 r <> at_place s0 r ->
     inside q r \/ resolve false s0 p = Some r
     \/ exists i, lookup (s_nodes s0) r = Some (NFile i) /\ reached s0 p i).
  { intros s3 D3. apply PL', (scope_disk _ _ _ _ _ D3 I2). }
  apply map_err_inv in H.
  assert (RD : forall o3, remove_dir_all (EDir p) s2 = (o3, s') ->
    (forall r, at_place s' r <> at_place s0 r ->
       inside q r \/ resolve false s0 p = Some r
       \/ exists i, lookup (s_nodes s0) r = Some (NFile i) /\ reached s0 p i)
    /\ (o3 = Ok tt -> resolve false s0 p = Some q ->
        forall r, inside q r -> at_place s' r = None)
    /\ o3 <> Panic /\ o3 <> Diverge).
  { clear H J. intros o3 H. unfold remove_dir_all in H. apply call_or_inv in H.
    destruct H as [s3 [D3 [_ [_ [_ [[-> [-> NF]]|H]]]]]].
    { split; [apply PD, D3|]. repeat split; discriminate. }
    pose proof (scope_disk _ _ _ _ _ D3 I2) as I3.
    pose proof (scope_shrunk _ _ _ _ I3) as SH.
    destruct (resolve false s3 p) as [k|] eqn:RK;
      [|injection H as <- <-; split; [apply PD, D3|]; repeat split; discriminate].
    assert (NK : k <> [] \/ (o3 = Err StRemoveDir /\ s' = s3)).
    { destruct k; [right; split; congruence|left; discriminate]. }
    destruct NK as [NQ|[-> ->]]; [|split; [apply PD, D3|]; repeat split; discriminate].
    replace (match k with
             | [] => (Err StRemoveDir, s3)
             | _ :: _ =>
                 match lookup (s_nodes s3) k with
                 | Some NDir =>
                     (Ok tt, with_nodes (filter (fun e => negb (below k (fst e))) (s_nodes s3))
                                        (FRmTree k) s3)
                 | Some (NLink _) =>
                     (Ok tt, with_nodes (remove_node (s_nodes s3) k) (FUnlink k) s3)
                 | _ => (Err StRemoveDir, s3)
                 end
             end) with
            (match lookup (s_nodes s3) k with
                 | Some NDir =>
                     (Ok tt, with_nodes (filter (fun e => negb (below k (fst e))) (s_nodes s3))
                                        (FRmTree k) s3)
                 | Some (NLink _) =>
                     (Ok tt, with_nodes (remove_node (s_nodes s3) k) (FUnlink k) s3)
                 | _ => (Err StRemoveDir, s3)
                 end) in H by (destruct k; [contradiction|reflexivity]).
    destruct (lookup (s_nodes s3) k) as [[|i|t]|] eqn:LK;
      try (injection H as <- <-; split; [apply PD, D3|]; repeat split; discriminate).
    - (* a directory *)
      assert (R0 : resolve false s0 p = Some k).
      { apply (resolve_shrunk false s0 s3 p k SH); [apply I3|exact RK|congruence]. }
      assert (L0 : lookup (s_nodes s0) k = Some NDir).
      { destruct I3 as [_ [L3 _]]. destruct (L3 k) as [E|[E _]]; congruence. }
      assert (k = q).
      { pose proof (resolve_same _ _ _ _ R0 L0 ltac:(discriminate)). congruence. }
      subst k. injection H as <- <-.
      split; [|split; [|split; discriminate]].
      + intros r N. destruct (below q r) eqn:B.
        * left. apply below_spec in B. destruct B as [rel B]. exists rel. exact B.
        * apply (PD s3 D3). intros E. apply N. rewrite <- E. apply at_place_ext.
          -- cbn [with_nodes s_nodes]. rewrite lookup_rmtree, B by exact NQ. reflexivity.
          -- reflexivity.
      + intros _ _ r [rel ->]. unfold at_place. cbn [with_nodes s_nodes].
        rewrite lookup_rmtree by exact NQ.
        replace (below q (q ++ rel)) with true; [reflexivity|].
        symmetry. apply below_spec. exists rel. reflexivity.
    - (* a link *)
      assert (R0 : resolve false s0 p = Some k).
      { apply (resolve_shrunk false s0 s3 p k SH); [apply I3|exact RK|congruence]. }
      assert (NK : k <> []) by (intros ->; discriminate).
      injection H as <- <-. split; [|split; [|split; discriminate]].
      + intros r N. destruct (cpath_eq_dec r k) as [->|NR]; [auto|].
        apply (PD s3 D3). intros E. apply N. rewrite <- E. apply at_place_ext.
        * cbn [with_nodes s_nodes]. rewrite lookup_remove by exact NK.
          apply cpath_eqb_neq in NR. rewrite NR. reflexivity.
        * reflexivity.
      + intros _ RQ. rewrite R0 in RQ. injection RQ as ->.
        destruct I3 as [_ [L3 _]]. destruct (L3 q) as [E|[E _]]; congruence. }
  destruct H as [[[] [H ->]]|[[x [H ->]]|[[H ->]|[H ->]]]];
    destruct (RD _ H) as [A1 [A2 [A3 A4]]]; try congruence; split; auto; split; auto; discriminate.
Qed.
End Scope.
