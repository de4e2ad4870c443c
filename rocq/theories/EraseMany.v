(** Erasing one directory after the other. *)
From Coq Require Import List Arith NArith ZArith Ascii String Bool Lia.
From Verif Require Import Bytes Outcome IO Primitives Crypto Overwrite FS Erase.
From Verif Require Import BytesFacts IOSpec IOFacts ToolProofs FSSpec FSFacts EraseProofs EraseDirProofs ArchiveWalk.
Import ListNotations.
Local Open Scope nat_scope.
Local Open Scope list_scope.
Strategy 1000 [walk MAX_LINKS resolve].

(** Entries were taken away from a tree, and it is still a tree. *)
Record trimmed (s0 s : sys) : Prop := {
  tr_cwd : s_cwd s = s_cwd s0;
  tr_tree : tree_ok s;
  tr_grown : grown (s_nodes s) (s_nodes s0)
}.

Lemma trimmed_refl : forall s, tree_ok s -> trimmed s s.
Proof. intros s T. constructor; [reflexivity|exact T|apply grown_refl]. Qed.

Lemma trimmed_trans : forall a b c, trimmed a b -> trimmed b c -> trimmed a c.
Proof.
  intros a b c [A1 A2 A3] [B1 B2 B3]. constructor; [congruence|exact B2|].
  eapply grown_trans; eauto.
Qed.

Lemma trimmed_nodes : forall s0 s s', trimmed s0 s -> s_nodes s' = s_nodes s -> s_cwd s' = s_cwd s ->
  trimmed s0 s'.
Proof.
  intros s0 s s' [A B C] N W. constructor; [congruence| |rewrite N; exact C].
  unfold tree_ok. rewrite N. exact B.
Qed.

Lemma trimmed_disk : forall s0 s s', same_disk s s' -> trimmed s0 s -> trimmed s0 s'.
Proof. intros s0 s s' (N & _ & _ & W & _) H. eapply trimmed_nodes; eauto. Qed.

Section Filter.
Variables (t : nodes) (g : cpath -> bool).

Lemma find_filter : forall r, find_node (filter (fun e => negb (g (fst e))) t) r
  = if g r then None else find_node t r.
Proof.
  intros r. induction t as [|[k v] u IH]; cbn [filter find_node fst].
  - destruct (g r); reflexivity.
  - destruct (g k) eqn:G; cbn [negb find_node]; destruct (cpath_eqb r k) eqn:E; try exact IH.
    + apply cpath_eqb_eq in E. subst r. rewrite G in *. exact IH.
    + apply cpath_eqb_eq in E. subst r. rewrite G. reflexivity.
Qed.
End Filter.

(** What [g] picks is taken away, and [g] picks what is below what it picks. *)
Lemma trim : forall s s' g, tree_ok s ->
  s_nodes s' = filter (fun e => negb (g (fst e))) (s_nodes s) -> s_cwd s' = s_cwd s ->
  g [] = false ->
  (forall r n, In (r ++ [n]) (map fst (s_nodes s)) -> g r = true -> g (r ++ [n]) = true) ->
  trimmed s s'.
Proof.
  intros s s' g (ND & NR & P) N W G0 GC.
  assert (SUB : forall r, In r (map fst (s_nodes s')) -> In r (map fst (s_nodes s)) /\ g r = false).
  { intros r I. rewrite N in I. apply in_map_iff in I. destruct I as (e & <- & I). apply filter_In in I.
    destruct I as [I X]. split; [apply in_map, I|]. destruct (g (fst e)); [discriminate|reflexivity]. }
  assert (LK : forall r, lookup (s_nodes s') r = if g r then None else lookup (s_nodes s) r).
  { intros r. rewrite N. destruct r as [|x r]; [cbn; rewrite G0; reflexivity|]. cbn [lookup]. apply find_filter. }
  constructor; [exact W| |].
  - split; [|split].
    + rewrite N. clear - ND. induction (s_nodes s) as [|[k v] u IH]; [constructor|]. cbn [map fst filter] in *.
      apply NoDup_cons_iff in ND. destruct ND as [A B]. destruct (g k); cbn [negb map fst]; [apply IH, B|].
      constructor; [|apply IH, B]. intros X. apply A. apply in_map_iff in X. destruct X as (e & <- & X).
      apply filter_In in X. apply in_map, X.
    + intros X. apply NR. apply SUB, X.
    + intros r n I. destruct (SUB _ I) as [I' G]. rewrite LK. destruct (g r) eqn:GR; [|eapply P; eauto].
      rewrite (GC _ _ I' GR) in G. discriminate.
  - intros r n. rewrite LK. destruct (g r); [discriminate|auto].
Qed.

Lemma below_inside : forall k r, below k r = true <-> inside k r.
Proof.
  unfold below, inside. induction k as [|x k IH]; intros r.
  - cbn. split; [eauto|reflexivity].
  - destruct r as [|y r]; cbn [strip_prefix].
    + split; [discriminate|]. intros [z E]. discriminate.
    + destruct (String.eqb_spec x y) as [->|N].
      * rewrite IH. split; intros [z E]; exists z; [cbn; congruence|cbn in E; congruence].
      * split; [discriminate|]. intros [z E]. cbn in E. congruence.
Qed.

(** Taking away something that is not a directory. *)
Lemma trim_one : forall s s' k n, tree_ok s -> lookup (s_nodes s) k = Some n -> n <> NDir ->
  s_nodes s' = remove_node (s_nodes s) k -> s_cwd s' = s_cwd s -> trimmed s s'.
Proof.
  intros s s' k n T L ND N W. apply (trim s s' (cpath_eqb k)); auto.
  - destruct k; [cbn in L; congruence|reflexivity].
  - intros r m I E. apply cpath_eqb_eq in E. subst r. destruct T as (_ & _ & P). rewrite (P _ _ I) in L. congruence.
Qed.

Lemma erase_trims : forall s0 p passes, keeps (trimmed s0) (fun _ => True) (erase_execute p passes).
Proof.
  intros s0 p passes. unfold erase_execute.
  apply keeps_bind with (P := fun e => exists h, e = EFile h).
  { apply keeps_map_err, keeps_atom. intros s o s' IS W.
    destruct (write_file_any _ _ _ _ W) as [[-> [D _]]|[i [plan [sa [sb [ST [-> [Da [-> [Db _]]]]]]]]]].
    - split; [apply (trimmed_disk _ _ _ D IS)|exact Logic.I].
    - split; [|eauto].
      eapply trimmed_disk; [exact Db|]. eapply (trimmed_nodes s0 sa); [|reflexivity|reflexivity].
      eapply trimmed_disk; [exact Da|exact IS]. }
  intros a [h ->].
  apply keeps_bind with (P := fun _ => True).
  { apply keeps_map_err, keeps_atom. intros s o s' IS C. cbn [file_len] in C.
    apply call_or_inv in C. destruct C as [s1 [D [_ [_ [_ [[-> [-> _]]|C]]]]]].
    - split; [apply (trimmed_disk _ _ _ D IS)|exact Logic.I].
    - injection C as <- <-. split; [apply (trimmed_disk _ _ _ D IS)|exact Logic.I]. }
  intros cap _.
  apply keeps_bind with (P := fun e => exists h, e = EFile h).
  { cbn [overwrite_file].
    apply keeps_bind with (P := fun r => fst r <> Panic /\ fst r <> Diverge).
    { apply keeps_act. intros s x s' IS OW. unfold run_handle in OW.
      destruct (overwrite_execute cap passes (handle_dev s h, s_rng s)) as [o [d g]] eqn:OX.
      apply overwrite_any in OX. destruct OX as [_ [_ [_ OX]]].
      injection OW as <- <-. split; [|cbn; destruct o; try contradiction; repeat split; auto; discriminate].
      eapply trimmed_nodes; [exact IS|reflexivity|reflexivity]. }
    intros [o h'] [N1 N2]. cbn [fst snd] in *.
    destruct o; try congruence; constructor. eauto. }
  intros e [h' ->]. apply keeps_map_err. unfold remove_file. cbn [entry_path].
  apply keeps_bind with (P := fun _ => True).
  - apply keeps_bind with (P := fun _ => True).
    + apply keeps_atom. intros s o s' IS C. unfold truncate in C.
      apply call_or_inv in C. destruct C as [s1 [D [_ [_ [_ [[-> [-> _]]|C]]]]]].
      * split; [apply (trimmed_disk _ _ _ D IS)|exact Logic.I].
      * injection C as <- <-. split; [|exact Logic.I].
        eapply (trimmed_nodes s0 s1); [apply (trimmed_disk _ _ _ D IS)|reflexivity|reflexivity].
    + intros _ _. apply keeps_atom. intros s o s' IS C. unfold flush in C.
      apply call_or_inv in C. destruct C as [s1 [D [_ [_ [_ [[-> [-> _]]|C]]]]]].
      * split; [apply (trimmed_disk _ _ _ D IS)|exact Logic.I].
      * injection C as <- <-. split; [apply (trimmed_disk _ _ _ D IS)|exact Logic.I].
  - intros _ _. apply keeps_atom. intros s o s' IS U.
    apply unlink_any in U.
    destruct U as [[-> [D _]]|[k [s1 [RK [[nd [LK ND]] [-> [D [_ [_ [_ ->]]]]]]]]]];
      [split; [apply (trimmed_disk _ _ _ D IS)|exact Logic.I]|].
    split; [|exact Logic.I]. pose proof (trimmed_disk _ _ _ D IS) as IS1.
    eapply trimmed_trans; [exact IS1|]. eapply (trim_one s1 _ k nd); [apply IS1| |exact ND|reflexivity|reflexivity].
    destruct D as (N & _). rewrite N. exact LK.
Qed.

(** However erasing ends. *)
Lemma erase_dir_trims : forall s p sched passes o s', tree_ok s ->
  erase_dir_execute sched (EDir p) passes s = (o, s') -> trimmed s s'.
Proof.
  intros s p sched passes o s' T H. unfold erase_dir_execute in H. cbn [entry_is_dir negb] in H.
  pose proof (trimmed_refl s T) as I0.
  apply bind_inv in H. destruct H as [[es [s1 [H1 H]]]|[[e [H1 ->]]|[[H1 ->]|[H1 ->]]]];
    apply map_err_inv in H1;
    destruct H1 as [[a [H1 Z]]|[[e' [H1 Z]]|[[H1 Z]|[H1 Z]]]]; try discriminate Z;
    apply read_dir_any in H1; destruct H1 as [D [F [N1 N2]]]; try contradiction.
  2: exact (trimmed_disk _ _ _ D I0).
  destruct (run_sched sched (erase_threads passes es) s1) as [ts s2] eqn:RS.
  erewrite bind_ok in H by (cbv beta; rewrite RS; reflexivity).
  apply (run_sched_keeps (trimmed s) (fun _ => True)) in RS; [|clear|exact (trimmed_disk _ _ _ D I0)].
  2:{ apply Forall_forall. intros t IT. unfold erase_threads in IT. apply in_map_iff in IT. destruct IT as [e [<- IE]].
      apply keeps_map_err, erase_trims. }
  destruct RS as [I2 _].
  apply bind_inv in H.
  destruct H as [[[] [s3 [J H]]]|[[e [J ->]]|[[J ->]|[J ->]]]]; injection J as J <-; try exact I2.
  assert (RD : exists o3, remove_dir_all (EDir p) s2 = (o3, s')).
  { apply map_err_inv in H. destruct H as [[x [H _]]|[[x [H _]]|[[H _]|[H _]]]]; eauto. }
  destruct RD as (o3 & RD). unfold remove_dir_all in RD. apply call_or_inv in RD.
  destruct RD as [s3 [D3 [_ [_ [_ [[-> [-> NF]]|RD]]]]]]; [exact (trimmed_disk _ _ _ D3 I2)|].
  pose proof (trimmed_disk _ _ _ D3 I2) as I3.
  destruct (resolve false s3 p) as [k|] eqn:RK; [|injection RD as <- <-; exact I3].
  assert (NK : k <> [] \/ s' = s3).
  { destruct k; [right; congruence|left; discriminate]. }
  destruct NK as [NK| ->]; [|exact I3]. eapply trimmed_trans; [exact I3|].
  destruct (lookup (s_nodes s3) k) as [[|i|tg]|] eqn:LK.
  - assert (X : s' = with_nodes (filter (fun e => negb (below k (fst e))) (s_nodes s3)) (FRmTree k) s3)
      by (destruct k; congruence).
    apply (trim s3 s' (below k)); [apply I3|rewrite X; reflexivity|rewrite X; reflexivity| |].
    + destruct k; [congruence|reflexivity].
    + intros r n _ B. apply below_inside in B. apply below_inside. destruct B as [z ->].
      exists (z ++ [n]). symmetry. apply app_assoc.
  - assert (X : s' = s3) by (destruct k; congruence). subst s'. apply trimmed_refl, I3.
  - assert (X : s' = with_nodes (remove_node (s_nodes s3) k) (FUnlink k) s3) by (destruct k; congruence).
    eapply (trim_one s3 s' k); [apply I3|exact LK|discriminate|rewrite X; reflexivity|rewrite X; reflexivity].
  - assert (X : s' = s3) by (destruct k; congruence). subst s'. apply trimmed_refl, I3.
Qed.

(** What a path denotes after that, it denoted before. *)
Lemma trimmed_stat : forall s0 s p n, trimmed s0 s -> stat s p = Some n ->
  exists q, resolve true s p = Some q /\ lookup (s_nodes s) q = Some n
    /\ resolve true s0 p = Some q /\ lookup (s_nodes s0) q = Some n.
Proof.
  intros s0 s p n [W T G] S. unfold stat in S. destruct (resolve true s p) as [q|] eqn:R; [|discriminate].
  exists q. split; [reflexivity|]. split; [exact S|]. split; [|exact (G _ _ S)].
  eapply resolve_grown_some; [exact G|congruence|exact R|exact S].
Qed.
