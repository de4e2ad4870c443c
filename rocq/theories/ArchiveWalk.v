(** Name resolution in growing trees, without links, and with [.] dropped. *)
From Coq Require Import List Arith Ascii String Bool Lia.
From Verif Require Import Bytes Outcome IO Primitives FS Archive.
From Verif Require Import FSSpec FSFacts ArchiveSpec.
Import ListNotations.
Local Open Scope nat_scope.
Local Open Scope list_scope.

(** ** Growing trees *)

Definition grown (t t' : nodes) : Prop :=
  forall r n, lookup t r = Some n -> lookup t' r = Some n.

Lemma grown_refl : forall t, grown t t.
Proof. intros t r n H. exact H. Qed.
Lemma grown_trans : forall a b c, grown a b -> grown b c -> grown a c.
Proof. intros a b c H1 H2 r n H. apply H2, H1, H. Qed.
Lemma grown_add : forall t q n, lookup t q = None -> grown t (t ++ [(q, n)]).
Proof.
  intros t q n H r m Hr. rewrite lookup_add by exact H.
  destruct (cpath_eqb r q) eqn:E; [|exact Hr].
  apply cpath_eqb_eq in E. congruence.
Qed.

Lemma walk_grown : forall t t', grown t t' ->
  forall l f cur cs q, walk l t f cur cs = Some q ->
  (f = true -> forall target, lookup t q = None -> lookup t' q <> Some (NLink target)) ->
  walk l t' f cur cs = Some q.
Proof.
  intros t t' G l f cur cs. revert l cur cs.
  apply (walk_ind t (fun l cur cs => forall q, walk l t f cur cs = Some q ->
    (f = true -> forall target, lookup t q = None -> lookup t' q <> Some (NLink target)) ->
    walk l t' f cur cs = Some q)).
  - intros l cur q H _. rewrite walk_nil in *. exact H.
  - intros l cur r IH q H N. rewrite walk_cur in *. apply IH; assumption.
  - intros l cur r IH q H N. rewrite walk_up in *. apply IH; assumption.
  - intros l cur n r IH1 IH2 q H N. rewrite walk_nm in *.
    destruct (lookup t (cur ++ [n])) as [[|i|target]|] eqn:L.
    + rewrite (G _ _ L). apply IH1; auto.
    + rewrite (G _ _ L). exact H.
    + rewrite (G _ _ L). destruct r as [|c r'].
      * destruct f; [|exact H]. destruct l as [|l']; [discriminate|].
        eapply IH2; eauto.
      * destruct l as [|l']; [discriminate|]. eapply IH2; eauto.
    + destruct r as [|c r']; [|discriminate]. injection H as H. subst q.
      destruct (lookup t' (cur ++ [n])) as [[|i|target]|] eqn:L'; try reflexivity;
        [apply walk_nil|].
      destruct f; [|reflexivity]. exfalso. exact (N eq_refl target L eq_refl).
Qed.

Lemma resolve_grown : forall f s s' p q, grown (s_nodes s) (s_nodes s') ->
  s_cwd s' = s_cwd s -> resolve f s p = Some q ->
  (f = true -> forall target, lookup (s_nodes s) q = None ->
     lookup (s_nodes s') q <> Some (NLink target)) ->
  resolve f s' p = Some q.
Proof.
  intros f s s' p q G C H N. rewrite resolve_eq in *.
  assert (E : start s' p = start s p) by (unfold start; rewrite C; reflexivity).
  rewrite E. eapply walk_grown; eauto.
Qed.

Lemma resolve_grown_some : forall f s s' p q n, grown (s_nodes s) (s_nodes s') ->
  s_cwd s' = s_cwd s -> resolve f s p = Some q -> lookup (s_nodes s) q = Some n ->
  resolve f s' p = Some q.
Proof. intros. eapply resolve_grown; eauto. intros. congruence. Qed.

(** ** Dropping [.] *)

Inductive dropcur : list comp -> list comp -> Prop :=
| dc_nil : dropcur [] []
| dc_keep : forall c l l', dropcur l l' -> dropcur (c :: l) (c :: l')
| dc_drop : forall l l', dropcur l l' -> dropcur (Cur :: l) l'.

Lemma dropcur_refl : forall l, dropcur l l.
Proof. induction l; constructor; assumption. Qed.

Lemma dropcur_filter : forall l, dropcur l (filter (fun c => negb (is_cur c)) l).
Proof. induction l as [|[| |n] l IH]; cbn; constructor; assumption. Qed.

Lemma dropcur_components : forall p, dropcur (p_comps p) (components p).
Proof.
  intros p. unfold components. destruct (p_comps p) as [|[| |n] l]; cbn.
  - constructor.
  - destruct (p_abs p); constructor; apply dropcur_filter.
  - constructor. apply dropcur_filter.
  - constructor. apply dropcur_filter.
Qed.

Lemma dropcur_app_inv : forall a b l, dropcur (a ++ b) l ->
  exists a' b', l = a' ++ b' /\ dropcur a a' /\ dropcur b b'.
Proof.
  induction a as [|c a IH]; intros b l H.
  - exists [], l. split; [reflexivity|]. split; [constructor|exact H].
  - cbn in H. inversion H; subst.
    + destruct (IH _ _ H3) as [a' [b' [E [D1 D2]]]]. subst.
      exists (c :: a'), b'. split; [reflexivity|]. split; [constructor; exact D1|exact D2].
    + destruct (IH _ _ H3) as [a' [b' [E [D1 D2]]]]. subst.
      exists a', b'. split; [reflexivity|]. split; [constructor; exact D1|exact D2].
Qed.

Lemma dropcur_app : forall a a' b b', dropcur a a' -> dropcur b b' -> dropcur (a ++ b) (a' ++ b').
Proof. induction 1; intros; cbn; [assumption|constructor; auto|constructor; auto]. Qed.

(** A prefix of what is left comes from a prefix. *)
Lemma dropcur_prefix : forall l l', dropcur l l' -> forall a' b', l' = a' ++ b' ->
  exists a b, l = a ++ b /\ dropcur a a' /\ dropcur b b'.
Proof.
  induction 1; intros a' b' E.
  - destruct a', b'; try discriminate. exists [], []. repeat split; constructor.
  - destruct a' as [|x a'].
    + cbn in E. subst. exists [], (c :: l). repeat split; constructor; assumption.
    + injection E as E1 E2. subst. destruct (IHdropcur _ _ eq_refl) as [a [b [E [D1 D2]]]]. subst.
      exists (x :: a), b. split; [reflexivity|]. split; [constructor; exact D1|exact D2].
  - destruct (IHdropcur _ _ E) as [a [b [E' [D1 D2]]]]. subst.
    exists (Cur :: a), b. split; [reflexivity|]. split; [constructor; exact D1|exact D2].
Qed.

Lemma dropcur_names : forall a l, dropcur (map Nm a) l -> l = map Nm a.
Proof.
  induction a as [|x a IH]; intros l H; inversion H; subst; [reflexivity|].
  cbn. f_equal. apply IH. assumption.
Qed.

Lemma lexical_app : forall a b q, lexical q (a ++ b) = lexical (lexical q a) b.
Proof. induction a as [|[| |n] a IH]; intros b q; cbn; auto. Qed.

Lemma lexical_names : forall a q, lexical q (map Nm a) = q ++ a.
Proof.
  induction a as [|n a IH]; intros q; cbn; [now rewrite app_nil_r|].
  rewrite IH, <- app_assoc. reflexivity.
Qed.

Lemma lexical_dropcur : forall l l', dropcur l l' -> forall q, lexical q l' = lexical q l.
Proof. induction 1; intros q; [reflexivity| |]; [destruct c; cbn; auto|cbn; auto]. Qed.

(** Walking to an existing directory. *)
Lemma walk_dropcur : forall t l cur cs cs' q, dropcur cs cs' ->
  walk l t true cur cs = Some q -> lookup t q = Some NDir ->
  walk l t true cur cs' = Some q.
Proof.
  intros t l cur cs. revert l cur cs.
  apply (walk_ind t (fun l cur cs => forall cs' q, dropcur cs cs' ->
    walk l t true cur cs = Some q -> lookup t q = Some NDir -> walk l t true cur cs' = Some q)).
  - intros l cur cs' q D H _. inversion D. exact H.
  - intros l cur r IH cs' q D H L. rewrite walk_cur in H. inversion D; subst.
    + rewrite walk_cur. apply IH; assumption.
    + apply IH; assumption.
  - intros l cur r IH cs' q D H L. rewrite walk_up in H. inversion D; subst.
    rewrite walk_up. apply IH; assumption.
  - intros l cur n r IH1 IH2 cs' q D H L. inversion D; subst. rewrite walk_nm in *.
    destruct (lookup t (cur ++ [n])) as [[|i|target]|] eqn:E.
    + apply IH1; auto.
    + destruct r; [|discriminate]. injection H as H. subst. congruence.
    + destruct r as [|c r'].
      * inversion H3; subst. exact H.
      * destruct l as [|l0]; [discriminate|].
        assert (W : walk l0 t true (if p_abs target then [] else cur) (p_comps target ++ l') = Some q).
        { eapply IH2; eauto. apply dropcur_app; [apply dropcur_refl|exact H3]. }
        destruct l'; exact W.
    + destruct r; [|discriminate]. injection H as H. subst. congruence.
Qed.

(** What lies on the way to an existing directory exists. *)
Lemma walk_on_the_way : forall t,
  (forall x, lookup t x <> None -> lookup t (removelast x) <> None) ->
  forall l cur cs a b a' q, cs = a ++ b -> dropcur a a' ->
  walk l t true cur cs = Some q -> lookup t q = Some NDir -> lookup t cur <> None ->
  exists r, walk l t false cur a' = Some r /\ lookup t r <> None.
Proof.
  intros t P l cur cs. revert l cur cs.
  apply (walk_ind t (fun l cur cs => forall a b a' q, cs = a ++ b -> dropcur a a' ->
    walk l t true cur cs = Some q -> lookup t q = Some NDir -> lookup t cur <> None ->
    exists r, walk l t false cur a' = Some r /\ lookup t r <> None)).
  - intros l cur a b a' q E D H L C. symmetry in E. apply app_eq_nil in E. destruct E; subst.
    inversion D; subst. exists cur. split; [apply walk_nil|exact C].
  - intros l cur cs IH a b a' q E D H L C. rewrite walk_cur in H. destruct a as [|c a].
    + inversion D; subst. exists cur. split; [apply walk_nil|exact C].
    + injection E as E1 E2. subst. inversion D; subst.
      * rewrite walk_cur. eapply IH; eauto.
      * eapply IH; eauto.
  - intros l cur cs IH a b a' q E D H L C. rewrite walk_up in H. destruct a as [|c a].
    + inversion D; subst. exists cur. split; [apply walk_nil|exact C].
    + injection E as E1 E2. subst. inversion D; subst. rewrite walk_up. eapply IH; eauto.
  - intros l cur n cs IH1 IH2 a b a' q E D H L C. destruct a as [|c a].
    + inversion D; subst. exists cur. split; [apply walk_nil|exact C].
    + injection E as E1 E2. subst. inversion D; subst. rewrite walk_nm in *.
      destruct (lookup t (cur ++ [n])) as [[|i|target]|] eqn:E.
      * eapply IH1; eauto. congruence.
      * destruct (a ++ b); [|discriminate]. injection H as H. congruence.
      * destruct l' as [|c l'].
        { exists (cur ++ [n]). split; [reflexivity|congruence]. }
        destruct l as [|l0]; [destruct (a ++ b); discriminate|].
        assert (W2 : walk l0 t true (if p_abs target then [] else cur) (p_comps target ++ a ++ b)
                     = Some q) by (destruct (a ++ b); exact H).
        eapply (IH2 target l0 eq_refl eq_refl (p_comps target ++ a) b); eauto.
        { apply app_assoc. }
        { apply dropcur_app; [apply dropcur_refl|exact H3]. }
        { destruct (p_abs target); [cbn; discriminate|exact C]. }
      * destruct (a ++ b); [|discriminate]. injection H as H. congruence.
Qed.

(** ** Without links *)

Lemma walk_lexical : forall t l f cs cur r,
  (forall k target, lookup t (lexical cur (firstn k cs)) <> Some (NLink target)) ->
  walk l t f cur cs = Some r -> r = lexical cur cs.
Proof.
  intros t l f. induction cs as [|c cs IH]; intros cur r N H.
  - rewrite walk_nil in H. injection H as H. subst. reflexivity.
  - assert (N' : forall x, lexical cur [c] = x ->
              forall k target, lookup t (lexical x (firstn k cs)) <> Some (NLink target)).
    { intros x X k target. specialize (N (S k) target). cbn [firstn] in N.
      change (c :: firstn k cs) with ([c] ++ firstn k cs) in N. rewrite lexical_app, X in N. exact N. }
    destruct c as [| |n].
    + rewrite walk_cur in H. cbn. apply IH; [|exact H]. apply N'. reflexivity.
    + rewrite walk_up in H. cbn. apply IH; [|exact H]. apply N'. reflexivity.
    + rewrite walk_nm in H. cbn.
      destruct (lookup t (cur ++ [n])) as [[|i|target]|] eqn:E.
      * apply IH; [|exact H]. apply N'. reflexivity.
      * destruct cs; [|discriminate]. injection H as H. subst. reflexivity.
      * exfalso. apply (N 1 target). exact E.
      * destruct cs; [|discriminate]. injection H as H. subst. reflexivity.
Qed.

(** Never above the start. *)
Lemma depth_inside : forall cs q rel, depth_ok (List.length rel) cs = true ->
  exists rel', lexical (q ++ rel) cs = q ++ rel'.
Proof.
  induction cs as [|[| |n] cs IH]; intros q rel H; cbn in *.
  - exists rel. reflexivity.
  - apply IH, H.
  - destruct rel as [|x rel] using rev_ind; [discriminate|].
    rewrite app_length in H. cbn in H. rewrite Nat.add_1_r in H.
    rewrite app_assoc, removelast_last. apply IH, H.
  - rewrite <- app_assoc. apply IH. rewrite app_length. cbn. rewrite Nat.add_1_r. exact H.
Qed.

Lemma depth_prefix : forall k cs d, depth_ok d cs = true -> depth_ok d (firstn k cs) = true.
Proof.
  induction k; intros [|[| |n] cs] d H; cbn in *; try reflexivity; try (apply IHk; exact H).
  destruct d; [discriminate|]. apply IHk, H.
Qed.

Lemma lexical_inside : forall cs q k, depth_ok 0 cs = true -> inside q (lexical q (firstn k cs)).
Proof.
  intros cs q k H. destruct (depth_inside (firstn k cs) q [] (depth_prefix k cs 0 H)) as [rel E].
  rewrite app_nil_r in E. exists rel. exact E.
Qed.
