(** Facts about the file system model. *)
From Coq Require Import List Arith NArith Ascii String Bool Lia.
From Verif Require Import Bytes Outcome IO Primitives Overwrite FS.
From Verif Require Import BytesFacts IOFacts.
Import ListNotations.
Local Open Scope nat_scope.
Local Open Scope list_scope.

(** ** Places *)

Lemma cpath_eqb_eq : forall a b, cpath_eqb a b = true <-> a = b.
Proof.
  induction a as [|x a IH]; destruct b as [|y b]; cbn; split; intros H;
    try discriminate; auto.
  - apply andb_true_iff in H. destruct H as [H1 H2]. apply String.eqb_eq in H1.
    apply IH in H2. congruence.
  - injection H as -> ->. rewrite String.eqb_refl. apply IH. reflexivity.
Qed.

Lemma cpath_eqb_refl : forall a, cpath_eqb a a = true.
Proof. intros. apply cpath_eqb_eq. reflexivity. Qed.

Lemma cpath_eqb_neq : forall a b, cpath_eqb a b = false <-> a <> b.
Proof.
  intros a b. destruct (cpath_eqb a b) eqn:E.
  - apply cpath_eqb_eq in E. split; [discriminate|contradiction].
  - split; auto. intros _ H. apply cpath_eqb_eq in H. congruence.
Qed.

Lemma cpath_eq_dec : forall a b : cpath, {a = b} + {a <> b}.
Proof. intros. apply list_eq_dec, string_dec. Qed.

Lemma strip_prefix_spec : forall p q r, strip_prefix p q = Some r <-> q = p ++ r.
Proof.
  induction p as [|x p IH]; intros q r; cbn.
  - split; intros H; [injection H as ->; reflexivity|subst; reflexivity].
  - destruct q as [|y q]; [split; discriminate|].
    destruct (String.eqb x y) eqn:E.
    + apply String.eqb_eq in E. subst y. rewrite IH. split; intros H.
      * subst q. reflexivity.
      * injection H as H. exact H.
    + apply String.eqb_neq in E. split; [discriminate|]. intros H. injection H as -> _.
      contradiction.
Qed.

Lemma below_spec : forall p q, below p q = true <-> exists r, q = p ++ r.
Proof.
  intros p q. unfold below. destruct (strip_prefix p q) as [r|] eqn:E.
  - split; auto. intros _. exists r. apply strip_prefix_spec, E.
  - split; [discriminate|]. intros [r H]. apply strip_prefix_spec in H. congruence.
Qed.

Lemma below_refl : forall p, below p p = true.
Proof. intros. apply below_spec. exists []. rewrite app_nil_r. reflexivity. Qed.

(** ** Lookup *)

Lemma find_remove : forall t q p,
  find_node (remove_node t q) p = if cpath_eqb p q then None else find_node t p.
Proof.
  induction t as [|[r n] t IH]; intros q p; cbn.
  - destruct (cpath_eqb p q); reflexivity.
  - fold (remove_node t q).
    destruct (cpath_eqb q r) eqn:E1; cbn [negb].
    + apply cpath_eqb_eq in E1. subst r. rewrite IH.
      destruct (cpath_eqb p q) eqn:E2; reflexivity.
    + cbn [find_node]. rewrite IH. destruct (cpath_eqb p r) eqn:E2; [|reflexivity].
      apply cpath_eqb_eq in E2. subst r. destruct (cpath_eqb p q) eqn:E3; [|reflexivity].
      apply cpath_eqb_eq in E3. subst q. rewrite cpath_eqb_refl in E1. discriminate.
Qed.

Lemma lookup_remove : forall t q p, q <> [] ->
  lookup (remove_node t q) p = if cpath_eqb p q then None else lookup t p.
Proof.
  intros t q p N. destruct p as [|x p].
  - destruct q; [contradiction|reflexivity].
  - apply find_remove.
Qed.

Lemma find_app : forall t u p,
  find_node (t ++ u) p
  = match find_node t p with Some n => Some n | None => find_node u p end.
Proof.
  induction t as [|[r n] t IH]; intros u p; cbn; [reflexivity|].
  destruct (cpath_eqb p r); [reflexivity|apply IH].
Qed.

Lemma lookup_add : forall t q n p, lookup t q = None ->
  lookup (t ++ [(q, n)]) p = if cpath_eqb p q then Some n else lookup t p.
Proof.
  intros t q n p N. destruct q as [|y q]; [discriminate|].
  destruct p as [|x p]; [reflexivity|].
  unfold lookup. rewrite find_app. cbn [find_node].
  destruct (cpath_eqb (x :: p) (y :: q)) eqn:E.
  - apply cpath_eqb_eq in E. rewrite E. unfold lookup in N. rewrite N. reflexivity.
  - destruct (find_node t (x :: p)); reflexivity.
Qed.

Lemma find_filter : forall (f : cpath -> bool) t p,
  find_node (filter (fun e => f (fst e)) t) p = if f p then find_node t p else None.
Proof.
  intros f. induction t as [|[r n] t IH]; intros p; cbn.
  - destruct (f p); reflexivity.
  - destruct (f r) eqn:F; cbn [find_node]; rewrite IH.
    + destruct (cpath_eqb p r) eqn:E; [|reflexivity].
      apply cpath_eqb_eq in E. subst r. rewrite F. reflexivity.
    + destruct (cpath_eqb p r) eqn:E; [|reflexivity].
      apply cpath_eqb_eq in E. subst r. rewrite F. reflexivity.
Qed.

Lemma lookup_rmtree : forall t q p, q <> [] ->
  lookup (filter (fun e => negb (below q (fst e))) t) p
  = if below q p then None else lookup t p.
Proof.
  intros t q p N. destruct p as [|x p].
  - destruct (below q []) eqn:E; [|reflexivity].
    apply below_spec in E. destruct E as [r E]. symmetry in E. apply app_eq_nil in E.
    destruct E. contradiction.
  - unfold lookup. rewrite (find_filter (fun r => negb (below q r))).
    destruct (below q (x :: p)); reflexivity.
Qed.

Lemma find_in : forall t p n, find_node t p = Some n -> In (p, n) t.
Proof.
  induction t as [|[r m] t IH]; intros p n H; [discriminate|]. cbn in H.
  destruct (cpath_eqb p r) eqn:E.
  - apply cpath_eqb_eq in E. injection H as ->. subst r. left. reflexivity.
  - right. apply IH, H.
Qed.

Lemma in_find : forall t p n, In (p, n) t -> exists m, find_node t p = Some m.
Proof.
  induction t as [|[r m] t IH]; intros p n H; [contradiction|]. cbn.
  destruct (cpath_eqb p r) eqn:E; [eauto|].
  destruct H as [H|H]; [|apply (IH _ _ H)].
  injection H as -> ->. rewrite cpath_eqb_refl in E. discriminate.
Qed.

(** ** Name resolution *)

Lemma walk_nil : forall l t f cur, walk l t f cur [] = Some cur.
Proof. destruct l; reflexivity. Qed.
Lemma walk_cur : forall l t f cur r, walk l t f cur (Cur :: r) = walk l t f cur r.
Proof. destruct l; reflexivity. Qed.
Lemma walk_up : forall l t f cur r, walk l t f cur (Up :: r) = walk l t f (removelast cur) r.
Proof. destruct l; reflexivity. Qed.
Lemma walk_nm : forall l t f cur n r,
  walk l t f cur (Nm n :: r)
  = match lookup t (cur ++ [n]) with
    | None | Some (NFile _) => match r with [] => Some (cur ++ [n]) | _ => None end
    | Some NDir => walk l t f (cur ++ [n]) r
    | Some (NLink target) =>
        match r, f with
        | [], false => Some (cur ++ [n])
        | _, _ => match l with
                  | O => None
                  | S l' => walk l' t f (if p_abs target then [] else cur)
                                 (p_comps target ++ r)
                  end
        end
    end.
Proof. destruct l; reflexivity. Qed.

(** Induction over the steps of resolution. *)
Lemma walk_ind : forall (t : nodes) (P : nat -> cpath -> list comp -> Prop),
  (forall l cur, P l cur []) ->
  (forall l cur r, P l cur r -> P l cur (Cur :: r)) ->
  (forall l cur r, P l (removelast cur) r -> P l cur (Up :: r)) ->
  (forall l cur n r,
     (lookup t (cur ++ [n]) = Some NDir -> P l (cur ++ [n]) r) ->
     (forall target l', lookup t (cur ++ [n]) = Some (NLink target) -> l = S l' ->
        P l' (if p_abs target then [] else cur) (p_comps target ++ r)) ->
     P l cur (Nm n :: r)) ->
  forall l cur cs, P l cur cs.
Proof.
  intros t P H0 H1 H2 H3. induction l as [|l IHl]; intros cur cs; revert cur;
    induction cs as [|[| |n] r IHr]; intros cur; auto.
  - apply H3; auto. intros; discriminate.
  - apply H3; auto. intros target l' _ E. injection E as <-. apply IHl.
Qed.

(** Resolution reads nothing but [lookup]. *)
Lemma walk_ext : forall t t', (forall p, lookup t p = lookup t' p) ->
  forall l f cur cs, walk l t f cur cs = walk l t' f cur cs.
Proof.
  intros t t' E l f cur cs. revert l cur cs.
  apply (walk_ind t (fun l cur cs => walk l t f cur cs = walk l t' f cur cs)).
  - intros. rewrite !walk_nil. reflexivity.
  - intros. rewrite !walk_cur. assumption.
  - intros. rewrite !walk_up. assumption.
  - intros l cur n r HD HL. rewrite !walk_nm, <- E.
    destruct (lookup t (cur ++ [n])) as [[| |target]|] eqn:L; auto.
    destruct r as [|c r]; destruct f; auto; destruct l as [|l]; auto.
Qed.

(** Taking away a file does not change what other names resolve to. *)
Lemma walk_remove_file : forall t q i, lookup t q = Some (NFile i) ->
  forall l f cur cs r, walk l t f cur cs = Some r -> r <> q ->
  walk l (remove_node t q) f cur cs = Some r.
Proof.
  intros t q i Q. assert (NQ : q <> []) by (intros ->; discriminate).
  intros l f cur cs. revert l cur cs.
  apply (walk_ind t (fun l cur cs => forall r, walk l t f cur cs = Some r -> r <> q ->
     walk l (remove_node t q) f cur cs = Some r)).
  - intros l cur r. rewrite !walk_nil. auto.
  - intros l cur r IH x. rewrite !walk_cur. auto.
  - intros l cur r IH x. rewrite !walk_up. auto.
  - intros l cur n r HD HL x. rewrite !walk_nm, lookup_remove by exact NQ.
    destruct (cpath_eqb (cur ++ [n]) q) eqn:E.
    + apply cpath_eqb_eq in E. rewrite E, Q. destruct r; [|discriminate].
      intros H. injection H as <-. contradiction.
    + destruct (lookup t (cur ++ [n])) as [[| |target]|] eqn:L; auto.
      destruct r as [|c r]; destruct f; auto; destruct l as [|l]; auto.
Qed.

(** The first part of a path decides where the rest starts. *)
Lemma walk_app : forall t f b l cur a q,
  walk l t true cur a = Some q -> lookup t q = Some NDir -> b <> [] ->
  exists l', l' <= l /\ walk l t f cur (a ++ b) = walk l' t f q b.
Proof.
  intros t f b l cur a. revert l cur a.
  apply (walk_ind t (fun l cur a => forall q,
    walk l t true cur a = Some q -> lookup t q = Some NDir -> b <> [] ->
    exists l', l' <= l /\ walk l t f cur (a ++ b) = walk l' t f q b)).
  - intros l cur q. rewrite walk_nil. intros H. injection H as <-. exists l. auto.
  - intros l cur r IH q. cbn [app]. rewrite !walk_cur. apply IH.
  - intros l cur r IH q. cbn [app]. rewrite !walk_up. apply IH.
  - intros l cur n r HD HL q W D NB. cbn [app]. rewrite walk_nm in W. rewrite walk_nm.
    destruct (lookup t (cur ++ [n])) as [[|i|target]|] eqn:L.
    + apply HD; auto.
    + destruct r; [|discriminate]. injection W as <-. congruence.
    + assert (W' : match l with
                  | O => None
                  | S l' => walk l' t true (if p_abs target then [] else cur)
                                 (p_comps target ++ r)
                  end = Some q) by (destruct r; exact W).
      destruct l as [|l]; [discriminate|].
      destruct (HL target l eq_refl eq_refl q W' D NB) as [l' [L1 L2]].
      exists l'. split; [lia|]. rewrite <- L2, <- app_assoc.
      destruct (r ++ b) as [|c x] eqn:RB; [|reflexivity].
      apply app_eq_nil in RB. destruct RB. contradiction.
    + destruct r; [|discriminate]. injection W as <-. congruence.
Qed.

(** A chain of directories without links. *)
Lemma walk_names : forall t f l rel q,
  (forall a b, rel = a ++ b -> a <> [] -> b <> [] -> lookup t (q ++ a) = Some NDir) ->
  (forall target, lookup t (q ++ rel) <> Some (NLink target)) ->
  walk l t f q (map Nm rel) = Some (q ++ rel).
Proof.
  intros t f l. induction rel as [|n rel IH]; intros q D NL.
  - cbn. rewrite walk_nil, app_nil_r. reflexivity.
  - cbn [map]. rewrite walk_nm. destruct rel as [|m rel].
    + cbn [map]. destruct (lookup t (q ++ [n])) as [[|i|target]|] eqn:L; auto.
      * rewrite walk_nil. reflexivity.
      * destruct (NL target eq_refl).
    + rewrite (D [n] (m :: rel)) by (try reflexivity; discriminate).
      replace (q ++ n :: m :: rel) with ((q ++ [n]) ++ m :: rel) by (rewrite <- app_assoc; reflexivity).
      apply IH.
      * intros a b E NA NB. rewrite <- app_assoc. cbn.
        apply (D (n :: a) b); [cbn; rewrite E; reflexivity|discriminate|exact NB].
      * intros target. rewrite <- app_assoc. apply NL.
Qed.

(** Without following the last component, resolution reaches the same place
    unless that component is a link. *)
Lemma walk_nofollow : forall t l cur cs q,
  walk l t true cur cs = Some q -> exists q', walk l t false cur cs = Some q'.
Proof.
  intros t l cur cs. revert l cur cs.
  apply (walk_ind t (fun l cur cs => forall q,
    walk l t true cur cs = Some q -> exists q', walk l t false cur cs = Some q')).
  - intros. rewrite walk_nil. eauto.
  - intros l cur r IH q. rewrite !walk_cur. apply IH.
  - intros l cur r IH q. rewrite !walk_up. apply IH.
  - intros l cur n r HD HL q. rewrite !walk_nm.
    destruct (lookup t (cur ++ [n])) as [[|i|target]|] eqn:L; auto; try (intros H; apply (HD eq_refl _ H)).
    + destruct r; [eauto|discriminate].
    + destruct r as [|c r]; [eauto|]. destruct l as [|l]; [discriminate|].
      intros H. apply (HL target l eq_refl eq_refl _ H).
    + destruct r; [eauto|discriminate].
Qed.

Lemma walk_same : forall t l cur cs q n,
  walk l t false cur cs = Some q -> lookup t q = Some n ->
  (forall target, n <> NLink target) -> walk l t true cur cs = Some q.
Proof.
  intros t l cur cs. revert l cur cs.
  apply (walk_ind t (fun l cur cs => forall q n,
    walk l t false cur cs = Some q -> lookup t q = Some n ->
    (forall target, n <> NLink target) -> walk l t true cur cs = Some q)).
  - intros l cur q n. rewrite !walk_nil. auto.
  - intros l cur r IH q n. rewrite !walk_cur. apply IH.
  - intros l cur r IH q n. rewrite !walk_up. apply IH.
  - intros l cur m r HD HL q n. rewrite !walk_nm.
    destruct (lookup t (cur ++ [m])) as [[|i|target]|] eqn:L; auto;
      try (apply (HD eq_refl)).
    destruct r as [|c r].
    + intros H N NL. injection H as <-. rewrite L in N. injection N as <-.
      destruct (NL target eq_refl).
    + destruct l as [|l]; [discriminate|]. apply (HL target l eq_refl eq_refl).
Qed.

(** ** Programs *)

Lemma run_bind : forall {E A B} (r : R E A) (k : A -> R E B) s,
  run (rbind r k) s
  = match run r s with
    | (Ok a, s') => run (k a) s'
    | (Err e, s') => (Err e, s')
    | (Panic, s') => (Panic, s')
    | (Diverge, s') => (Diverge, s')
    end.
Proof.
  induction r as [o|X m c IH]; intros k s; cbn.
  - destruct o; reflexivity.
  - destruct (m s) as [x s']. apply IH.
Qed.

Lemma run_map_err : forall {E E' A} (f : E -> E') (r : R E A) s,
  run (rmap_err f r) s
  = match run r s with
    | (Ok a, s') => (Ok a, s')
    | (Err e, s') => (Err (f e), s')
    | (Panic, s') => (Panic, s')
    | (Diverge, s') => (Diverge, s')
    end.
Proof.
  induction r as [o|X m c IH]; intros s; cbn.
  - destruct o; reflexivity.
  - destruct (m s) as [x s']. apply IH.
Qed.

Lemma run_atom : forall {E A} (m : M sys E A) s, run (atom m) s = m s.
Proof. intros. cbn. destruct (m s) as [o s']. reflexivity. Qed.

Lemma run_act : forall {E X} (m : sys -> X * sys) s,
  run (@act E X m) s = let '(x, s') := m s in (Ok x, s').
Proof. intros. cbn. destruct (m s) as [x s']. reflexivity. Qed.

(** ** Calls *)

(** Everything but the fault list, the plans, the generator and the log. *)
Definition same_disk (s s' : sys) : Prop :=
  s_nodes s' = s_nodes s /\ s_data s' = s_data s /\ s_next s' = s_next s
  /\ s_cwd s' = s_cwd s /\ s_tmp s' = s_tmp s /\ s_log s' = s_log s.

Lemma same_disk_refl : forall s, same_disk s s.
Proof. unfold same_disk. auto 10. Qed.

Lemma same_disk_trans : forall a b c, same_disk a b -> same_disk b c -> same_disk a c.
Proof. unfold same_disk. intuition congruence. Qed.

(** Nothing fails. *)
Definition calm (s : sys) : Prop := s_faults s = [] /\ s_plans s = [].

Lemma next_fault_spec : forall s b s', next_fault s = (b, s') ->
  same_disk s s' /\ s_rng s' = s_rng s /\ s_plans s' = s_plans s
  /\ (s_faults s = [] -> b = false /\ s' = s).
Proof.
  intros s b s' H. unfold next_fault in H. destruct (s_faults s) as [|x l] eqn:F.
  - injection H as <- <-. repeat split; auto.
  - injection H as <- <-. unfold same_disk. cbn. repeat split; auto; discriminate.
Qed.

Lemma next_plan_spec : forall s p s', next_plan s = (p, s') ->
  same_disk s s' /\ s_rng s' = s_rng s /\ s_faults s' = s_faults s
  /\ (s_plans s = [] -> p = [] /\ s' = s).
Proof.
  intros s b s' H. unfold next_plan in H. destruct (s_plans s) as [|x l] eqn:F.
  - injection H as <- <-. repeat split; auto.
  - injection H as <- <-. unfold same_disk. cbn. repeat split; auto; discriminate.
Qed.

Lemma call_or_calm : forall {E A} (e : E) (m : M sys E A) s,
  s_faults s = [] -> call_or e m s = m s.
Proof. intros E A e m s F. unfold call_or, next_fault. rewrite F. reflexivity. Qed.

Lemma call_or_inv : forall {E A} (e : E) (m : M sys E A) s o s',
  call_or e m s = (o, s') ->
  exists s1, same_disk s s1 /\ s_rng s1 = s_rng s /\ s_plans s1 = s_plans s
    /\ (s_faults s = [] -> s1 = s)
    /\ ((o = Err e /\ s' = s1 /\ s_faults s <> []) \/ m s1 = (o, s')).
Proof.
  intros E A e m s o s' H. unfold call_or in H.
  destruct (next_fault s) as [b s1] eqn:F. apply next_fault_spec in F.
  destruct F as [F1 [F2 [F3 F4]]]. exists s1. repeat split; auto; try apply F1.
  - intros N. apply F4, N.
  - destruct b.
    + injection H as <- <-. left. repeat split; auto. intros N. destruct (F4 N). discriminate.
    + right. exact H.
Qed.

Lemma resolve_disk : forall f s s' p, same_disk s s' -> resolve f s' p = resolve f s p.
Proof. intros f s s' p [H1 [H2 [H3 [H4 H5]]]]. unfold resolve. rewrite H1, H4. reflexivity. Qed.

Lemma stat_disk : forall s s' p, same_disk s s' -> stat s' p = stat s p.
Proof.
  intros s s' p H. unfold stat. rewrite (resolve_disk true s s' p H).
  destruct H as [H1 _]. rewrite H1. reflexivity.
Qed.

(** The above for [resolve].  (Comparing two unfolded calls of [walk] is
    exponential in [MAX_LINKS]; unfold it last.) *)
Strategy 1000 [walk MAX_LINKS resolve].
Definition start (s : sys) (p : path) : cpath := if p_abs p then [] else s_cwd s.
Lemma resolve_eq : forall f s p,
  resolve f s p = walk MAX_LINKS (s_nodes s) f (start s p) (p_comps p).
Proof. intros. unfold resolve, start. reflexivity. Qed.

Lemma resolve_nofollow : forall s p q, resolve true s p = Some q ->
  exists q', resolve false s p = Some q'.
Proof.
  intros s p q. rewrite !resolve_eq. generalize MAX_LINKS (start s p) (p_comps p).
  intros. eapply walk_nofollow. eassumption.
Qed.

Lemma resolve_same : forall s p q n,
  resolve false s p = Some q -> lookup (s_nodes s) q = Some n ->
  (forall target, n <> NLink target) -> resolve true s p = Some q.
Proof.
  intros s p q n. rewrite !resolve_eq. generalize MAX_LINKS (start s p) (p_comps p).
  intros. eapply walk_same; eassumption.
Qed.

(** A name that does not exist is not a link. *)
Lemma walk_missing : forall t l cur cs q q0, walk l t false cur cs = Some q0 ->
  lookup t q0 = None -> walk l t true cur cs = Some q -> q = q0.
Proof.
  intros t l cur cs. revert l cur cs.
  apply (walk_ind t (fun l cur cs => forall q q0,
    walk l t false cur cs = Some q0 -> lookup t q0 = None ->
    walk l t true cur cs = Some q -> q = q0)).
  - intros l cur a b. rewrite !walk_nil. congruence.
  - intros l cur r IH a b. rewrite !walk_cur. apply IH.
  - intros l cur r IH a b. rewrite !walk_up. apply IH.
  - intros l cur m r HD HL a b. rewrite !walk_nm.
    destruct (lookup t (cur ++ [m])) as [[|j|target]|] eqn:LL.
    + apply (HD eq_refl).
    + destruct r; congruence.
    + destruct r as [|c r]; [congruence|]. destruct l as [|l]; [discriminate|].
      apply (HL target l eq_refl eq_refl).
    + destruct r; congruence.
Qed.

Lemma resolve_missing : forall s p q q0, resolve false s p = Some q0 ->
  lookup (s_nodes s) q0 = None -> resolve true s p = Some q -> q = q0.
Proof.
  intros s p q q0. rewrite !resolve_eq. generalize MAX_LINKS (start s p) (p_comps p).
  intros. eapply walk_missing; eassumption.
Qed.

Lemma resolve_nodes : forall f s s' p, s_nodes s' = s_nodes s -> s_cwd s' = s_cwd s ->
  resolve f s' p = resolve f s p.
Proof. intros f s s' p A B. unfold resolve. rewrite A, B. reflexivity. Qed.

Lemma stat_resolve : forall s p n, stat s p = Some n ->
  exists q q0, resolve true s p = Some q /\ lookup (s_nodes s) q = Some n
    /\ resolve false s p = Some q0.
Proof.
  intros s p n H. unfold stat in H. destruct (resolve true s p) as [q|] eqn:R; [|discriminate].
  destruct (resolve_nofollow _ _ _ R) as [q0 R0]. exists q, q0. auto.
Qed.

(** What happens to resolution when names that are not directories vanish. *)
Definition shrunk (t t' : nodes) : Prop := forall r,
  lookup t' r = lookup t r \/ (lookup t' r = None /\ lookup t r <> Some NDir).

Lemma walk_shrunk : forall t t', shrunk t t' ->
  forall l f cur cs r, walk l t' f cur cs = Some r -> lookup t' r <> None ->
  walk l t f cur cs = Some r.
Proof.
  intros t t' S l f cur cs. revert l cur cs.
  apply (walk_ind t (fun l cur cs => forall r,
    walk l t' f cur cs = Some r -> lookup t' r <> None -> walk l t f cur cs = Some r)).
  - intros l cur r. rewrite !walk_nil. auto.
  - intros l cur r IH x. rewrite !walk_cur. apply IH.
  - intros l cur r IH x. rewrite !walk_up. apply IH.
  - intros l cur n r HD HL x. rewrite !walk_nm.
    destruct (S (cur ++ [n])) as [E|[E _]].
    + rewrite E. destruct (lookup t (cur ++ [n])) as [[|j|target]|] eqn:LL; auto.
      destruct r as [|c r]; destruct f; auto; destruct l as [|l]; auto.
    + rewrite E. destruct r; [|discriminate]. intros H N. injection H as <-. contradiction.
Qed.

Definition lost_files (t t' : nodes) : Prop := forall r,
  lookup t' r = lookup t r \/ (lookup t' r = None /\ exists i, lookup t r = Some (NFile i)).

Lemma walk_lost_files : forall t t', lost_files t t' ->
  forall l f cur cs, walk l t' f cur cs = walk l t f cur cs.
Proof.
  intros t t' S l f cur cs. revert l cur cs.
  apply (walk_ind t (fun l cur cs => walk l t' f cur cs = walk l t f cur cs)).
  - intros. rewrite !walk_nil. reflexivity.
  - intros. rewrite !walk_cur. assumption.
  - intros. rewrite !walk_up. assumption.
  - intros l cur n r HD HL. rewrite !walk_nm.
    destruct (S (cur ++ [n])) as [E|[E [i E2]]].
    + rewrite E. destruct (lookup t (cur ++ [n])) as [[|j|target]|] eqn:LL; auto.
      destruct r as [|c r]; destruct f; auto; destruct l as [|l]; auto.
    + rewrite E, E2. reflexivity.
Qed.

Lemma resolve_lost_files : forall f s s' p,
  lost_files (s_nodes s) (s_nodes s') -> s_cwd s' = s_cwd s ->
  resolve f s' p = resolve f s p.
Proof.
  intros f s s' p L C. rewrite !resolve_eq. unfold start. rewrite C.
  apply walk_lost_files, L.
Qed.

Lemma resolve_shrunk : forall f s s' p r,
  shrunk (s_nodes s) (s_nodes s') -> s_cwd s' = s_cwd s ->
  resolve f s' p = Some r -> lookup (s_nodes s') r <> None -> resolve f s p = Some r.
Proof.
  intros f s s' p r L C. rewrite !resolve_eq. unfold start. rewrite C.
  apply walk_shrunk, L.
Qed.

(** A path below a directory, by names. *)
Lemma walk_names_nofollow : forall t l rel q,
  (forall a b, rel = a ++ b -> a <> [] -> b <> [] -> lookup t (q ++ a) = Some NDir) ->
  walk l t false q (map Nm rel) = Some (q ++ rel).
Proof.
  intros t l. induction rel as [|m rel IH]; intros q D.
  - cbn. rewrite walk_nil, app_nil_r. reflexivity.
  - cbn [map]. rewrite walk_nm. destruct rel as [|k rel].
    + cbn [map]. destruct (lookup t (q ++ [m])) as [[|i|target]|] eqn:L; auto.
      rewrite walk_nil. reflexivity.
    + rewrite (D [m] (k :: rel)) by (try reflexivity; discriminate).
      replace (q ++ m :: k :: rel) with ((q ++ [m]) ++ k :: rel)
        by (rewrite <- app_assoc; reflexivity).
      apply IH. intros a b E NA NB. rewrite <- app_assoc. cbn.
      apply (D (m :: a) b); [cbn; rewrite E; reflexivity|discriminate|exact NB].
Qed.

Lemma walk_below : forall t f l cur cs q rel,
  walk l t true cur cs = Some q -> lookup t q = Some NDir -> rel <> [] ->
  (forall a b, rel = a ++ b -> a <> [] -> b <> [] -> lookup t (q ++ a) = Some NDir) ->
  (f = false \/ forall target, lookup t (q ++ rel) <> Some (NLink target)) ->
  walk l t f cur (cs ++ map Nm rel) = Some (q ++ rel).
Proof.
  intros t f l cur cs q rel R L NR D NL.
  destruct (walk_app t f (map Nm rel) l cur cs q R L) as [l' [_ ->]].
  { destruct rel; [contradiction|discriminate]. }
  destruct NL as [->|NL]; [apply walk_names_nofollow|apply walk_names]; assumption.
Qed.

Lemma resolve_below : forall f s p q rel,
  resolve true s p = Some q -> lookup (s_nodes s) q = Some NDir -> rel <> [] ->
  (forall a b, rel = a ++ b -> a <> [] -> b <> [] -> lookup (s_nodes s) (q ++ a) = Some NDir) ->
  (f = false \/ forall target, lookup (s_nodes s) (q ++ rel) <> Some (NLink target)) ->
  resolve f s (mkPath (p_abs p) (p_comps p ++ map Nm rel)) = Some (q ++ rel).
Proof.
  intros f s p q rel R L NR D NL. rewrite resolve_eq in *. apply walk_below; assumption.
Qed.

(** A removed name is gone, whatever it was. *)
Lemma walk_removed : forall t q, q <> [] -> lookup t q <> Some NDir ->
  forall l cur cs, walk l t false cur cs = Some q ->
  walk l (remove_node t q) true cur cs = Some q
  \/ walk l (remove_node t q) true cur cs = None.
Proof.
  intros t q N ND l cur cs. revert l cur cs.
  apply (walk_ind t (fun l cur cs => walk l t false cur cs = Some q ->
    walk l (remove_node t q) true cur cs = Some q
    \/ walk l (remove_node t q) true cur cs = None)).
  - intros l cur. rewrite !walk_nil. auto.
  - intros l cur r IH. rewrite !walk_cur. apply IH.
  - intros l cur r IH. rewrite !walk_up. apply IH.
  - intros l cur n r HD HL. rewrite !walk_nm, lookup_remove by exact N.
    destruct (cpath_eqb (cur ++ [n]) q) eqn:E.
    + destruct r; auto. apply cpath_eqb_eq in E. rewrite E. auto.
    + apply cpath_eqb_neq in E.
      destruct (lookup t (cur ++ [n])) as [[|j|target]|] eqn:LL; auto.
      destruct r as [|c r]; [intros H; injection H as H; contradiction|].
      destruct l as [|l]; auto.
Qed.

Lemma stat_removed : forall s s' p q, s_cwd s' = s_cwd s ->
  s_nodes s' = remove_node (s_nodes s) q -> resolve false s p = Some q ->
  q <> [] -> lookup (s_nodes s) q <> Some NDir -> stat s' p = None.
Proof.
  intros s s' p q C E R N ND. unfold stat. rewrite resolve_eq in *. unfold start in *.
  rewrite C, E.
  destruct (walk_removed (s_nodes s) q N ND _ _ _ R) as [->| ->]; [|reflexivity].
  rewrite lookup_remove by exact N. rewrite cpath_eqb_refl. reflexivity.
Qed.
