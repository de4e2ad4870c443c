(** Making directories from several threads at once. *)
From Coq Require Import List Arith Ascii String Bool Lia.
From Verif Require Import Bytes Outcome IO Primitives FS Archive.
From Verif Require Import FSSpec FSFacts EraseSched ArchiveSpec ArchiveWalk ArchiveProofs RestoreSpec.
Import ListNotations.
Local Open Scope nat_scope.
Local Open Scope list_scope.
Strategy 1000 [walk MAX_LINKS resolve].

(** ** Components without [..] *)

Definition plain (cs : list comp) : Prop := Forall (fun c => c <> Up) cs.

Notation nm := names_of.

Lemma nm_app : forall a b, nm (a ++ b) = nm a ++ nm b.
Proof.
  induction a as [|c a IH]; intros b; cbn; [reflexivity|].
  destruct c; cbn; rewrite IH; reflexivity.
Qed.

Lemma nm_names : forall a, nm (map Nm a) = a.
Proof. induction a as [|x a IH]; cbn; congruence. Qed.

Lemma plain_names : forall a, plain (map Nm a).
Proof. induction a; constructor; [discriminate|assumption]. Qed.

Lemma lexical_plain : forall cs q, plain cs -> lexical q cs = q ++ nm cs.
Proof.
  induction cs as [|c cs IH]; intros q P; cbn; [rewrite app_nil_r; reflexivity|].
  inversion P; subst. destruct c; [apply IH; assumption|contradiction|].
  rewrite IH by assumption. rewrite <- app_assoc. reflexivity.
Qed.

Lemma dropcur_plain : forall l l', dropcur l l' -> plain l -> plain l'.
Proof.
  induction 1; intros P; [constructor| |]; inversion P; subst; [constructor|]; auto.
  apply IHdropcur. assumption.
Qed.

Lemma dropcur_nm : forall l l', dropcur l l' -> nm l' = nm l.
Proof. induction 1; cbn; [reflexivity| |exact IHdropcur]. destruct c; congruence. Qed.

(** The tree below [q] holds directories at [a] and on the way. *)
Definition dirs (t : nodes) (q : cpath) (a : list string) : Prop :=
  forall x y, a = x ++ y -> x <> [] -> lookup t (q ++ x) = Some NDir.

Lemma dirs_shorter : forall t q a b, dirs t q (a ++ b) -> dirs t q a.
Proof. intros t q a b D x y E N. apply (D x (y ++ b)); [|exact N]. rewrite E, app_assoc. reflexivity. Qed.

Lemma dirs_nil : forall t q, dirs t q [].
Proof. intros t q x y E N. symmetry in E. apply app_eq_nil in E. tauto. Qed.

Lemma dirs_snoc : forall t q a n, dirs t q a -> lookup t (q ++ a ++ [n]) = Some NDir ->
  dirs t q (a ++ [n]).
Proof.
  intros t q a n D L x y E N. destruct y as [|m y' _] using rev_ind.
  - rewrite app_nil_r in E. subst x. exact L.
  - rewrite app_assoc in E. apply app_inj_tail in E. destruct E as [E _].
    apply (D x y'); assumption.
Qed.

Lemma dirs_grown : forall t t' q a, grown t t' -> dirs t q a -> dirs t' q a.
Proof. intros t t' q a G D x y E N. apply G, (D x y); assumption. Qed.

(** ** Resolving plain components below a directory *)

Lemma walk_plain_inv : forall t l f d q n r, plain d ->
  (forall x y target, nm d ++ [n] = x ++ y -> x <> [] -> lookup t (q ++ x) <> Some (NLink target)) ->
  walk l t f q (d ++ [Nm n]) = Some r -> r = q ++ nm d ++ [n] /\ dirs t q (nm d).
Proof.
  intros t l f. induction d as [|c d IH]; intros q n r P NL W.
  - cbn [app] in W. rewrite walk_nm in W. split; [|apply dirs_nil].
    cbn [nm app] in *.
    pose proof (NL [n] [] ) as NL1. cbn in NL1.
    destruct (lookup t (q ++ [n])) as [[|i|target]|] eqn:L.
    + rewrite walk_nil in W. congruence.
    + congruence.
    + exfalso. apply (NL1 target); congruence.
    + congruence.
  - inversion P as [|c' d' C P']; subst. cbn [app] in W. destruct c as [| |m]; [|contradiction|].
    + rewrite walk_cur in W. apply IH; assumption.
    + rewrite walk_nm in W. cbn [nm] in *.
      assert (L : lookup t (q ++ [m]) = Some NDir).
      { pose proof (NL [m] (nm d ++ [n])) as NL1. cbn in NL1.
        destruct (lookup t (q ++ [m])) as [[|i|target]|] eqn:L; [reflexivity| | |];
          try (destruct d; discriminate).
        exfalso. apply (NL1 target); congruence. }
      rewrite L in W. apply IH in W; [|assumption|].
      * destruct W as [W D]. split; [rewrite W, <- !app_assoc; reflexivity|].
        intros x y E N. destruct x as [|m' x]; [contradiction|]. cbn in E. injection E as E1 E2. subst m'.
        destruct x as [|m2 x]; [exact L|].
        replace (q ++ m :: m2 :: x) with ((q ++ [m]) ++ m2 :: x) by (rewrite <- app_assoc; reflexivity).
        apply (D (m2 :: x) y); [exact E2|discriminate].
      * intros x y target E N. rewrite <- app_assoc. apply (NL (m :: x) y target); [|discriminate].
        cbn. rewrite E. reflexivity.
Qed.

Lemma walk_plain : forall t l f d q n, plain d -> dirs t q (nm d) ->
  (forall target, lookup t (q ++ nm d ++ [n]) <> Some (NLink target)) ->
  walk l t f q (d ++ [Nm n]) = Some (q ++ nm d ++ [n]).
Proof.
  intros t l f. induction d as [|c d IH]; intros q n P D NL.
  - cbn [app nm] in *. rewrite walk_nm.
    destruct (lookup t (q ++ [n])) as [[|i|target]|] eqn:L; try reflexivity.
    + apply walk_nil.
    + exfalso. apply (NL target). reflexivity.
  - inversion P as [|c' d' C P']; subst. cbn [app]. destruct c as [| |m]; [|contradiction|].
    + rewrite walk_cur. apply IH; assumption.
    + rewrite walk_nm. cbn [nm] in *.
      rewrite (D [m] (nm d)) by (discriminate || reflexivity).
      rewrite IH; [rewrite <- app_assoc; reflexivity|assumption| |].
      * intros x y E N. rewrite <- app_assoc. apply (D (m :: x) y); [|discriminate]. cbn. congruence.
      * intros target. rewrite <- app_assoc. apply NL.
Qed.

Definition empty_path (p : path) : bool :=
  negb (p_abs p) && match p_comps p with [] => true | _ => false end.

Lemma create_dir_all_eq : forall p, create_dir_all p
  = if empty_path p then rret tt else
    b <~ act (mkdir p) ;;
    match b with
    | None => rret tt
    | Some false => d <~ act (fun s => (is_dir s p, s)) ;;
                    if (d : bool) then rret tt else rerr StCreateDir
    | Some true =>
        match rev (components p) with
        | [] => rerr StCreateDir
        | _ :: rcs' => create_parents (p_abs p) rcs' ~;; mkdir_or_is_dir p
        end
    end.
Proof. intros [[|] [|c cs]]; reflexivity. Qed.

(** ** The threads *)

Section Threads.

Variables (s1 : sys) (abs : bool) (c0 : list comp) (q0 : cpath).
Hypothesis NF1 : no_faults s1.
Hypothesis BASE : resolve true s1 (mkPath abs c0) = Some q0.
Hypothesis DIR0 : lookup (s_nodes s1) q0 = Some NDir.

(** The directories wanted, as names below [q0]. *)
Variable W : list string -> Prop.
Hypothesis W_prefix : forall a b, W (a ++ b) -> a <> [] -> W a.
Hypothesis W_free : forall a, W a ->
  lookup (s_nodes s1) (q0 ++ a) = None \/ lookup (s_nodes s1) (q0 ++ a) = Some NDir.

(** States reached: only wanted directories are added. *)
Record good (s : sys) : Prop := {
  g_calm : no_faults s;
  g_cwd : s_cwd s = s_cwd s1;
  g_data : s_data s = s_data s1;
  g_next : s_next s = s_next s1;
  g_rng : s_rng s = s_rng s1;
  g_nodes : forall r, lookup (s_nodes s) r = lookup (s_nodes s1) r
    \/ (lookup (s_nodes s1) r = None /\ lookup (s_nodes s) r = Some NDir
        /\ exists a, W a /\ r = q0 ++ a)
}.

Definition later (s s' : sys) : Prop := grown (s_nodes s) (s_nodes s').

Lemma good_start : good s1.
Proof. constructor; auto. Qed.

Lemma good_grown : forall s, good s -> grown (s_nodes s1) (s_nodes s).
Proof. intros s G r n L. destruct (g_nodes s G r) as [X|[X _]]; congruence. Qed.

Lemma good_free : forall s a, good s -> W a ->
  lookup (s_nodes s) (q0 ++ a) = None \/ lookup (s_nodes s) (q0 ++ a) = Some NDir.
Proof.
  intros s a G A. destruct (g_nodes s G (q0 ++ a)) as [X|[_ [X _]]]; [|auto].
  rewrite X. apply W_free, A.
Qed.

Lemma base_at : forall s c', good s -> dropcur c0 c' ->
  resolve true s (mkPath abs c') = Some q0 /\ lookup (s_nodes s) q0 = Some NDir.
Proof.
  intros s c' G D. assert (L : lookup (s_nodes s) q0 = Some NDir) by (apply (good_grown s G), DIR0).
  split; [|exact L].
  assert (R1 : resolve true s1 (mkPath abs c') = Some q0).
  { rewrite resolve_eq in *. cbn [p_comps p_abs start] in *.
    eapply walk_dropcur; eauto. }
  eapply resolve_grown_some; eauto using good_grown. apply (g_cwd s G).
Qed.

Lemma place_inv : forall s f c' d n r, good s -> dropcur c0 c' -> plain d -> W (nm d ++ [n]) ->
  resolve f s (mkPath abs (c' ++ d ++ [Nm n])) = Some r ->
  r = q0 ++ nm d ++ [n] /\ dirs (s_nodes s) q0 (nm d).
Proof.
  intros s f c' d n r G D P HW H. destruct (base_at s c' G D) as [B L].
  rewrite resolve_eq in *. cbn [p_comps p_abs] in *.
  replace (start s (mkPath abs (c' ++ d ++ [Nm n]))) with (start s (mkPath abs c')) in H by reflexivity.
  destruct (walk_app (s_nodes s) f (d ++ [Nm n]) MAX_LINKS _ c' q0 B L) as [l' [_ X]].
  { destruct d; discriminate. }
  rewrite X in H. apply walk_plain_inv in H; [exact H|exact P|].
  intros x y target E N LK. rewrite E in HW. apply W_prefix in HW; [|exact N].
  destruct (good_free s x G HW); congruence.
Qed.

Lemma place_at : forall s f c' d n, good s -> dropcur c0 c' -> plain d -> W (nm d ++ [n]) ->
  dirs (s_nodes s) q0 (nm d) ->
  resolve f s (mkPath abs (c' ++ d ++ [Nm n])) = Some (q0 ++ nm d ++ [n]).
Proof.
  intros s f c' d n G D P HW HD. destruct (base_at s c' G D) as [B L].
  rewrite resolve_eq in *. cbn [p_comps p_abs] in *.
  replace (start s (mkPath abs (c' ++ d ++ [Nm n]))) with (start s (mkPath abs c')) by reflexivity.
  destruct (walk_app (s_nodes s) f (d ++ [Nm n]) MAX_LINKS _ c' q0 B L) as [l' [_ X]].
  { destruct d; discriminate. }
  rewrite X. apply walk_plain; auto. intros target LK.
  destruct (good_free s _ G HW); congruence.
Qed.

(** [r] finishes well within [n] steps, whatever good things happen between its
    steps, and then [Q] holds. *)
Fixpoint safe {E} (n : nat) (r : R E unit) (Q : sys -> Prop) (s : sys) : Prop :=
  match r with
  | Done (Ok _) => Q s
  | Done _ => False
  | Step X m k =>
      match n with
      | O => False
      | S n' => forall s', good s' -> later s s' ->
          let '(x, s2) := m s' in good s2 /\ later s' s2 /\ safe n' (k x) Q s2
      end
  end.

Definition stable (Q : sys -> Prop) : Prop := forall s s', later s s' -> Q s -> Q s'.

Lemma later_refl : forall s, later s s.
Proof. intros s. apply grown_refl. Qed.
Lemma later_trans : forall a b c, later a b -> later b c -> later a c.
Proof. intros a b c. apply grown_trans. Qed.

Lemma safe_later : forall {E} n (r : R E unit) Q s s', stable Q -> later s s' ->
  safe n r Q s -> safe n r Q s'.
Proof.
  intros E n r Q s s' ST L H. destruct r as [o|X m k].
  - destruct n; destruct o; try contradiction; cbn [safe] in *; eapply ST; eauto.
  - destruct n as [|n]; [contradiction|]. cbn [safe] in *. intros s2 G L2.
    apply H; [exact G|]. eapply later_trans; eauto.
Qed.

Lemma safe_more : forall {E} n n' (r : R E unit) Q s, n <= n' -> safe n r Q s -> safe n' r Q s.
Proof.
  intros E n. induction n as [|n IH]; intros n' r Q s LE H.
  - destruct r as [o|X m k]; [destruct n'; exact H|contradiction].
  - destruct n' as [|n']; [lia|]. destruct r as [o|X m k]; [exact H|].
    cbn [safe] in *. intros s' G L. specialize (H s' G L).
    destruct (m s') as [x s2]. destruct H as [H1 [H2 H3]]. split; [exact H1|]. split; [exact H2|].
    apply IH; [lia|exact H3].
Qed.

Lemma safe_bind : forall {E} n m (r : R E unit) (k : unit -> R E unit) (Q Q' : sys -> Prop) s,
  good s -> safe n r Q s ->
  (forall s', good s' -> later s s' -> Q s' -> safe m (k tt) Q' s') ->
  safe (n + m) (rbind r k) Q' s.
Proof.
  intros E n. induction n as [|n IH]; intros m r k Q Q' s G H K.
  - destruct r as [o|X c f]; [|contradiction]. destruct o as [u|e| |]; try contradiction.
    destruct u. cbn [rbind Nat.add]. apply K; [exact G|apply later_refl|exact H].
  - destruct r as [o|X c f].
    + destruct o as [u|e| |]; try contradiction. destruct u. cbn [rbind].
      eapply safe_more; [|apply K; [exact G|apply later_refl|exact H]]. lia.
    + cbn [rbind Nat.add safe] in *. intros s' G' L. specialize (H s' G' L).
      destruct (c s') as [x s2]. destruct H as [H1 [H2 H3]].
      split; [exact H1|]. split; [exact H2|]. eapply IH; eauto.
      intros s3 G3 L3. apply K; [exact G3|]. eapply later_trans; [exact L|]. eapply later_trans; eauto.
Qed.

Lemma safe_map_err : forall {E E'} (g : E -> E') n (r : R E unit) Q s,
  safe n r Q s -> safe n (rmap_err g r) Q s.
Proof.
  intros E E' g n. induction n as [|n IH]; intros r Q s H.
  - destruct r as [o|X c f]; [destruct o; exact H|contradiction].
  - destruct r as [o|X c f]; [destruct o; exact H|].
    cbn [rmap_err safe] in *. intros s' G' L. specialize (H s' G' L).
    destruct (c s') as [x s2]. destruct H as [H1 [H2 H3]]. auto.
Qed.

(** *** [mkdir] *)

Definition Q (a : list string) (s : sys) : Prop := dirs (s_nodes s) q0 a.

Lemma Q_stable : forall a, stable (Q a).
Proof. intros a s s' L. apply dirs_grown, L. Qed.

Lemma Q_snoc_inv : forall s a n, good s -> W (a ++ [n]) -> Q a s ->
  lookup (s_nodes s) (q0 ++ a ++ [n]) <> None -> Q (a ++ [n]) s.
Proof.
  intros s a n G HW D L. apply dirs_snoc; [exact D|].
  destruct (good_free s _ G HW); [contradiction|assumption].
Qed.

Lemma mkdir_good : forall s c' d n x s', good s -> dropcur c0 c' -> plain d -> W (nm d ++ [n]) ->
  mkdir (mkPath abs (c' ++ d ++ [Nm n])) s = (x, s') ->
  good s' /\ later s s'
  /\ ((x = Some true /\ ~ Q (nm d) s') \/ (x = Some false /\ Q (nm d ++ [n]) s')
      \/ (x = None /\ Q (nm d ++ [n]) s')).
Proof.
  intros s c' d n x s' G D P HW H. apply mkdir_any in H.
  destruct H as [[NX [_ H]]|[r [R [L [X [HN [HD [HX [HC [HT [HR [HL HF]]]]]]]]]]]].
  - destruct (H (g_calm s G)) as [-> [[R X]|[r [nd [R [L X]]]]]].
    + split; [exact G|]. split; [apply later_refl|]. left. split; [exact X|].
      intros HQ. rewrite place_at in R by assumption. discriminate.
    + split; [exact G|]. split; [apply later_refl|]. right. left. split; [exact X|].
      apply place_inv in R; try assumption. destruct R as [-> R].
      apply Q_snoc_inv; auto. congruence.
  - apply place_inv in R; try assumption. destruct R as [-> R].
    assert (LT : later s s') by (unfold later; rewrite HN; apply grown_add, L).
    assert (G' : good s').
    { constructor; try congruence.
      - apply HF, G.
      - rewrite HC. apply G.
      - rewrite HD. apply G.
      - rewrite HX. apply G.
      - rewrite HR. apply G.
      - intros r. rewrite HN, lookup_add by exact L.
        destruct (cpath_eqb r (q0 ++ nm d ++ [n])) eqn:E; [|apply G].
        apply cpath_eqb_eq in E. subst r. right.
        destruct (g_nodes s G (q0 ++ nm d ++ [n])) as [X'|[X' _]]; [|eauto].
        rewrite <- X', L. eauto. }
    split; [exact G'|]. split; [exact LT|]. right. right. split; [exact X|].
    apply Q_snoc_inv; auto.
    + eapply Q_stable; eauto.
    + rewrite HN, lookup_add, cpath_eqb_refl by exact L. discriminate.
Qed.

Lemma is_dir_good : forall s c' d n, good s -> dropcur c0 c' -> plain d -> W (nm d ++ [n]) ->
  Q (nm d ++ [n]) s -> is_dir s (mkPath abs (c' ++ d ++ [Nm n])) = true.
Proof.
  intros s c' d n G D P HW H. unfold is_dir, stat.
  rewrite place_at; auto; [|eapply dirs_shorter; exact H].
  rewrite (H (nm d ++ [n]) []); [reflexivity|rewrite app_nil_r; reflexivity|destruct (nm d); discriminate].
Qed.

(** The base directory itself *)
Lemma base_mkdir : forall s c', good s -> dropcur c0 c' ->
  mkdir (mkPath abs c') s = (Some false, s) /\ is_dir s (mkPath abs c') = true.
Proof.
  intros s c' G D. destruct (base_at s c' G D) as [B L]. split.
  - destruct (mkdir (mkPath abs c') s) as [x s'] eqn:H. apply mkdir_any in H.
    destruct (resolve_nofollow s _ q0 B) as [r R].
    destruct H as [[NX [_ H]]|[r' [R' [L' _]]]].
    + destruct (H (g_calm s G)) as [-> [[R' X]|[r' [nd [R' [L' X]]]]]]; congruence.
    + exfalso. pose proof (resolve_missing s _ q0 r' R' L' B). congruence.
  - unfold is_dir, stat. rewrite B, L. reflexivity.
Qed.

Lemma step_is_dir : forall {E} (e : E) p s (P : sys -> Prop), good s ->
  (forall s', good s' -> later s s' -> is_dir s' p = true /\ P s') ->
  safe 1 (rbind (act (fun s => (is_dir s p, s)))
            (fun d : bool => if d then rret tt else rerr e)) P s.
Proof.
  intros E e p s P G H. cbn [act rbind safe]. intros s' G' L.
  destruct (H s' G' L) as [H1 H2]. rewrite H1. cbn [rret rbind].
  split; [exact G'|]. split; [apply later_refl|]. exact H2.
Qed.

Lemma mkdir_or_is_dir_safe : forall c' d n s, good s -> dropcur c0 c' -> plain d -> W (nm d ++ [n]) ->
  Q (nm d) s ->
  safe 2 (mkdir_or_is_dir (mkPath abs (c' ++ d ++ [Nm n]))) (Q (nm d ++ [n])) s.
Proof.
  intros c' d n s G D P HW HQ. unfold mkdir_or_is_dir. cbn [act rbind]. cbn [safe].
  intros s' G' L. destruct (mkdir _ s') as [x s2] eqn:H.
  apply mkdir_good in H; auto. destruct H as [G2 [L2 H]].
  split; [exact G2|]. split; [exact L2|]. unfold rret. cbn [rbind].
  assert (Q2 : Q (nm d) s2) by (eapply Q_stable; [|exact HQ]; eapply later_trans; eauto).
  destruct H as [[_ X]|[[X H]|[X H]]]; [contradiction| |]; subst x.
  - apply (step_is_dir StCreateDir); [exact G2|]. intros s3 G3 L3.
    assert (Q3 : Q (nm d ++ [n]) s3) by (eapply Q_stable; eauto).
    split; [|exact Q3]. apply is_dir_good; auto.
  - exact H.
Qed.

Lemma base_safe : forall c' s, good s -> dropcur c0 c' ->
  safe 2 (create_parents abs (rev c')) (Q []) s.
Proof.
  intros c' s G D. destruct (rev c') as [|c rcs] eqn:RE.
  - apply (f_equal (@rev comp)) in RE. rewrite rev_involutive in RE. cbn in RE. subst c'.
    cbn [create_parents].
    assert (S2 : safe 2 (mkdir_or_is_dir (mkPath abs [])) (Q []) s).
    { unfold mkdir_or_is_dir. cbn [act rbind safe]. intros s' G' L.
      destruct (base_mkdir s' [] G' D) as [M ID]. rewrite M. unfold rret. cbn [rbind].
      split; [exact G'|]. split; [apply later_refl|].
      apply (step_is_dir StCreateDir); [exact G'|]. intros s3 G3 L3.
      split; [apply base_mkdir; auto|]. apply dirs_nil. }
    revert S2. generalize abs. intros [|] S2; [exact S2|]. cbn [rret safe]. apply dirs_nil.
  - cbn [create_parents]. rewrite <- RE, rev_involutive. cbn [act rbind safe]. intros s' G' L.
    destruct (base_mkdir s' c' G' D) as [M ID]. rewrite M. unfold rret. cbn [rbind].
    split; [exact G'|]. split; [apply later_refl|].
    apply (step_is_dir StCreateDir); [exact G'|]. intros s3 G3 L3.
    split; [apply base_mkdir; auto|]. apply dirs_nil.
Qed.

Lemma parents_safe : forall a c' s, good s -> dropcur c0 c' -> (a <> [] -> W a) ->
  safe (2 + 3 * List.length a) (create_parents abs (rev (c' ++ map Nm a))) (Q a) s.
Proof.
  induction a as [|n a IH] using rev_ind; intros c' s G D HW.
  - cbn [map]. rewrite app_nil_r. apply base_safe; assumption.
  - assert (WA : W (a ++ [n])) by (apply HW; destruct a; discriminate).
    assert (WA' : a <> [] -> W a) by (apply (W_prefix a [n]), WA).
    rewrite map_app, app_assoc, rev_app_distr. cbn [map rev app create_parents].
    rewrite app_length. cbn [List.length]. replace (2 + 3 * (List.length a + 1)) with (S ((2 + 3 * List.length a) + 2)) by lia.
    set (rp := rev (c' ++ map Nm a)).
    replace (rev rp ++ [Nm n]) with (c' ++ map Nm a ++ [Nm n]) by (unfold rp; rewrite rev_involutive, app_assoc; reflexivity).
    assert (NA : nm (map Nm a) = a) by apply nm_names.
    assert (WN : W (nm (map Nm a) ++ [n])) by (rewrite NA; exact WA).
    cbn [act rbind]. cbn [safe]. intros s' G' L.
    destruct (mkdir _ s') as [x s2] eqn:H.
    apply mkdir_good in H; auto using plain_names. rewrite NA in H. destruct H as [G2 [L2 H]].
    split; [exact G2|]. split; [exact L2|]. unfold rret at 1. cbn [rbind].
    destruct H as [[X _]|[[X H]|[X H]]]; subst x.
    + eapply safe_bind; [exact G2|apply IH; auto|].
      intros s3 G3 L3 Q3.
      pose proof (mkdir_or_is_dir_safe c' (map Nm a) n s3 G3 D (plain_names a) WN) as K.
      rewrite NA in K. apply K, Q3.
    + eapply safe_more; [|apply (step_is_dir StCreateDir); [exact G2|]]; [lia|]. intros s3 G3 L3.
      assert (Q3 : Q (a ++ [n]) s3) by (eapply Q_stable; eauto).
      split; [|exact Q3].
      apply is_dir_good; auto using plain_names. rewrite NA. exact Q3.
    + destruct (2 + 3 * List.length a + 2); exact H.
Qed.

(** *** [create_dir_all] *)

Lemma create_dir_safe : forall d n s, good s -> plain d -> W (nm d ++ [n]) ->
  (exists c', dropcur c0 c' /\
     components (mkPath abs (c0 ++ d ++ [Nm n])) = c' ++ map Nm (nm d ++ [n])) ->
  safe (5 + 3 * List.length (nm d)) (create_dir_all (mkPath abs (c0 ++ d ++ [Nm n])))
       (Q (nm d ++ [n])) s.
Proof.
  intros d n s G P HW [c' [D CO]].
  assert (WA' : nm d <> [] -> W (nm d)) by (apply (W_prefix (nm d) [n]), HW).
  assert (NE : empty_path (mkPath abs (c0 ++ d ++ [Nm n])) = false).
  { unfold empty_path. cbn [p_abs p_comps].
    assert (X : c0 ++ d ++ [Nm n] <> []).
    { intros X. apply app_eq_nil in X. destruct X as [_ X]. apply app_eq_nil in X. destruct X. discriminate. }
    destruct (c0 ++ d ++ [Nm n]); [contradiction|]. apply andb_false_r. }
  apply (f_equal (@rev comp)) in CO. rewrite map_app, (app_assoc c'), rev_app_distr in CO.
  cbn [map rev app] in CO.
  rewrite create_dir_all_eq, NE, CO. cbn [p_abs].
  replace (5 + 3 * List.length (nm d)) with (S ((2 + 3 * List.length (nm d)) + 2)) by lia.
  cbn [act rbind]. cbn [safe]. intros s' G' L.
  destruct (mkdir _ s') as [x s2] eqn:H.
  apply mkdir_good in H; auto using dropcur_refl. destruct H as [G2 [L2 H]].
  split; [exact G2|]. split; [exact L2|]. unfold rret at 1. cbn [rbind].
  destruct H as [[X _]|[[X H]|[X H]]]; subst x.
  - eapply safe_bind; [exact G2|apply parents_safe; auto|].
    intros s3 G3 L3 Q3. apply mkdir_or_is_dir_safe; auto using dropcur_refl.
  - eapply safe_more; [|apply (step_is_dir StCreateDir); [exact G2|]]; [lia|]. intros s3 G3 L3.
    assert (Q3 : Q (nm d ++ [n]) s3) by (eapply Q_stable; eauto).
    split; [|exact Q3]. apply is_dir_good; auto using dropcur_refl.
  - destruct (2 + 3 * List.length (nm d) + 2); exact H.
Qed.

(** The base directory. *)
Lemma create_base_safe : forall s, good s ->
  safe 2 (create_dir_all (mkPath abs c0)) (Q []) s.
Proof.
  intros s G. rewrite create_dir_all_eq.
  destruct (empty_path _); [cbn [rret safe]; apply dirs_nil|].
  cbn [act rbind safe]. intros s' G' L.
  destruct (base_mkdir s' c0 G' (dropcur_refl _)) as [M ID]. rewrite M. unfold rret. cbn [rbind].
  split; [exact G'|]. split; [apply later_refl|].
  apply (step_is_dir StCreateDir); [exact G'|]. intros s3 G3 L3.
  split; [apply base_mkdir; auto using dropcur_refl|]. apply dirs_nil.
Qed.

(** *** Schedules *)

Lemma sched_safe : forall {E} sched (ts : list (R E unit)) (P : nat -> sys -> Prop) (n : nat -> nat) s ts' s',
  good s -> (forall k, stable (P k)) ->
  (forall k t, nth_error ts k = Some t -> safe (n k) t (P k) s) ->
  run_sched sched ts s = (ts', s') ->
  good s' /\ later s s' /\ List.length ts' = List.length ts
  /\ forall k t, nth_error ts' k = Some t -> safe (n k - turns sched k) t (P k) s'.
Proof.
  intros E. induction sched as [|i sched IH]; intros ts P n s ts' s' G ST H R; cbn [run_sched turns] in *.
  - injection R as <- <-. split; [exact G|]. split; [apply later_refl|]. split; [reflexivity|].
    intros k t K. rewrite Nat.sub_0_r. apply H, K.
  - rewrite step_nth_spec in R.
    destruct (nth_error ts i) as [t|] eqn:T.
    2:{ destruct (IH ts P n s ts' s' G ST H R) as [A [B [C D]]].
        split; [exact A|]. split; [exact B|]. split; [exact C|].
        intros k t K. specialize (D k t K).
        destruct (i =? k) eqn:IK; [|exact D]. apply Nat.eqb_eq in IK. subst k.
        assert (X : nth_error ts' i <> None) by congruence.
        apply nth_error_Some in X. apply nth_error_None in T. lia. }
    assert (LI : i < List.length ts) by (apply nth_error_Some; congruence).
    destruct (tick t s) as [t' s2] eqn:TK.
    assert (K2 : good s2 /\ later s s2 /\ safe (n i - 1) t' (P i) s2).
    { specialize (H i t T). destruct t as [o|X m c].
      - cbn [tick] in TK. injection TK as <- <-. split; [exact G|]. split; [apply later_refl|].
        destruct o; destruct (n i); try contradiction; destruct (_ - 1); exact H.
      - destruct (n i) as [|ni]; [contradiction|]. cbn [safe] in H. specialize (H s G (later_refl s)).
        cbn [tick] in TK. destruct (m s) as [x s3]. injection TK as <- <-.
        destruct H as [H1 [H2 H3]]. split; [exact H1|]. split; [exact H2|].
        replace (S ni - 1) with ni by lia. exact H3. }
    destruct K2 as [G2 [L2 S2]].
    destruct (IH (set_nth i ts t') P (fun k => n k - (if i =? k then 1 else 0)) s2 ts' s' G2 ST) as [A [B [C D]]].
    + intros k tk K. destruct (Nat.eq_dec i k) as [<-|NE].
      * rewrite nth_set_same in K by exact LI. injection K as <-. rewrite Nat.eqb_refl. exact S2.
      * rewrite nth_set_other in K by exact NE. pose proof NE as NE'. apply Nat.eqb_neq in NE'. rewrite NE', Nat.sub_0_r.
        eapply safe_later; eauto.
    + exact R.
    + split; [exact A|]. split; [eapply later_trans; eauto|].
      rewrite set_nth_length in C. split; [exact C|].
      intros k tk K. specialize (D k tk K). cbv beta in D.
      replace (n k - ((if i =? k then 1 else 0) + turns sched k))
        with (n k - (if i =? k then 1 else 0) - turns sched k) by lia. exact D.
Qed.

Lemma join_safe : forall {E} (ts : list (R E unit)) (P : nat -> sys -> Prop) (n : nat -> nat) s,
  (forall k t, nth_error ts k = Some t -> safe (n k) t (P k) s) ->
  (join_all ts = Ok tt /\ forall k, k < List.length ts -> P k s)
  \/ (join_all ts = Diverge /\ exists k, k < List.length ts /\ 0 < n k).
Proof.
  intros E. induction ts as [|t ts IH]; intros P n s H.
  - left. split; [reflexivity|]. intros k K. cbn in K. lia.
  - pose proof (H 0 t eq_refl) as H0.
    specialize (IH (fun k => P (S k)) (fun k => n (S k)) s (fun k => H (S k))).
    destruct t as [o|X m c].
    + destruct o as [u|e| |]; try (destruct (n 0); contradiction).
      assert (P0 : P 0 s) by (destruct (n 0); exact H0). cbn [join_all].
      destruct IH as [[J A]|[J [k [K1 K2]]]].
      * left. split; [exact J|]. intros [|k] K; [exact P0|]. apply A. cbn in K. lia.
      * right. split; [exact J|]. exists (S k). cbn. split; [lia|exact K2].
    + right. split; [reflexivity|]. exists 0. cbn. split; [lia|].
      destruct (n 0); [contradiction|lia].
Qed.

End Threads.
