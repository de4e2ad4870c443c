(** The calls on the file storage. *)
From Coq Require Import List Arith ZArith Bool String Lia Permutation.
From Verif Require Import Bytes Outcome IO Primitives Overwrite FS FSSpec Erase ArchiveSpec MemStore MemSpec.
From Verif Require Import BytesFacts IOSpec IOFacts FSFacts EraseProofs EraseDirProofs EraseSched EraseMany PackPath RestorePack.
Import ListNotations.
Local Open Scope nat_scope.
Local Open Scope list_scope.
Strategy 1000 [walk MAX_LINKS resolve].

(** ** Changes of what is stored *)

Definition change (K : list string -> kept) (n : list string) (k : kept) : list string -> kept :=
  fun r => if cpath_eqb r n then k else K r.
Definition prune (K : list string -> kept) (n : list string) : list string -> kept :=
  fun r => if below n r then KNone else K r.

Definition holds (s : sys) (K : list string -> kept) : Prop :=
  plain_disk s /\ forall n, n <> [] -> on_disk s n = K n.

Lemma holds_ext : forall s K K', holds s K -> (forall n, n <> [] -> K n = K' n) -> holds s K'.
Proof. intros s K K' [A B] E. split; [exact A|]. intros n N. rewrite B, E by exact N. reflexivity. Qed.

(** ** Paths *)

Lemma sub_rel : forall n r, sub (rel n) r = rel (n ++ r).
Proof. intros. unfold sub, rel. cbn [p_abs p_comps]. rewrite map_app. reflexivity. Qed.

Lemma links_below : forall s q x, no_links_inside s q -> no_links_inside s (q ++ [x]).
Proof. intros s q x H r t [y ->]. apply H. exists ([x] ++ y). rewrite app_assoc. reflexivity. Qed.

Lemma names_walk : forall s, tree_ok s -> forall l f n cur, lookup (s_nodes s) cur = Some NDir ->
  no_links_inside s cur -> n <> [] ->
  walk l (s_nodes s) f cur (map Nm n)
  = match lookup (s_nodes s) (cur ++ removelast n) with Some NDir => Some (cur ++ n) | _ => None end.
Proof.
  intros s TO l f. induction n as [|x n IH]; intros cur D NL N; [contradiction|]. clear N.
  cbn [map]. rewrite walk_nm. destruct n as [|y n].
  - cbn [map removelast]. rewrite app_nil_r, D.
    destruct (lookup (s_nodes s) (cur ++ [x])) as [[|i|t]|] eqn:L; try reflexivity.
    + apply walk_nil.
    + exfalso. apply (NL (cur ++ [x]) t); [exists [x]; reflexivity|exact L].
  - change (removelast (x :: y :: n)) with (x :: removelast (y :: n)).
    assert (A : forall b, cur ++ x :: b = (cur ++ [x]) ++ b) by (intros; rewrite <- app_assoc; reflexivity).
    rewrite (A (removelast (y :: n))), (A (y :: n)).
    assert (Z : lookup (s_nodes s) (cur ++ [x]) <> Some NDir ->
       match lookup (s_nodes s) ((cur ++ [x]) ++ removelast (y :: n)) with
       | Some NDir => Some ((cur ++ [x]) ++ y :: n) | _ => None end = None).
    { intros ND. destruct (removelast (y :: n)) as [|b bs] eqn:RL.
      - rewrite app_nil_r. destruct (lookup (s_nodes s) (cur ++ [x])) as [[| |]|]; congruence.
      - destruct (lookup (s_nodes s) ((cur ++ [x]) ++ b :: bs)) as [[| |]|] eqn:L; try reflexivity.
        exfalso. apply ND. apply (ancestors s (b :: bs) (cur ++ [x]) TO); [discriminate|].
        eapply lookup_key; [|exact L]. intros E. apply app_eq_nil in E. destruct E. discriminate. }
    destruct (lookup (s_nodes s) (cur ++ [x])) as [[|i|t]|] eqn:L.
    + apply IH; [exact L|apply links_below; exact NL|discriminate].
    + symmetry. apply Z. congruence.
    + exfalso. apply (NL (cur ++ [x]) t); [exists [x]; reflexivity|exact L].
    + symmetry. apply Z. congruence.
Qed.

Section Disk.
Context (s : sys) (PD : plain_disk s).

Lemma rel_resolved : forall f n, n <> [] -> resolve f s (rel n)
  = match lookup (s_nodes s) (s_cwd s ++ removelast n) with Some NDir => Some (s_cwd s ++ n) | _ => None end.
Proof.
  intros f n N. rewrite resolve_eq. unfold rel, start. cbn [p_abs p_comps].
  apply names_walk; auto; apply PD.
Qed.

Lemma there : forall n x, n <> [] -> lookup (s_nodes s) (s_cwd s ++ n) = Some x ->
  lookup (s_nodes s) (s_cwd s ++ removelast n) = Some NDir.
Proof.
  intros n x N L. rewrite (app_removelast_last EmptyString N) in L. rewrite app_assoc in L.
  eapply parent_dir; [apply PD|exact L].
Qed.

Lemma rel_stat : forall n, n <> [] -> stat s (rel n) = lookup (s_nodes s) (s_cwd s ++ n).
Proof.
  intros n N. unfold stat. rewrite rel_resolved by exact N.
  destruct (lookup (s_nodes s) (s_cwd s ++ n)) as [x|] eqn:L.
  - rewrite (there n x N L). exact L.
  - destruct (lookup (s_nodes s) (s_cwd s ++ removelast n)) as [[| |]|]; try reflexivity. exact L.
Qed.

Lemma no_link : forall n t, lookup (s_nodes s) (s_cwd s ++ n) <> Some (NLink t).
Proof. intros n t. apply PD. exists n. reflexivity. Qed.

(** The three cases. *)
Lemma on_disk_none : forall n, on_disk s n = KNone -> lookup (s_nodes s) (s_cwd s ++ n) = None.
Proof.
  intros n H. unfold on_disk, at_place in H.
  destruct (lookup (s_nodes s) (s_cwd s ++ n)) as [[| |t]|] eqn:L; try discriminate; [|reflexivity].
  destruct (no_link _ _ L).
Qed.
Lemma on_disk_dir : forall n, on_disk s n = KDir -> lookup (s_nodes s) (s_cwd s ++ n) = Some NDir.
Proof.
  intros n H. unfold on_disk, at_place in H.
  destruct (lookup (s_nodes s) (s_cwd s ++ n)) as [[| |t]|] eqn:L; try discriminate. reflexivity.
Qed.
Lemma on_disk_file : forall n l, on_disk s n = KFile l ->
  exists i, lookup (s_nodes s) (s_cwd s ++ n) = Some (NFile i) /\ s_data s i = l.
Proof.
  intros n l H. unfold on_disk, at_place in H.
  destruct (lookup (s_nodes s) (s_cwd s ++ n)) as [[|i|t]|] eqn:L; try discriminate.
  exists i. split; [reflexivity|congruence].
Qed.

(** ** The storage *)

Lemma read_rel : forall n, n <> [] -> read_file (rel n) s
  = match lookup (s_nodes s) (s_cwd s ++ n) with
    | Some NDir => (Ok (EDir (rel n)), s)
    | Some (NFile i) => (Ok (EFile (mkHandle (rel n) i 0 [])), s)
    | _ => (Err StOpenRead, s)
    end.
Proof.
  intros n N. unfold read_file, is_dir. rewrite rel_stat by exact N.
  destruct (pd_calm s PD) as [F P].
  destruct (lookup (s_nodes s) (s_cwd s ++ n)) as [[|i|t]|] eqn:L; try reflexivity;
    rewrite call_or_calm by exact F; cbv beta; rewrite rel_stat, L by exact N; try reflexivity.
  unfold new_handle, next_plan. rewrite P. reflexivity.
Qed.

Lemma write_rel : forall n, n <> [] -> write_file (rel n) s
  = match lookup (s_nodes s) (s_cwd s ++ n) with
    | Some (NFile i) => (Ok (EFile (mkHandle (rel n) i 0 [])), with_data i [] [FTrunc i] s)
    | _ => (Err StOpenWrite, s)
    end.
Proof.
  intros n N. unfold write_file. destruct (pd_calm s PD) as [F P].
  rewrite call_or_calm by exact F. cbv beta. rewrite rel_stat by exact N.
  destruct (lookup (s_nodes s) (s_cwd s ++ n)) as [[|i|t]|] eqn:L; try reflexivity.
  unfold new_handle, next_plan, with_data. cbn [s_plans]. rewrite P. reflexivity.
Qed.

End Disk.

(** ** Changes of the disk *)

(** Content. *)
Lemma holds_data : forall s s' K n i l, holds s K -> n <> [] ->
  lookup (s_nodes s) (s_cwd s ++ n) = Some (NFile i) ->
  s_nodes s' = s_nodes s -> s_cwd s' = s_cwd s -> s_next s' = s_next s ->
  s_faults s' = s_faults s -> s_plans s' = s_plans s ->
  (forall j, j <> i -> s_data s' j = s_data s j) -> s_data s' i = l ->
  holds s' (change K n (KFile l)).
Proof.
  intros s s' K n i l [PD HK] N L EN EC EX EF EP DO DI. split.
  - destruct PD as [A [B1 B2] C D E F]. constructor; unfold tree_ok, no_faults, inodes_ok, no_links_inside, only_name in *;
      rewrite ?EN, ?EC, ?EX, ?EF, ?EP; auto.
  - intros r R. unfold change, on_disk, at_place. rewrite EN, EC.
    destruct (cpath_eqb r n) eqn:E.
    + apply cpath_eqb_eq in E. subst r. rewrite L, DI. reflexivity.
    + rewrite <- HK by exact R. unfold on_disk, at_place.
      destruct (lookup (s_nodes s) (s_cwd s ++ r)) as [[|j|t]|] eqn:LR; try reflexivity.
      destruct (Nat.eq_dec j i) as [->|NE]; [|rewrite DO by exact NE; reflexivity].
      exfalso. apply cpath_eqb_neq in E. apply E. apply (app_inv_head (s_cwd s)).
      apply (pd_names s PD (s_cwd s ++ n) (ex_intro _ n eq_refl) i _ L LR).
Qed.

Lemma holds_same : forall s s' K, holds s K ->
  s_nodes s' = s_nodes s -> s_cwd s' = s_cwd s -> s_next s' = s_next s ->
  s_faults s' = s_faults s -> s_plans s' = s_plans s ->
  (forall j, s_data s' j = s_data s j) -> holds s' K.
Proof.
  intros s s' K [PD HK] EN EC EX EF EP D. split.
  - destruct PD as [A [B1 B2] C D' E F]. constructor; unfold tree_ok, no_faults, inodes_ok, no_links_inside, only_name in *;
      rewrite ?EN, ?EC, ?EX, ?EF, ?EP; auto.
  - intros r R. rewrite <- HK by exact R. unfold on_disk, at_place. rewrite EN, EC.
    destruct (lookup (s_nodes s) (s_cwd s ++ r)) as [[|j|t]|]; try reflexivity. rewrite D. reflexivity.
Qed.

(** Removal. *)
Lemma holds_filter : forall s s' K K' g, holds s K ->
  s_nodes s' = filter (fun e => negb (g (fst e))) (s_nodes s) -> s_cwd s' = s_cwd s ->
  s_next s' = s_next s -> s_faults s' = s_faults s -> s_plans s' = s_plans s ->
  (forall j, g (s_cwd s ++ j) = false \/ j <> []) ->
  (forall r i, lookup (s_nodes s) r = Some (NFile i) -> g r = false -> s_data s' i = s_data s i) ->
  g [] = false -> g (s_cwd s) = false ->
  (forall r n, In (r ++ [n]) (map fst (s_nodes s)) -> g r = true -> g (r ++ [n]) = true) ->
  (forall n, n <> [] -> K' n = if g (s_cwd s ++ n) then KNone else K n) ->
  holds s' K'.
Proof.
  intros s s' K K' g [PD HK] EN EC EX EF EP _ DD G0 GC GB HK'.
  assert (LK : forall r, lookup (s_nodes s') r = if g r then None else lookup (s_nodes s) r).
  { intros r. rewrite EN. destruct r as [|x r]; [cbn; rewrite G0; reflexivity|]. cbn [lookup]. apply find_filter. }
  pose proof (trim s s' g (pd_tree s PD) EN EC G0 GB) as TR. destruct TR as [_ TO _].
  split.
  - destruct PD as [A [B1 B2] C D E F]. constructor.
    + exact TO.
    + split; congruence.
    + intros r i. rewrite LK, EX. destruct (g r); [discriminate|]. apply C.
    + rewrite EC, LK, GC. exact D.
    + intros r t I. rewrite LK. rewrite EC in I. destruct (g r); [discriminate|]. apply E, I.
    + intros r I i r'. rewrite !LK. rewrite EC in I. destruct (g r); [discriminate|]. destruct (g r'); [discriminate|].
      apply F, I.
  - intros n N. rewrite HK', <- HK by exact N. unfold on_disk, at_place. rewrite EC, LK.
    destruct (g (s_cwd s ++ n)) eqn:G; [reflexivity|].
    destruct (lookup (s_nodes s) (s_cwd s ++ n)) as [[|i|t]|] eqn:L; try reflexivity.
    rewrite (DD _ _ L G). reflexivity.
Qed.

Lemma tail_eqb : forall c a b, cpath_eqb (c ++ a) (c ++ b) = cpath_eqb b a.
Proof.
  intros c a b. destruct (cpath_eqb b a) eqn:E.
  - apply cpath_eqb_eq in E. subst. apply cpath_eqb_refl.
  - apply cpath_eqb_neq. apply cpath_eqb_neq in E. intros X. apply app_inv_head in X. congruence.
Qed.

Lemma tail_below : forall c a b, below (c ++ a) (c ++ b) = below a b.
Proof.
  intros c a b. unfold below. induction c as [|x c IH]; [reflexivity|]. cbn [app strip_prefix].
  rewrite String.eqb_refl. exact IH.
Qed.

Lemma app_ne : forall (c n : list string), n <> [] -> c ++ n <> [].
Proof. intros c n N E. apply app_eq_nil in E. destruct E. contradiction. Qed.

Lemma app_longer : forall (c n : list string), n <> [] -> cpath_eqb (c ++ n) c = false.
Proof.
  intros c n N. apply cpath_eqb_neq. intros E. apply (f_equal (@List.length string)) in E.
  rewrite app_length in E. destruct n; [contradiction|cbn in E; lia].
Qed.

Lemma holds_unlinked : forall s s' K n i, holds s K -> n <> [] ->
  lookup (s_nodes s) (s_cwd s ++ n) = Some (NFile i) ->
  s_nodes s' = remove_node (s_nodes s) (s_cwd s ++ n) -> s_cwd s' = s_cwd s ->
  s_next s' = s_next s -> s_faults s' = s_faults s -> s_plans s' = s_plans s ->
  (forall j, j <> i -> s_data s' j = s_data s j) ->
  holds s' (change K n KNone).
Proof.
  intros s s' K n i HD N L EN EC EX EF EP DD.
  apply (holds_filter s s' K _ (cpath_eqb (s_cwd s ++ n)) HD); auto.
  - intros j. destruct j; [left; rewrite app_nil_r; apply app_longer, N|right; discriminate].
  - intros r j LR E. apply DD. intros ->. apply cpath_eqb_neq in E.
    destruct HD as [PD _]. apply E. symmetry.
    apply (pd_names s PD (s_cwd s ++ n) (ex_intro _ n eq_refl) i r L LR).
  - apply cpath_eqb_neq. apply app_ne, N.
  - apply app_longer, N.
  - intros r m I E. apply cpath_eqb_eq in E. subst r. destruct HD as [PD _].
    destruct (pd_tree s PD) as (_ & _ & P). apply P in I. congruence.
  - intros r R. rewrite tail_eqb. reflexivity.
Qed.

Lemma holds_pruned : forall s s' K n, holds s K -> n <> [] ->
  s_nodes s' = filter (fun e => negb (below (s_cwd s ++ n) (fst e))) (s_nodes s) -> s_cwd s' = s_cwd s ->
  s_next s' = s_next s -> s_faults s' = s_faults s -> s_plans s' = s_plans s ->
  s_data s' = s_data s ->
  holds s' (prune K n).
Proof.
  intros s s' K n HD N EN EC EX EF EP DD.
  assert (G : below (s_cwd s ++ n) (s_cwd s) = false).
  { destruct (below (s_cwd s ++ n) (s_cwd s)) eqn:B; [|reflexivity]. apply below_inside in B.
    destruct B as [z E]. apply (f_equal (@List.length string)) in E. rewrite !app_length in E.
    destruct n; [contradiction|cbn in E; lia]. }
  apply (holds_filter s s' K _ (below (s_cwd s ++ n)) HD); auto.
  - intros j. destruct j; [left; rewrite app_nil_r; exact G|right; discriminate].
  - intros. rewrite DD. reflexivity.
  - pose proof (app_ne (s_cwd s) n N). destruct (s_cwd s ++ n); [contradiction|reflexivity].
  - intros r m _ B. apply below_inside in B. destruct B as [z ->]. apply below_inside.
    exists (z ++ [m]). rewrite app_assoc. reflexivity.
  - intros r R. unfold prune. rewrite tail_below. reflexivity.
Qed.

(** A new file. *)
Lemma holds_created : forall s s' K n l, holds s K -> n <> [] ->
  lookup (s_nodes s) (s_cwd s ++ n) = None ->
  lookup (s_nodes s) (s_cwd s ++ removelast n) = Some NDir ->
  s_nodes s' = s_nodes s ++ [(s_cwd s ++ n, NFile (s_next s))] -> s_cwd s' = s_cwd s ->
  s_next s' = S (s_next s) -> s_faults s' = s_faults s -> s_plans s' = s_plans s ->
  (forall j, j <> s_next s -> s_data s' j = s_data s j) -> s_data s' (s_next s) = l ->
  holds s' (change K n (KFile l)).
Proof.
  intros s s' K n l [PD HK] N L LP EN EC EX EF EP DO DI.
  assert (LK : forall r, lookup (s_nodes s') r
     = if cpath_eqb r (s_cwd s ++ n) then Some (NFile (s_next s)) else lookup (s_nodes s) r).
  { intros r. rewrite EN. apply lookup_add. exact L. }
  assert (FR : forall r i, lookup (s_nodes s) r = Some (NFile i) -> i <> s_next s).
  { intros r i LR E. subst i. apply (pd_inodes s PD) in LR. lia. }
  split.
  - pose proof PD as [A [B1 B2] C D E F]. constructor.
    + eapply (tree_add s s' (s_cwd s ++ removelast n) (last n EmptyString)); [exact A|exact LP| |].
      * rewrite <- app_assoc, <- app_removelast_last by exact N. exact L.
      * rewrite <- app_assoc, <- app_removelast_last by exact N. exact EN.
    + split; congruence.
    + intros r i. rewrite LK, EX. destruct (cpath_eqb r (s_cwd s ++ n)); [intros H; injection H as <-; lia|].
      intros H. apply C in H. lia.
    + rewrite EC, LK. replace (cpath_eqb (s_cwd s) (s_cwd s ++ n)) with false; [exact D|].
      symmetry. apply cpath_eqb_neq. intros X. pose proof (app_longer (s_cwd s) n N) as Y.
      rewrite <- X, cpath_eqb_refl in Y. discriminate.
    + intros r t I. rewrite LK. rewrite EC in I. destruct (cpath_eqb r (s_cwd s ++ n)); [discriminate|]. apply E, I.
    + intros r I i r'. rewrite !LK. rewrite EC in I.
      destruct (cpath_eqb r (s_cwd s ++ n)) eqn:E1; destruct (cpath_eqb r' (s_cwd s ++ n)) eqn:E2.
      * apply cpath_eqb_eq in E1, E2. congruence.
      * intros X Y. injection X as <-. destruct (FR _ _ Y eq_refl).
      * intros X Y. injection Y as <-. destruct (FR _ _ X eq_refl).
      * apply F, I.
  - intros r R. unfold change. unfold on_disk, at_place. rewrite EC, LK.
    rewrite tail_eqb. destruct (cpath_eqb n r) eqn:E.
    + apply cpath_eqb_eq in E. subst r. rewrite cpath_eqb_refl, DI. reflexivity.
    + assert (E' : cpath_eqb r n = false) by (apply cpath_eqb_neq; apply cpath_eqb_neq in E; congruence).
      rewrite E', <- HK by exact R. unfold on_disk, at_place.
      destruct (lookup (s_nodes s) (s_cwd s ++ r)) as [[|j|t]|] eqn:LR; try reflexivity.
      rewrite DO; [reflexivity|]. apply (FR _ _ LR).
Qed.

(** ** Using an open file *)

Lemma stream_disk : forall {A} (m : M dev io_error A) p i s a d',
  m (mkDev (s_data s i) 0 [] []) = (Ok a, d') -> d_plan d' = [] ->
  exists s', streaming FileStorage m (EFile (mkHandle p i 0 [])) s
    = (Ok (a, EFile (mkHandle p i (d_pos d') [])), s')
  /\ s_nodes s' = s_nodes s /\ s_cwd s' = s_cwd s /\ s_next s' = s_next s
  /\ s_faults s' = s_faults s /\ s_plans s' = s_plans s
  /\ (forall j, j <> i -> s_data s' j = s_data s j) /\ s_data s' i = d_data d'.
Proof.
  intros A m p i s a d' H P. unfold streaming. cbn [FileStorage st_is_dir entry_is_dir st_use file_use].
  unfold run_handle, ow_dev, zoom, handle_dev. cbn [fst snd h_ino h_pos h_plan h_path]. rewrite H.
  unfold move_handle. rewrite P. eexists. split; [reflexivity|].
  cbn [with_rng put_handle with_data s_nodes s_cwd s_next s_faults s_plans s_data h_ino].
  repeat split; [|apply set_data_eq]. intros j N. apply set_data_neq, N.
Qed.

Lemma write_whole : forall l, exists d', dev_write_all l (mkDev [] 0 [] []) = (Ok tt, d')
  /\ d_plan d' = [] /\ d_data d' = l.
Proof.
  intros l. rewrite dev_write_all_ok by reflexivity. eexists. split; [reflexivity|]. split; [reflexivity|].
  cbn [put_at d_data d_pos]. unfold write_at. cbn. rewrite skipn_nil, app_nil_r. destruct l; reflexivity.
Qed.

Lemma read_whole : forall l, exists d', dev_read_to_end (mkDev l 0 [] []) = (Ok l, d')
  /\ d_plan d' = [] /\ d_data d' = l.
Proof.
  intros l. destruct (dev_read_to_end (mkDev l 0 [] [])) as [o d'] eqn:H.
  apply dev_read_to_end_spec in H. cbn [d_data d_pos d_plan d_log skipn] in H.
  destruct H as (A & _ & B & C). destruct o; try contradiction. subst. eauto.
Qed.

(** ** The calls *)

Ltac fs := cbn [FileStorage st_create_file st_read_file st_write_file st_flush_file st_file_len
  st_remove_file st_remove_dir_all st_read_dir st_path st_is_dir].
Ltac open_call := unfold perform, sto, bind, map_err; fs.

Lemma calm : forall s K, holds s K -> s_faults s = [].
Proof. intros s K [P _]. apply P. Qed.

Lemma disk_put : forall s K n l, holds s K -> n <> [] ->
  exists s', perform FileStorage (Put n l) s
    = (match K n with
       | KNone => match removelast n with
                  | [] => Ok ADone
                  | p => match K p with KDir => Ok ADone | _ => Err (CeStore StCreateFile) end
                  end
       | _ => Err (CeStore StCreateFile)
       end, s')
  /\ holds s' (match K n with
       | KNone => match removelast n with
                  | [] => change K n (KFile l)
                  | p => match K p with KDir => change K n (KFile l) | _ => K end
                  end
       | _ => K
       end).
Proof.
  intros s K n l HD N. pose proof HD as [PD HK].
  assert (PAR : lookup (s_nodes s) (s_cwd s ++ removelast n) = Some NDir <->
                (removelast n = [] \/ K (removelast n) = KDir)).
  { split.
    - intros L. destruct (removelast n) as [|x r] eqn:E; [left; reflexivity|right].
      rewrite <- HK by discriminate. unfold on_disk, at_place. rewrite L. reflexivity.
    - intros [E|E]; [rewrite E, app_nil_r; apply PD|].
      destruct (removelast n) as [|x r]; [rewrite app_nil_r; apply PD|].
      rewrite <- HK in E by discriminate. apply on_disk_dir; assumption. }
  assert (NEW : K n = KNone -> lookup (s_nodes s) (s_cwd s ++ removelast n) = Some NDir ->
    exists s', perform FileStorage (Put n l) s = (Ok ADone, s') /\ holds s' (change K n (KFile l))).
  { intros KN LP. rewrite <- HK in KN by exact N. apply on_disk_none in KN; [|exact PD].
    open_call. unfold create_file. rewrite call_or_calm by apply (calm s K HD). cbv beta.
    rewrite rel_resolved, LP, KN by assumption.
    unfold new_handle, next_plan. cbn [s_plans]. destruct (pd_calm s PD) as [CF CP]. rewrite CP.
    set (s1 := mkSys _ _ _ _ _ _ _ _ _). destruct (write_whole l) as (d' & W & P & DD).
    destruct (stream_disk (dev_write_all l) (rel n) (s_next s) s1 tt d') as (s2 & ST & S1 & S2 & S3 & S4 & S5 & S6 & S7); auto.
    { subst s1. cbn [s_data]. rewrite set_data_eq. exact W. }
    rewrite ST. cbn [snd flush_file]. unfold flush. rewrite call_or_calm by (rewrite S4; apply (calm s K HD)).
    eexists. split; [reflexivity|].
    eapply (holds_created s s2 K n l HD N KN LP); try assumption.
    - rewrite S5. subst s1. cbn [s_plans]. congruence.
    - intros j J. rewrite S6 by exact J. subst s1. cbn [s_data]. apply set_data_neq, J.
    - congruence. }
  assert (OLD : (K n <> KNone \/ lookup (s_nodes s) (s_cwd s ++ removelast n) <> Some NDir) ->
    perform FileStorage (Put n l) s = (Err (CeStore StCreateFile), s)).
  { intros C. open_call. unfold create_file. rewrite call_or_calm by apply (calm s K HD). cbv beta.
    rewrite rel_resolved by assumption.
    destruct (lookup (s_nodes s) (s_cwd s ++ removelast n)) as [[| |]|] eqn:LP; try reflexivity.
    destruct (lookup (s_nodes s) (s_cwd s ++ n)) as [x|] eqn:L; [reflexivity|].
    destruct C as [C|C]; [|congruence]. exfalso. apply C. rewrite <- HK by exact N.
    unfold on_disk, at_place. rewrite L. reflexivity. }
  destruct (K n) eqn:KN.
  - destruct (removelast n) as [|x r] eqn:E; [apply NEW; [reflexivity|apply PAR; auto]|].
    destruct (K (x :: r)) eqn:KP; [|apply NEW; [reflexivity|apply PAR; auto]|];
      (exists s; split; [apply OLD; right; intros X; apply PAR in X; destruct X; congruence|exact HD]).
  - exists s. split; [apply OLD; left; discriminate|exact HD].
  - exists s. split; [apply OLD; left; discriminate|exact HD].
Qed.

Lemma disk_get : forall s K n, holds s K -> n <> [] ->
  exists s', perform FileStorage (Get n) s
    = (match K n with
       | KNone => Err (CeStore StOpenRead) | KDir => Err (CeStore StFileAccess)
       | KFile l => Ok (AContent l) end, s')
  /\ holds s' K.
Proof.
  intros s K n HD N. pose proof HD as [PD HK]. rewrite <- HK by exact N. open_call. rewrite read_rel by assumption.
  destruct (on_disk s n) as [| |l] eqn:O.
  - rewrite on_disk_none by assumption. eauto.
  - rewrite on_disk_dir by assumption. cbn. eauto.
  - apply on_disk_file in O. destruct O as (i & L & D). rewrite L.
    destruct (read_whole l) as (d' & W & P & DD).
    destruct (stream_disk dev_read_to_end (rel n) i s l d') as (s2 & ST & S1 & S2 & S3 & S4 & S5 & S6 & S7); [rewrite D; exact W|exact P|].
    rewrite ST. eexists. split; [reflexivity|]. apply (holds_same s); auto.
    intros j. destruct (Nat.eq_dec j i) as [->|J]; [congruence|auto].
Qed.

Lemma disk_len : forall s K n, holds s K -> n <> [] ->
  perform FileStorage (Len n) s
    = (match K n with
       | KNone => Err (CeStore StOpenRead) | KDir => Err (CeStore StFileAccess)
       | KFile l => Ok (ALen (List.length l)) end, s).
Proof.
  intros s K n HD N. pose proof HD as [PD HK]. rewrite <- HK by exact N. open_call. rewrite read_rel by assumption.
  destruct (on_disk s n) as [| |l] eqn:O.
  - rewrite on_disk_none by assumption. reflexivity.
  - rewrite on_disk_dir by assumption. reflexivity.
  - apply on_disk_file in O. destruct O as (i & L & D). rewrite L. cbn [file_len].
    rewrite call_or_calm by apply (calm s K HD). cbn [h_ino]. rewrite D. reflexivity.
Qed.

Lemma disk_wlen : forall s K n, holds s K -> n <> [] ->
  exists s', perform FileStorage (WLen n) s
    = (match K n with KFile _ => Ok (ALen 0) | _ => Err (CeStore StOpenWrite) end, s')
  /\ holds s' (match K n with KFile _ => change K n (KFile []) | _ => K end).
Proof.
  intros s K n HD N. pose proof HD as [PD HK]. rewrite <- HK by exact N. open_call. rewrite write_rel by assumption.
  destruct (on_disk s n) as [| |l] eqn:O.
  - rewrite on_disk_none by assumption. eauto.
  - rewrite on_disk_dir by assumption. eauto.
  - apply on_disk_file in O. destruct O as (i & L & D). rewrite L. cbn [file_len].
    rewrite call_or_calm by apply (calm s K HD). cbn [h_ino with_data s_data]. rewrite set_data_eq.
    eexists. split; [reflexivity|]. apply (holds_data s _ K n i []); auto.
    + intros j J. cbn. apply set_data_neq, J.
    + cbn. apply set_data_eq.
Qed.

Lemma disk_update : forall s K n l, holds s K -> n <> [] ->
  exists s', perform FileStorage (Update n l) s
    = (match K n with KFile _ => Ok ADone | _ => Err (CeStore StOpenWrite) end, s')
  /\ holds s' (match K n with KFile _ => change K n (KFile l) | _ => K end).
Proof.
  intros s K n l HD N. pose proof HD as [PD HK]. rewrite <- HK by exact N. open_call. rewrite write_rel by assumption.
  destruct (on_disk s n) as [| |l0] eqn:O.
  - rewrite on_disk_none by assumption. eauto.
  - rewrite on_disk_dir by assumption. eauto.
  - apply on_disk_file in O. destruct O as (i & L & D). rewrite L.
    destruct (write_whole l) as (d' & W & P & DD).
    destruct (stream_disk (dev_write_all l) (rel n) i (with_data i [] [FTrunc i] s) tt d')
      as (s2 & ST & S1 & S2 & S3 & S4 & S5 & S6 & S7);
      [cbn [with_data s_data]; rewrite set_data_eq; exact W|exact P|].
    rewrite ST. cbn [snd flush_file]. unfold flush. rewrite call_or_calm by (rewrite S4; apply (calm s K HD)).
    eexists. split; [reflexivity|]. apply (holds_data s s2 K n i l); auto.
    + intros j J. rewrite S6 by exact J. cbn. apply set_data_neq, J.
    + congruence.
Qed.

(** Removing an open file by its name. *)
Lemma remove_rel : forall s K n i h, holds s K -> n <> [] ->
  lookup (s_nodes s) (s_cwd s ++ n) = Some (NFile i) -> h_path h = rel n -> h_ino h = i ->
  exists s', run (remove_file (EFile h)) s = (Ok tt, s') /\ holds s' (change K n KNone).
Proof.
  intros s K n i h HD N L HP HI. pose proof HD as [PD HK]. unfold remove_file.
  rewrite !run_bind, !run_atom. unfold truncate. rewrite call_or_calm by apply (calm s K HD). cbv beta.
  rewrite run_atom. unfold flush. rewrite call_or_calm by apply (calm s K HD). cbv beta.
  rewrite run_atom. unfold unlink. rewrite call_or_calm by apply (calm s K HD). cbn [entry_path]. rewrite HP, HI.
  rewrite (resolve_nodes false s (with_data i [] [FTrunc i] s) (rel n) eq_refl eq_refl).
  rewrite rel_resolved by assumption. rewrite (there s PD n _ N L).
  cbn [with_data s_nodes]. rewrite L. eexists. split; [reflexivity|].
  apply (holds_unlinked s _ K n i); auto. intros j J. cbn. apply set_data_neq, J.
Qed.

Lemma disk_del : forall s K n, holds s K -> n <> [] ->
  exists s', perform FileStorage (Del n) s
    = (match K n with
       | KNone => Err (CeStore StOpenRead) | KDir => Err (CeStore StRemoveFile) | KFile _ => Ok ADone end, s')
  /\ holds s' (match K n with KFile _ => change K n KNone | _ => K end).
Proof.
  intros s K n HD N. pose proof HD as [PD HK]. rewrite <- HK by exact N. open_call. rewrite read_rel by assumption.
  destruct (on_disk s n) as [| |l0] eqn:O.
  - rewrite on_disk_none by assumption. eauto.
  - apply on_disk_dir in O. rewrite O. unfold remove_file. cbn [entry_path].
    rewrite run_bind. cbn [run rret]. rewrite run_atom. unfold unlink.
    rewrite call_or_calm by apply (calm s K HD). rewrite rel_resolved by assumption. rewrite (there s PD n _ N O), O.
    eauto.
  - apply on_disk_file in O. destruct O as (i & L & D). rewrite L.
    destruct (remove_rel s K n i (mkHandle (rel n) i 0 []) HD N L eq_refl eq_refl) as (s' & R & H').
    rewrite R. exists s'. split; [reflexivity|exact H'].
Qed.

Lemma rmdir_rel : forall s K n, holds s K -> n <> [] -> K n = KDir ->
  exists s', remove_dir_all (EDir (rel n)) s = (Ok tt, s') /\ holds s' (prune K n).
Proof.
  intros s K n HD N KN. pose proof HD as [PD HK]. rewrite <- HK in KN by exact N.
  apply on_disk_dir in KN. unfold remove_dir_all. rewrite call_or_calm by apply (calm s K HD).
  cbv beta. rewrite rel_resolved by assumption. rewrite (there s PD n _ N KN).
  remember (s_cwd s ++ n) as q eqn:Q. destruct q as [|x q]; [exfalso; symmetry in Q; exact (app_ne _ _ N Q)|].
  rewrite KN. eexists. split; [reflexivity|]. rewrite Q. apply (holds_pruned s); auto.
Qed.

Lemma disk_rmdir : forall s K n, holds s K -> n <> [] ->
  exists s', perform FileStorage (RmDir n) s
    = (match K n with
       | KNone => Err (CeStore StOpenRead) | KDir => Ok ADone | KFile _ => Err (CeStore StRemoveDir) end, s')
  /\ holds s' (match K n with KDir => prune K n | _ => K end).
Proof.
  intros s K n HD N. pose proof HD as [PD HK]. open_call. rewrite read_rel by assumption.
  destruct (K n) as [| |l0] eqn:O; pose proof O as KN; rewrite <- HK in O by exact N.
  - rewrite on_disk_none by assumption. eauto.
  - rewrite on_disk_dir by assumption. destruct (rmdir_rel s K n HD N KN) as (s' & R & H'). rewrite R. exists s'. split; [reflexivity|exact H'].
  - apply on_disk_file in O. destruct O as (i & L & D). rewrite L. cbn. eauto.
Qed.

(** ** Listing *)

Lemma disk_listing : forall s K n, holds s K -> n <> [] -> K n = KDir ->
  exists es ns, read_dir (EDir (rel n)) s = (Ok es, s)
  /\ map entry_path es = map rel ns /\ map entry_is_dir es = map (fun r => match K r with KDir => true | _ => false end) ns
  /\ NoDup ns /\ (forall r, In r ns <-> below n r = true /\ K r <> KNone).
Proof.
  intros s K n HD N KN. pose proof HD as [PD HK].
  assert (L : lookup (s_nodes s) (s_cwd s ++ n) = Some NDir).
  { apply on_disk_dir. rewrite HK by exact N. exact KN. }
  assert (RT : resolve true s (rel n) = Some (s_cwd s ++ n)).
  { rewrite rel_resolved by assumption. rewrite (there s PD n _ N L). reflexivity. }
  assert (NL : no_links_inside s (s_cwd s ++ n)).
  { intros r t [z ->] X. apply (pd_links s PD ((s_cwd s ++ n) ++ z) t); [|exact X].
    exists (n ++ z). rewrite app_assoc. reflexivity. }
  pose proof (tree_entries s (rel n) (s_cwd s ++ n) (pd_tree s PD) (pd_calm s PD) RT L NL) as TE.
  set (rs := all_rels s (s_cwd s ++ n)) in *.
  assert (NE : forall r, n ++ r <> []) by (intros r E; apply app_eq_nil in E; destruct E; contradiction).
  assert (ST : forall r, stat s (sub (rel n) r) = lookup (s_nodes s) (s_cwd s ++ n ++ r)).
  { intros r. rewrite sub_rel. apply rel_stat; [exact PD|apply NE]. }
  eexists. exists (map (app n) rs). split; [exact TE|]. split; [|split; [|split]].
  - rewrite !map_map. apply map_ext. intros r. unfold entry_of. rewrite ST. rewrite <- sub_rel.
    destruct (lookup (s_nodes s) (s_cwd s ++ n ++ r)) as [[| |]|]; reflexivity.
  - rewrite !map_map. apply map_ext_in. intros r I. unfold entry_of. rewrite ST. rewrite <- HK by apply NE.
    unfold on_disk, at_place.
    assert (EX : lookup (s_nodes s) (s_cwd s ++ n ++ r) <> None).
    { rewrite app_assoc. destruct I as [<-|I]; [rewrite app_nil_r; congruence|].
      apply rels_in in I. destruct I as [_ I]. destruct (key_lookup _ _ (pd_tree s PD) I) as [x X]. congruence. }
    destruct (lookup (s_nodes s) (s_cwd s ++ n ++ r)) as [[| |t]|] eqn:E; try reflexivity; [|congruence].
    destruct (no_link s PD _ _ E).
  - apply FinFun.Injective_map_NoDup; [intros a b; apply app_inv_head|].
    apply all_rels_nodup. apply PD.
  - intros r. rewrite in_map_iff. split.
    + intros (z & <- & I). split; [apply below_inside; exists z; reflexivity|].
      rewrite <- HK by apply NE. unfold on_disk, at_place. rewrite app_assoc.
      destruct I as [<-|I]; [rewrite app_nil_r, L; discriminate|].
      apply rels_in in I. destruct I as [_ I]. destruct (key_lookup _ _ (pd_tree s PD) I) as [x X]. rewrite X.
      destruct x; try discriminate. rewrite <- app_assoc in X. destruct (no_link s PD _ _ X).
    + intros [B KR]. apply below_inside in B. destruct B as [z ->]. exists z. split; [reflexivity|].
      destruct z as [|x z]; [left; reflexivity|right]. apply in_rels; [discriminate|].
      rewrite <- HK in KR by apply NE. unfold on_disk, at_place in KR. rewrite app_assoc in KR.
      destruct (lookup (s_nodes s) ((s_cwd s ++ n) ++ x :: z)) as [nd|] eqn:E; [|congruence].
      eapply lookup_key; [|exact E]. intros X. apply app_eq_nil in X. destruct X. discriminate.
Qed.

(** ** Erasing *)

Lemma erase_on_file : forall p passes s,
  erase_on FileStorage p passes s = run (erase_execute p passes) s.
Proof.
  intros p passes s. unfold erase_on, erase_execute, bind, map_err. fs.
  rewrite run_bind, run_map_err, run_atom.
  destruct (write_file p s) as [[e|e| |] s1]; try reflexivity.
  rewrite run_bind, run_map_err, run_atom.
  destruct (file_len e s1) as [[cap|x| |] s2]; try reflexivity.
  rewrite run_bind. destruct e as [h|q]; [|reflexivity]. cbn [entry_is_dir overwrite_file st_use file_use FileStorage].
  rewrite run_bind, run_act.
  destruct (run_handle (overwrite_execute cap passes) h s2) as [[[[]|x| |] h'] s3]; try reflexivity.
  cbn [run rret]. rewrite run_map_err. reflexivity.
Qed.

Lemma erase_rel : forall s K n l passes, holds s K -> n <> [] -> K n = KFile l ->
  exists s', erase_on FileStorage (rel n) passes s = (Ok tt, s') /\ holds s' (change K n KNone).
Proof.
  intros s K n l passes HD N KN. pose proof HD as [PD HK]. rewrite <- HK in KN by exact N.
  apply on_disk_file in KN. destruct KN as (i & L & D).
  unfold erase_on, bind, map_err. fs. rewrite write_rel by assumption. rewrite L.
  cbn [file_len]. rewrite call_or_calm by apply (calm s K HD). cbn [h_ino with_data s_data]. rewrite set_data_eq.
  cbn [List.length entry_is_dir FileStorage st_use file_use].
  set (s1 := with_data i [] [FTrunc i] s) in *.
  destruct (run_handle (overwrite_execute 0 passes) (mkHandle (rel n) i 0 []) s1) as [[o h] s2] eqn:OW.
  apply overwrite_zero in OW. cbn [fst snd h_path h_ino h_plan] in OW.
  destruct OW as (HP & HI & E1 & E2 & E3 & E4 & _ & _ & E5 & E6 & _ & _ & _ & OK). rewrite (OK eq_refl).
  assert (H2 : holds s2 (change K n (KFile []))).
  { apply (holds_data s s2 K n i []); auto.
    - intros j J. rewrite E2. subst s1. cbn. apply set_data_neq, J.
    - rewrite E2. subst s1. cbn. apply set_data_eq. }
  destruct (remove_rel s2 _ n i h H2 N) as (s' & R & H'); auto.
  { rewrite E1, E4. exact L. }
  rewrite R. exists s'. split; [reflexivity|]. eapply holds_ext; [exact H'|].
  intros r _. unfold change. destruct (cpath_eqb r n); reflexivity.
Qed.

Lemma erase_rel_not : forall s K n passes, holds s K -> n <> [] -> (forall l, K n <> KFile l) ->
  erase_on FileStorage (rel n) passes s = (Err EraOpenFile, s).
Proof.
  intros s K n passes HD N KN. pose proof HD as [PD HK]. unfold erase_on, bind, map_err. fs.
  rewrite write_rel by assumption.
  destruct (lookup (s_nodes s) (s_cwd s ++ n)) as [[|i|t]|] eqn:L; try reflexivity.
  exfalso. apply (KN (s_data s i)). rewrite <- HK by exact N. unfold on_disk, at_place. rewrite L. reflexivity.
Qed.
