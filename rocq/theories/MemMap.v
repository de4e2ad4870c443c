(** The calls on the in-memory storage. *)
From Coq Require Import List Arith ZArith Bool String Lia Permutation.
From Verif Require Import Bytes Outcome IO Primitives Overwrite FS FSSpec Erase ArchiveSpec MemStore MemSpec.
From Verif Require Import BytesFacts IOSpec IOFacts FSFacts EraseMany ToolProofs MemDisk.
Import ListNotations.
Local Open Scope nat_scope.
Local Open Scope list_scope.

(** ** Paths *)

Lemma components_rel : forall n, components (rel n) = map Nm n.
Proof.
  intros n. unfold components, rel. cbn [p_comps p_abs].
  assert (F : filter (fun c => negb (is_cur c)) (map Nm n) = map Nm n).
  { induction n as [|x n IH]; [reflexivity|]. cbn. rewrite IH. reflexivity. }
  destruct n; [reflexivity|]. cbn [map] in *. exact F.
Qed.

Lemma path_eqb_rel : forall a b, path_eqb (rel a) (rel b) = cpath_eqb a b.
Proof.
  intros a b. unfold path_eqb. rewrite !components_rel. cbn [rel p_abs Bool.eqb andb].
  revert b. induction a as [|x a IH]; intros [|y b]; cbn; try reflexivity. rewrite IH. reflexivity.
Qed.

Lemma starts_with_rel : forall a b, starts_with (rel a) (rel b) = below b a.
Proof.
  intros a b. unfold starts_with. rewrite !components_rel. cbn [rel p_abs Bool.eqb andb]. unfold below.
  revert a. induction b as [|y b IH]; intros [|x a]; cbn; try reflexivity.
  rewrite IH. rewrite String.eqb_sym. destruct (String.eqb y x); reflexivity.
Qed.

Lemma rel_inj : forall a b, rel a = rel b -> a = b.
Proof.
  intros a b E. apply cpath_eqb_eq. rewrite <- path_eqb_rel, E, path_eqb_rel. apply cpath_eqb_refl.
Qed.

(** ** The map by names *)

Definition names_map := list (list string * im_file).
Definition named (al : names_map) : list (path * im_file) := map (fun e => (rel (fst e), snd e)) al.

Fixpoint al_get (n : list string) (al : names_map) : option im_file :=
  match al with
  | [] => None
  | (k, f) :: al' => if cpath_eqb k n then Some f else al_get n al'
  end.
Fixpoint al_insert (n : list string) (f : im_file) (al : names_map) : names_map :=
  match al with
  | [] => [(n, f)]
  | (k, g) :: al' => if cpath_eqb k n then (k, f) :: al' else (k, g) :: al_insert n f al'
  end.
Definition kind (f : option im_file) : kept :=
  match f with None => KNone | Some IMDir => KDir | Some (IMFile l) => KFile l end.

Lemma named_get : forall n al, hm_get (rel n) (named al) = al_get n al.
Proof.
  intros n. induction al as [|[k f] al IH]; [reflexivity|]. cbn [named map hm_get al_get fst snd].
  rewrite path_eqb_rel. rewrite <- IH. reflexivity.
Qed.
Lemma named_insert : forall n f al, hm_insert (rel n) f (named al) = named (al_insert n f al).
Proof.
  intros n f. induction al as [|[k g] al IH]; [reflexivity|]. cbn [named map hm_insert al_insert fst snd].
  rewrite path_eqb_rel. destruct (cpath_eqb k n); [reflexivity|]. cbn [map fst snd]. f_equal. exact IH.
Qed.
Lemma named_filter : forall (g : path -> bool) al,
  filter (fun e => g (fst e)) (named al) = named (filter (fun e => g (rel (fst e))) al).
Proof.
  intros g. induction al as [|[k f] al IH]; [reflexivity|]. cbn [named map filter fst].
  destruct (g (rel k)); cbn [map fst snd]; unfold named in IH; rewrite IH; reflexivity.
Qed.
Lemma named_remove : forall n al, hm_remove (rel n) (named al)
  = named (filter (fun e => negb (cpath_eqb (fst e) n)) al).
Proof.
  intros n al. unfold hm_remove. rewrite (named_filter (fun p => negb (path_eqb p (rel n)))).
  f_equal. apply filter_ext. intros e. rewrite path_eqb_rel. reflexivity.
Qed.
Lemma named_keys : forall al, map fst (named al) = map rel (map fst al).
Proof. intros al. unfold named. rewrite !map_map. reflexivity. Qed.

Lemma in_mem_get : forall m n, in_mem m n = kind (hm_get (rel n) (m_files m)).
Proof.
  intros m n. unfold in_mem. induction (m_files m) as [|[k f] l IH]; [reflexivity|]. cbn [find hm_get fst].
  destruct (path_eqb k (rel n)); [destruct f; reflexivity|exact IH].
Qed.

(** ** The invariant *)

Record good (al : names_map) (K : list string -> kept) : Prop := {
  g_nodup : NoDup (map fst al);
  g_nonempty : ~ In [] (map fst al);
  g_kind : forall n, n <> [] -> kind (al_get n al) = K n
}.

Definition mholds (m : mem) (K : list string -> kept) : Prop :=
  plain_map m /\ forall n, n <> [] -> in_mem m n = K n.

Lemma mholds_good : forall m K, mholds m K -> exists al, m_files m = named al /\ good al K.
Proof.
  intros m K [(ns & E & ND & NE) HK].
  assert (X : exists al, m_files m = named al /\ map fst al = ns).
  { clear - E. revert ns E. induction (m_files m) as [|[k f] l IH]; intros [|n ns] E; try discriminate.
    - exists []. split; reflexivity.
    - cbn [map fst] in E. injection E as -> E. destruct (IH ns E) as (al & -> & <-).
      exists ((n, f) :: al). split; reflexivity. }
  destruct X as (al & A & <-). exists al. split; [exact A|]. constructor; [exact ND|exact NE|].
  intros n N. rewrite <- HK, in_mem_get, A, named_get by exact N. reflexivity.
Qed.

Lemma good_mholds : forall al K g, good al K -> mholds (mkMem (named al) g) K.
Proof.
  intros al K g [A B C]. split.
  - exists (map fst al). split; [apply named_keys|]. split; assumption.
  - intros n N. rewrite in_mem_get. cbn [m_files]. rewrite named_get. apply C, N.
Qed.

Lemma good_ext : forall al K K', good al K -> (forall n, n <> [] -> K n = K' n) -> good al K'.
Proof. intros al K K' [A B C] E. constructor; auto. intros n N. rewrite <- E by exact N. apply C, N. Qed.
Lemma mholds_ext : forall m K K', mholds m K -> (forall n, n <> [] -> K n = K' n) -> mholds m K'.
Proof. intros m K K' [A B] E. split; [exact A|]. intros n N. rewrite B, E by exact N. reflexivity. Qed.

Lemma al_get_insert : forall n f al r,
  al_get r (al_insert n f al) = if cpath_eqb r n then Some f else al_get r al.
Proof.
  intros n f al r. assert (SYM : forall a b, cpath_eqb a b = cpath_eqb b a).
  { intros a b. destruct (cpath_eqb b a) eqn:E; [apply cpath_eqb_eq in E; subst; apply cpath_eqb_refl|].
    apply cpath_eqb_neq. apply cpath_eqb_neq in E. congruence. }
  induction al as [|[k g] al IH]; cbn [al_insert al_get].
  - rewrite SYM. reflexivity.
  - destruct (cpath_eqb k n) eqn:E; cbn [al_get].
    + apply cpath_eqb_eq in E. subst k. rewrite (SYM n r). destruct (cpath_eqb r n); reflexivity.
    + destruct (cpath_eqb k r) eqn:E2.
      * apply cpath_eqb_eq in E2. subst k. rewrite E. reflexivity.
      * exact IH.
Qed.

Lemma al_insert_keys : forall n f al, In n (map fst al) /\ map fst (al_insert n f al) = map fst al
  \/ ~ In n (map fst al) /\ map fst (al_insert n f al) = map fst al ++ [n].
Proof.
  intros n f. induction al as [|[k g] al IH]; cbn [al_insert map fst].
  - right. split; [intros []|reflexivity].
  - destruct (cpath_eqb k n) eqn:E.
    + apply cpath_eqb_eq in E. subst k. left. split; [left; reflexivity|reflexivity].
    + apply cpath_eqb_neq in E. cbn [map fst]. destruct IH as [[I ->]|[I ->]].
      * left. split; [right; exact I|reflexivity].
      * right. split; [intros [X|X]; [congruence|exact (I X)]|reflexivity].
Qed.

Lemma good_insert : forall al K n f, good al K -> n <> [] -> good (al_insert n f al) (change K n (kind (Some f))).
Proof.
  intros al K n f [A B C] N. constructor.
  - destruct (al_insert_keys n f al) as [[_ ->]|[I ->]]; [exact A|].
    apply (NoDup_Add (a := n) (l := map fst al)); [|split; assumption].
    pose proof (Add_app n (map fst al) []) as X. rewrite app_nil_r in X. exact X.
  - destruct (al_insert_keys n f al) as [[_ ->]|[_ ->]]; [exact B|].
    intros I. apply in_app_or in I. destruct I as [I|[I|[]]]; [exact (B I)|congruence].
  - intros r R. rewrite al_get_insert. unfold change. destruct (cpath_eqb r n); [reflexivity|apply C, R].
Qed.

Lemma al_get_filter : forall (g : list string -> bool) al r,
  al_get r (filter (fun e => negb (g (fst e))) al) = if g r then None else al_get r al.
Proof.
  intros g al r. induction al as [|[k f] al IH]; cbn [filter al_get fst].
  - destruct (g r); reflexivity.
  - destruct (g k) eqn:G; cbn [negb al_get]; destruct (cpath_eqb k r) eqn:E; try exact IH.
    + apply cpath_eqb_eq in E. subst r. rewrite G in *. exact IH.
    + apply cpath_eqb_eq in E. subst r. rewrite G. reflexivity.
Qed.

Lemma good_filter : forall al K g, good al K ->
  good (filter (fun e => negb (g (fst e))) al) (fun r => if g r then KNone else K r).
Proof.
  intros al K g [A B C].
  assert (SUB : forall x, In x (map fst (filter (fun e => negb (g (fst e))) al)) -> In x (map fst al)).
  { intros x I. apply in_map_iff in I. destruct I as (e & <- & I). apply filter_In in I. apply in_map, I. }
  constructor.
  - clear - A. induction al as [|[k f] al IH]; [constructor|]. cbn [map fst filter] in *.
    apply NoDup_cons_iff in A. destruct A as [A1 A2]. destruct (g k); cbn [negb map fst]; [apply IH, A2|].
    constructor; [|apply IH, A2]. intros X. apply A1. apply in_map_iff in X. destruct X as (e & <- & X).
    apply filter_In in X. apply in_map, X.
  - intros I. apply B, SUB, I.
  - intros r R. rewrite al_get_filter. destruct (g r); [reflexivity|apply C, R].
Qed.

Lemma al_in : forall n al, In n (map fst al) <-> al_get n al <> None.
Proof.
  intros n al. induction al as [|[k f] al IH]; cbn [map al_get fst].
  - split; [intros []|congruence].
  - destruct (cpath_eqb k n) eqn:E.
    + apply cpath_eqb_eq in E. split; [discriminate|left; exact E].
    + apply cpath_eqb_neq in E. rewrite <- IH. split; [intros [X|X]; [congruence|exact X]|right; assumption].
Qed.

(** ** The calls *)

Ltac ms := cbn [InMemoryStorage st_create_file st_read_file st_write_file st_flush_file st_file_len
  st_remove_file st_remove_dir_all st_read_dir st_path st_is_dir].
Ltac open_mcall := unfold perform, sto, bind, map_err; ms.

Lemma stream_mem : forall {A} (d : M dev io_error A) p c m a c', d c = (Ok a, c') ->
  streaming InMemoryStorage d (MFile p c) m = (Ok (a, MFile p c'), m).
Proof.
  intros A d p c [fs g] a c' H. unfold streaming. cbn [InMemoryStorage st_is_dir mentry_is_dir st_use mem_use].
  unfold ow_dev, zoom. cbn [fst snd m_rng m_files]. rewrite H. reflexivity.
Qed.

Lemma write_over : forall l l0, exists c', dev_write_all l (cursor l0) = (Ok tt, c')
  /\ d_data c' = l ++ skipn (List.length l) l0.
Proof.
  intros l l0. rewrite dev_write_all_ok by reflexivity. eexists. split; [reflexivity|].
  cbn [put_at d_data d_pos cursor]. unfold write_at. cbn. destruct l; [reflexivity|reflexivity].
Qed.

Lemma mem_put : forall m K n l, mholds m K -> n <> [] ->
  exists m', perform InMemoryStorage (Put n l) m
    = (match K n with KNone => Ok ADone | _ => Err (CeStore StCreateFile) end, m')
  /\ mholds m' (match K n with KNone => change K n (KFile l) | _ => K end).
Proof.
  intros m K n l HM N. destruct (mholds_good m K HM) as (al & E & G). rewrite <- (g_kind al K G n N).
  open_mcall. unfold mem_create_file. rewrite E, named_get.
  destruct (al_get n al) as [[l0|]|] eqn:A; cbn [kind]; eauto.
  destruct (write_over l []) as (c' & W & D). rewrite (stream_mem (dev_write_all l) (rel n) (cursor []) _ tt c' W).
  cbn [snd mem_flush_file]. unfold save_file. cbn [m_files m_rng]. rewrite E, !named_insert.
  eexists. split; [reflexivity|]. apply good_mholds. eapply good_ext; [apply good_insert; [apply good_insert; eassumption|exact N]|].
  intros r R. unfold change. destruct (cpath_eqb r n); [|reflexivity]. rewrite D, skipn_nil, app_nil_r. reflexivity.
Qed.

Lemma mem_get : forall m K n, mholds m K -> n <> [] ->
  perform InMemoryStorage (Get n) m
    = (match K n with
       | KNone => Err (CeStore StOpenRead) | KDir => Err (CeStore StFileAccess)
       | KFile l => Ok (AContent l) end, m).
Proof.
  intros m K n HM N. destruct (mholds_good m K HM) as (al & E & G). rewrite <- (g_kind al K G n N).
  open_mcall. unfold mem_read_file. rewrite E, named_get.
  destruct (al_get n al) as [[l0|]|] eqn:A; cbn [kind]; try reflexivity.
  destruct (read_whole l0) as (c' & W & _ & _). rewrite (stream_mem dev_read_to_end (rel n) (cursor l0) m l0 c' W). reflexivity.
Qed.

Lemma mem_len : forall m K n, mholds m K -> n <> [] ->
  perform InMemoryStorage (Len n) m
    = (match K n with
       | KNone => Err (CeStore StOpenRead) | KDir => Err (CeStore StFileAccess)
       | KFile l => Ok (ALen (List.length l)) end, m).
Proof.
  intros m K n HM N. destruct (mholds_good m K HM) as (al & E & G). rewrite <- (g_kind al K G n N).
  open_mcall. unfold mem_read_file. rewrite E, named_get.
  destruct (al_get n al) as [[l0|]|] eqn:A; reflexivity.
Qed.

Lemma mem_wlen : forall m K n, mholds m K -> n <> [] ->
  perform InMemoryStorage (WLen n) m
    = (match K n with
       | KNone => Err (CeStore StOpenWrite) | KDir => Err (CeStore StFileAccess)
       | KFile l => Ok (ALen (List.length l)) end, m).
Proof.
  intros m K n HM N. destruct (mholds_good m K HM) as (al & E & G). rewrite <- (g_kind al K G n N).
  open_mcall. unfold mem_write_file. rewrite E, named_get.
  destruct (al_get n al) as [[l0|]|] eqn:A; reflexivity.
Qed.

Lemma mem_update : forall m K n l, mholds m K -> n <> [] ->
  exists m', perform InMemoryStorage (Update n l) m
    = (match K n with
       | KNone => Err (CeStore StOpenWrite) | KDir => Err (CeStore StFileAccess)
       | KFile _ => Ok ADone end, m')
  /\ mholds m' (match K n with
       | KFile l0 => change K n (KFile (l ++ skipn (List.length l) l0)) | _ => K end).
Proof.
  intros m K n l HM N. destruct (mholds_good m K HM) as (al & E & G). rewrite <- (g_kind al K G n N).
  open_mcall. unfold mem_write_file. rewrite E, named_get.
  destruct (al_get n al) as [[l0|]|] eqn:A; cbn [kind]; eauto.
  destruct (write_over l l0) as (c' & W & D). rewrite (stream_mem (dev_write_all l) (rel n) (cursor l0) _ tt c' W).
  cbn [snd mem_flush_file]. unfold save_file. cbn [m_files m_rng]. rewrite E, !named_insert.
  eexists. split; [reflexivity|]. apply good_mholds. rewrite <- D. apply (good_insert al K n (IMFile (d_data c')) G N).
Qed.

Lemma removed_mem : forall m K n e, mholds m K -> n <> [] -> mentry_path e = rel n -> K n <> KNone ->
  exists m', mem_remove_file e m = (Ok tt, m') /\ mholds m' (change K n KNone).
Proof.
  intros m K n e HM N P KN. destruct (mholds_good m K HM) as (al & E & G). rewrite <- (g_kind al K G n N) in KN.
  unfold mem_remove_file. rewrite P, E, named_get.
  destruct (al_get n al) as [f|] eqn:A; [|contradiction]. rewrite named_remove.
  eexists. split; [reflexivity|]. apply good_mholds.
  eapply good_ext; [apply (good_filter al K (fun r => cpath_eqb r n) G)|]. reflexivity.
Qed.

Lemma mem_del : forall m K n, mholds m K -> n <> [] ->
  exists m', perform InMemoryStorage (Del n) m
    = (match K n with KNone => Err (CeStore StOpenRead) | _ => Ok ADone end, m')
  /\ mholds m' (match K n with KNone => K | _ => change K n KNone end).
Proof.
  intros m K n HM N. destruct (mholds_good m K HM) as (al & E & G).
  assert (X : forall e, mentry_path e = rel n -> K n <> KNone ->
    exists m', mem_remove_file e m = (Ok tt, m') /\ mholds m' (change K n KNone)).
  { intros e P KN. apply (removed_mem m K n e HM N P KN). }
  pose proof (g_kind al K G n N) as GK. rewrite <- GK in *.
  open_mcall. unfold mem_read_file. rewrite E, named_get.
  destruct (al_get n al) as [[l0|]|] eqn:A; cbn [kind] in *; eauto.
  - destruct (X (MFile (rel n) (cursor l0)) eq_refl) as (m' & R & H); [discriminate|]. rewrite R.
    exists m'. split; [reflexivity|exact H].
  - destruct (X (MDir (rel n)) eq_refl) as (m' & R & H); [discriminate|]. rewrite R.
    exists m'. split; [reflexivity|exact H].
Qed.

(** Removing all of some keys. *)
Lemma remove_names : forall ns al g, NoDup ns -> (forall n, In n ns -> al_get n al <> None) ->
  mem_remove_all (map rel ns) (mkMem (named al) g)
  = (Ok tt, mkMem (named (filter (fun e => negb (existsb (cpath_eqb (fst e)) ns)) al)) g).
Proof.
  induction ns as [|n ns IH]; intros al g ND I.
  - cbn [map mem_remove_all existsb negb]. unfold ret. do 3 f_equal.
    induction al as [|e al IH]; [reflexivity|]. cbn [filter]. f_equal. apply IH. intros n [].
  - apply NoDup_cons_iff in ND. destruct ND as [N1 N2]. cbn [map mem_remove_all m_files m_rng].
    rewrite named_get. pose proof (I n (or_introl eq_refl)) as A. destruct (al_get n al) as [f|]; [|contradiction].
    rewrite named_remove, IH; [|exact N2|].
    + do 3 f_equal. clear. induction al as [|[k f] al IH]; [reflexivity|]. cbn [filter fst existsb].
      destruct (cpath_eqb k n); cbn [negb orb filter fst]; [exact IH|].
      destruct (existsb (cpath_eqb k) ns); cbn [negb]; [exact IH|]. f_equal. exact IH.
    + intros r R. rewrite (al_get_filter (fun x => cpath_eqb x n)). destruct (cpath_eqb r n) eqn:E.
      * apply cpath_eqb_eq in E. subst r. contradiction.
      * apply I. right. exact R.
Qed.

Lemma below_names : forall al n,
  filter (fun k => starts_with k (rel n)) (map fst (named al))
  = map rel (filter (below n) (map fst al)).
Proof.
  intros al n. induction al as [|[k f] al IH]; [reflexivity|]. cbn [named map filter fst].
  rewrite starts_with_rel. destruct (below n k); cbn [map]; rewrite <- IH; reflexivity.
Qed.

Lemma rmdir_mem : forall m K n, mholds m K -> n <> [] ->
  exists m', mem_remove_dir_all (MDir (rel n)) m = (Ok tt, m') /\ mholds m' (prune K n).
Proof.
  intros m K n HM N. destruct (mholds_good m K HM) as (al & E & G). unfold mem_remove_dir_all.
  rewrite E, below_names. destruct m as [fs g]. cbn [m_files] in E. subst fs.
  rewrite remove_names.
  - eexists. split; [reflexivity|]. apply good_mholds.
    replace (filter (fun e => negb (existsb (cpath_eqb (fst e)) (filter (below n) (map fst al)))) al)
      with (filter (fun e => negb (below n (fst e))) al); [apply good_filter, G|].
    apply filter_ext_in. intros e I. f_equal. destruct (below n (fst e)) eqn:B.
    + symmetry. apply existsb_exists. exists (fst e). split; [|apply cpath_eqb_refl].
      apply filter_In. split; [apply in_map, I|exact B].
    + destruct (existsb (cpath_eqb (fst e)) (filter (below n) (map fst al))) eqn:X; [|reflexivity].
      apply existsb_exists in X. destruct X as (k & X & Q). apply cpath_eqb_eq in Q. subst k.
      apply filter_In in X. destruct X. congruence.
  - apply NoDup_filter, G.
  - intros r R. apply filter_In in R. apply al_in, R.
Qed.

Lemma mem_rmdir : forall m K n, mholds m K -> n <> [] ->
  exists m', perform InMemoryStorage (RmDir n) m
    = (match K n with
       | KNone => Err (CeStore StOpenRead) | KDir => Ok ADone | KFile _ => Err (CeStore StFileAccess) end, m')
  /\ mholds m' (match K n with KDir => prune K n | _ => K end).
Proof.
  intros m K n HM N. destruct (mholds_good m K HM) as (al & E & G).
  destruct (rmdir_mem m K n HM N) as (m1 & R1 & H1).
  rewrite <- (g_kind al K G n N).
  open_mcall. unfold mem_read_file. rewrite E, named_get.
  destruct (al_get n al) as [[l0|]|] eqn:A; cbn [kind] in *; eauto.
  - exists m. split; [reflexivity|exact HM].
  - rewrite R1. exists m1. split; [reflexivity|exact H1].
Qed.

(** ** Listing *)

Lemma mem_read_names : forall ns m al, m_files m = named al ->
  (forall n, In n ns -> al_get n al <> None) ->
  exists es, mem_read_all (map rel ns) m = (Ok es, m)
  /\ map mentry_path es = map rel ns
  /\ map mentry_is_dir es = map (fun r => match kind (al_get r al) with KDir => true | _ => false end) ns.
Proof.
  induction ns as [|n ns IH]; intros m al E I.
  - exists []. repeat split.
  - destruct (IH m al E) as (es & R & P & D); [intros r X; apply I; right; exact X|].
    pose proof (I n (or_introl eq_refl)) as A. cbn [map mem_read_all]. unfold bind at 1. unfold mem_read_file.
    rewrite E, named_get. destruct (al_get n al) as [[l|]|] eqn:AG; [| |contradiction];
      unfold bind; rewrite R; eexists; (split; [reflexivity|]); cbn [map mentry_path mentry_is_dir];
      rewrite P, D; split; reflexivity.
Qed.

Lemma mem_listing : forall m K n, mholds m K -> n <> [] ->
  exists es ns, mem_read_dir (MDir (rel n)) m = (Ok es, m)
  /\ map mentry_path es = map rel ns
  /\ map mentry_is_dir es = map (fun r => match K r with KDir => true | _ => false end) ns
  /\ NoDup ns /\ (forall r, In r ns <-> below n r = true /\ K r <> KNone).
Proof.
  intros m K n HM N. destruct (mholds_good m K HM) as (al & E & G). unfold mem_read_dir.
  assert (NE : forall r, below n r = true -> r <> []).
  { intros r B ->. apply below_inside in B. destruct B as [z X]. symmetry in X. apply app_eq_nil in X. destruct X. contradiction. }
  destruct (mem_read_names (filter (below n) (map fst al)) m al E) as (es & R & P & D).
  { intros r I. apply filter_In in I. apply al_in, I. }
  exists es, (filter (below n) (map fst al)). rewrite E, below_names. split; [exact R|]. split; [exact P|]. split; [|split].
  - rewrite D. apply map_ext_in. intros r I. apply filter_In in I. rewrite (g_kind al K G) by apply NE, I. reflexivity.
  - apply NoDup_filter, G.
  - intros r. rewrite filter_In, al_in. split.
    + intros [A B]. split; [exact B|]. rewrite <- (g_kind al K G) by apply NE, B.
      destruct (al_get r al) as [[|]|]; [discriminate|discriminate|contradiction].
    + intros [B KR]. split; [|exact B]. rewrite <- (g_kind al K G) in KR by apply NE, B.
      destruct (al_get r al); [discriminate|]. contradiction.
Qed.

(** ** Erasing *)

Lemma erase_mem : forall m K n l passes, mholds m K -> n <> [] -> K n = KFile l ->
  exists m', erase_on InMemoryStorage (rel n) passes m = (Ok tt, m') /\ mholds m' (change K n KNone).
Proof.
  intros m K n l passes HM N KN. destruct (mholds_good m K HM) as (al & E & G).
  assert (A : al_get n al = Some (IMFile l)).
  { rewrite <- (g_kind al K G n N) in KN. destruct (al_get n al) as [[l0|]|]; try discriminate. cbn in KN. congruence. }
  unfold erase_on, bind, map_err. ms. unfold mem_write_file. rewrite E, named_get, A.
  cbn [mem_file_len ret mentry_is_dir cursor d_data]. unfold ret.
  cbn [InMemoryStorage st_use mem_use].
  destruct (overwrite_execute (List.length l) passes (cursor l, m_rng m)) as [o [c' g]] eqn:OW.
  pose proof (overwrite_holds _ _ _ _ _ _ _ OW) as (_ & _ & _ & _ & OK). specialize (OK eq_refl). rewrite OK.
  assert (H1 : mholds (mkMem (m_files m) g) K).
  { rewrite E. apply good_mholds, G. }
  destruct (removed_mem _ K n (MFile (rel n) c') H1 N eq_refl) as (m' & R & H'); [congruence|].
  rewrite R. exists m'. split; [reflexivity|exact H'].
Qed.

Lemma erase_mem_not : forall m K n passes, mholds m K -> n <> [] -> (forall l, K n <> KFile l) ->
  erase_on InMemoryStorage (rel n) passes m = (Err EraOpenFile, m).
Proof.
  intros m K n passes HM N KN. destruct (mholds_good m K HM) as (al & E & G).
  unfold erase_on, bind, map_err. ms. unfold mem_write_file. rewrite E, named_get.
  destruct (al_get n al) as [[l0|]|] eqn:A; try reflexivity.
  exfalso. apply (KN l0). rewrite <- (g_kind al K G n N), A. reflexivity.
Qed.
