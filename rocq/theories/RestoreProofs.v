(** Packing directories and unpacking them elsewhere. *)
From Coq Require Import List Arith NArith ZArith Ascii String Bool Lia FinFun.
From Verif Require Import Bytes Outcome IO Primitives Crypto Header Stream KeyModel EncDec Overwrite FS Archive.
From Verif Require Import BytesFacts IOSpec IOFacts ToolProofs FileFacts HeaderSpec FileProofs.
From Verif Require Import FSSpec FSFacts EraseDirProofs EraseSched ArchiveSpec ArchiveWalk ArchiveProofs.
From Verif Require Import WorldFrames UnpackProofs PackProofs.
From Verif Require Import RestoreSpec RestoreManySpec RestoreNames RestoreDirs RestoreFiles RestorePack.
Import ListNotations.
Local Open Scope nat_scope.
Local Open Scope list_scope.
Strategy 1000 [walk MAX_LINKS resolve].

(** ** Steps of unpacking that succeed *)

Lemma create_temp_calm : forall pick s T, no_faults s ->
  resolve false s (temp_path pick s) = Some T -> lookup (s_nodes s) T = None ->
  exists s1, create_temp_file pick s = (Ok (EFile (mkHandle (temp_path pick s) (s_next s) 0 [])), s1)
  /\ temp_made True s T s1 /\ s_data s1 (s_next s) = [].
Proof.
  intros pick s T NF RT LT. destruct (create_temp_file pick s) as [o s1] eqn:C.
  pose proof C as C0. apply (create_temp_any True) in C.
  destruct C as [[_ X]|[T' [plan [RT' [_ [X [TM [D PL]]]]]]]].
  - exfalso. unfold create_temp_file in C0. destruct (pick (s_rng s)) as [n g] eqn:PI.
    apply create_file_any in C0. destruct C0 as [[_ [_ C0]]|[q [pl [_ [_ [C0 _]]]]]]; [|congruence].
    destruct (C0 NF) as [_ C1].
    assert (TP : path_push (s_tmp s) (mkPath false [Nm n]) = temp_path pick s).
    { unfold temp_path. rewrite PI. reflexivity. }
    apply (C1 T); [|exact LT]. rewrite TP.
    rewrite (resolve_nodes false s); [exact RT|reflexivity|reflexivity].
  - assert (T' = T) by congruence. subst T'. exists s1. rewrite (PL NF) in X. subst o.
    split; [reflexivity|]. split; [exact TM|exact D].
Qed.

Lemma rewind_calm : forall h s, h_plan h = [] ->
  exists h' s', run_handle (ow_dev dev_rewind) h s = ((Ok tt, h'), s')
  /\ same_tree s s' /\ (forall j, s_data s' j = s_data s j) /\ s_log s' = s_log s
  /\ h_ino h' = h_ino h /\ h_path h' = h_path h /\ h_plan h' = [].
Proof.
  intros h s HP. destruct (run_handle (ow_dev dev_rewind) h s) as [[o h'] s'] eqn:R.
  pose proof R as R0. apply run_handle_tree in R0. destruct R0 as [ST [HI [HPA [DD _]]]].
  unfold run_handle in R.
  destruct (ow_dev dev_rewind (handle_dev s h, s_rng s)) as [ot [d g]] eqn:OD.
  apply ow_dev_inv in OD. destruct OD as [OD _]. cbn [fst] in OD.
  pose proof OD as OD1. apply still_rewind in OD. destruct OD as [OD2 [OD3 OD4]].
  unfold dev_rewind, dev_seek_start in OD1. rewrite next_ev_nil in OD1 by exact HP. cbn in OD1.
  injection OD1 as <- OD1.
  injection R as <- R2 R3. exists h', s'. split; [reflexivity|]. split; [exact ST|].
  split; [|split; [|split; [exact HI|split; [exact HPA|]]]].
  - intros j. destruct (Nat.eq_dec j (h_ino h)) as [->|NJ]; [|apply DD, NJ].
    rewrite <- R3. cbn [with_rng put_handle with_data s_data]. unfold set_data. rewrite Nat.eqb_refl.
    rewrite OD2. reflexivity.
  - rewrite <- R3. cbn [with_rng put_handle with_data s_log]. rewrite OD3. cbn [handle_dev d_log map].
    rewrite app_nil_r. reflexivity.
  - rewrite <- R2. cbn [move_handle h_plan]. apply OD4. exact HP.
Qed.

(** ** Names of the entries *)

Lemma prefix_cases : forall (a b c d : list string), a ++ b = c ++ d ->
  (exists x, a = c ++ x /\ d = x ++ b) \/ (exists x, c = a ++ x /\ b = x ++ d /\ x <> []).
Proof.
  induction a as [|x a IH]; intros b c d H.
  - destruct c as [|y c]; [left; exists []; auto|]. right. exists (y :: c). cbn in H. repeat split; auto. discriminate.
  - destruct c as [|y c].
    + left. exists (x :: a). cbn in *. auto.
    + cbn in H. injection H as <- H. destruct (IH b c d H) as [[z [Z1 Z2]]|[z [Z1 [Z2 Z3]]]]; subst.
      * left. exists z. auto.
      * right. exists z. auto.
Qed.

Lemma node_dec : forall a b : option node, {a = b} + {a <> b}.
Proof.
  decide equality. decide equality; [apply Nat.eq_dec|]. decide equality; [|apply bool_dec].
  apply list_eq_dec. decide equality. apply string_dec.
Qed.


(** ** The directories *)

Lemma apart_same : forall dirs d d', apart (map given_names dirs) -> In d dirs -> In d' dirs ->
  inside (given_names d) (given_names d') -> d = d'.
Proof.
  induction dirs as [|x dirs IH]; intros d d' A I I' H; [contradiction|]. cbn [map apart] in A.
  destruct A as [F A]. rewrite Forall_forall in F.
  destruct I as [<-|I], I' as [<-|I']; [reflexivity| | |eauto].
  - destruct (F (given_names d') (in_map _ _ _ I')). contradiction.
  - destruct (F (given_names d) (in_map _ _ _ I)). contradiction.
Qed.

Lemma apart_nodup : forall dirs, apart (map given_names dirs) -> NoDup dirs.
Proof.
  induction dirs as [|x dirs IH]; intros A; constructor; cbn [map apart] in A; destruct A as [F A]; [|auto].
  intros I. rewrite Forall_forall in F. destruct (F _ (in_map given_names _ _ I)) as [X _]. apply X.
  exists []. rewrite app_nil_r. reflexivity.
Qed.

(** A directory and a place below it. *)
Definition item : Type := ((path * cpath) * list string)%type.

Section Dirs.

(** Packed from. *)
Variables (s : sys) (dirs : list (path * cpath)).
Hypothesis TREE : tree_ok s.
Hypothesis PD : Forall (packable_dir s) dirs.
Hypothesis AP : apart (map given_names dirs).

Definition ip (t : item) : path := fst (fst t).
Definition iq (t : item) : cpath := snd (fst t).
Definition ir (t : item) : list string := snd t.
Definition root (t : item) : list string := given_names (fst t).

Definition items : list item := flat_map (fun d => map (pair d) (all_rels s (snd d))) dirs.

Lemma in_items : forall t, In t items <-> In (fst t) dirs /\ In (ir t) (all_rels s (iq t)).
Proof.
  intros [d rel]. unfold items, ir, iq. cbn [fst snd]. rewrite in_flat_map. split.
  - intros [x [I H]]. apply in_map_iff in H. destruct H as [r [E H]]. injection E as -> ->. auto.
  - intros [I H]. exists d. split; [exact I|]. apply in_map. exact H.
Qed.

Lemma dir_of : forall t, In t items -> packable_dir s (fst t).
Proof. intros t I. apply in_items in I. destruct I as [I _]. exact (proj1 (Forall_forall _ _) PD _ I). Qed.

Definition zent_it (t : item) : zent := zent_of s (ip t) (iq t) (ir t).
Definition path_it (t : item) : path := sub (ip t) (ir t).

Lemma item_stat : forall t, In t items -> stat s (path_it t) = lookup (s_nodes s) (iq t ++ ir t).
Proof.
  intros t I. pose proof (dir_of t I) as [K1 K2 K3 K4 K5]. apply in_items in I. destruct I as [_ I].
  apply (rel_stat s (ip t) (iq t)); auto.
Qed.

Lemma item_kind : forall t, In t items -> lookup (s_nodes s) (iq t ++ ir t) = Some NDir
  \/ exists i, lookup (s_nodes s) (iq t ++ ir t) = Some (NFile i).
Proof.
  intros t I. pose proof (dir_of t I) as [K1 K2 K3 K4 K5]. apply in_items in I. destruct I as [_ I].
  apply (rel_kind s (iq t)); auto.
Qed.

Lemma item_packable : forall t, In t items -> packable (path_it t).
Proof.
  intros t I. pose proof (dir_of t I) as [K1 K2 K3 K4 K5]. apply in_items in I. destruct I as [_ I].
  apply (rel_packable s (ip t) (iq t)); auto.
Qed.

Lemma item_there : forall d rel, In d dirs -> lookup (s_nodes s) (snd d ++ rel) <> None -> In (d, rel) items.
Proof.
  intros d rel I H. apply in_items. split; [exact I|].
  pose proof (proj1 (Forall_forall _ _) PD _ I) as [K1 K2 K3 K4 K5].
  apply (rel_there s (fst d) (snd d)); auto.
Qed.

Lemma item_inj : forall t t', In (fst t) dirs -> In (fst t') dirs ->
  root t ++ ir t = root t' ++ ir t' -> t = t'.
Proof.
  intros [d r] [d' r'] I I' E. unfold root, ir in E. cbn [fst snd] in *.
  assert (D : d = d').
  { destruct (prefix_cases _ _ _ _ E) as [[x [X _]]|[x [X _]]].
    - symmetry. apply (apart_same dirs); auto. exists x. exact X.
    - apply (apart_same dirs); auto. exists x. exact X. }
  subst d'. apply app_inv_head in E. subst r'. reflexivity.
Qed.

Lemma items_nodup : NoDup items.
Proof.
  unfold items. pose proof (apart_nodup dirs AP) as ND. clear PD AP.
  induction dirs as [|d l IH]; cbn [flat_map]; [constructor|]. inversion ND as [|x y N1 N2]; subst.
  assert (X : forall l1 l2 : list item, NoDup l1 -> NoDup l2 -> (forall t, In t l1 -> ~ In t l2) -> NoDup (l1 ++ l2)).
  { induction l1 as [|t l1 IH1]; intros l2 A1 A2 DJ; [exact A2|]. inversion A1 as [|x y B1 B2]; subst.
    cbn [app]. constructor.
    - intros I. apply in_app_or in I. destruct I as [I|I]; [contradiction|].
      apply (DJ t); [left; reflexivity|exact I].
    - apply IH1; auto. intros u U. apply DJ. right. exact U. }
  apply X.
  - apply Injective_map_NoDup; [|apply (all_rels_nodup s (snd d) TREE)].
    intros a b E. injection E as ->. reflexivity.
  - apply IH, N2.
  - intros t I J. apply in_map_iff in I. destruct I as [r [<- _]].
    apply in_flat_map in J. destruct J as [d' [J K]]. apply in_map_iff in K.
    destruct K as [r' [E _]]. injection E as -> _. contradiction.
Qed.

Lemma zent_it_name : forall t, exists b, ze_name (zent_it t) = stored_name b (path_it t).
Proof. intros t. apply zent_name. Qed.

Lemma path_names : forall t, names_of (p_comps (path_it t)) = root t ++ ir t.
Proof.
  intros t. unfold path_it, sub, root, given_names. cbn [p_comps]. rewrite nm_app, nm_names. reflexivity.
Qed.

Lemma zent_it_inj : forall t t', In t items -> In t' items ->
  ze_name (zent_it t) = ze_name (zent_it t') -> t = t'.
Proof.
  intros t t' I I' H. destruct (zent_it_name t) as [b A]. destruct (zent_it_name t') as [b' B].
  rewrite A, B in H. apply stored_name_inj in H; [|apply item_packable, I|apply item_packable, I'].
  apply item_inj; [apply in_items, I|apply in_items, I'|]. rewrite <- !path_names, H. reflexivity.
Qed.

Lemma names_it_nodup : NoDup (map ze_name (map zent_it items)).
Proof.
  rewrite map_map. assert (X : forall l, incl l items -> NoDup l ->
    NoDup (map (fun r => ze_name (zent_it r)) l)).
  { induction l as [|a l IH]; intros I N; cbn [map]; [constructor|].
    inversion N as [|x y N1 N2]; subst. constructor; [|apply IH; [|exact N2]; intros z Z; apply I; right; exact Z].
    intros H. apply in_map_iff in H. destruct H as [b [E B]].
    apply zent_it_inj in E; [subst b; contradiction|apply I; right; exact B|apply I; left; reflexivity]. }
  apply X; [apply incl_refl|apply items_nodup].
Qed.

Lemma pack_add_items : forall bs, 0 < bs -> forall l done, items = done ++ l ->
  pack_add bs (map (fun t => entry_of s (path_it t)) l) (map zent_it done) s
  = ((Ok tt, map zent_it (done ++ l)), s).
Proof.
  intros bs BS. induction l as [|t l IH]; intros done E.
  - rewrite app_nil_r. reflexivity.
  - assert (I : In t items) by (rewrite E; apply in_or_app; right; left; reflexivity).
    assert (FR : has_name (ze_name (zent_it t)) (map zent_it done) = false).
    { apply has_name_false. intros H.
      pose proof names_it_nodup as ND. rewrite E, map_app, map_app in ND. cbn [map] in ND.
      apply NoDup_remove_2 in ND. apply ND, in_or_app. left. exact H. }
    specialize (IH (done ++ [t])). rewrite <- app_assoc in IH. cbn [app] in IH. specialize (IH E).
    rewrite map_app in IH. cbn [map] in IH |- *.
    unfold entry_of at 1. rewrite item_stat by exact I.
    assert (ZE : zent_it t = match lookup (s_nodes s) (iq t ++ ir t) with
      | Some (NFile i) => mkZent (stored_name false (path_it t)) (s_data s i)
      | _ => mkZent (stored_name true (path_it t)) [] end).
    { unfold zent_it, zent_of, stored_data, path_it.
      destruct (lookup (s_nodes s) (iq t ++ ir t)) as [[|i|x]|]; reflexivity. }
    destruct (item_kind t I) as [L|[i L]]; rewrite L in *; rewrite ZE in FR, IH.
    + cbn [pack_add]. cbn [ze_name stored_name] in FR. rewrite FR. exact IH.
    + cbn [pack_add h_path]. cbn [ze_name stored_name] in FR. rewrite FR.
      destruct (pack_read_calm (S (List.length (d_data (handle_dev s (mkHandle (path_it t) i 0 [])))))
                  bs [] (handle_dev s (mkHandle (path_it t) i 0 [])) BS eq_refl) as [d' PR].
      { cbn. lia. }
      rewrite PR. cbn [app]. exact IH.
Qed.

Lemma items_packed : forall bs, 0 < bs ->
  fst (pack_add bs (map (fun t => entry_of s (path_it t)) items) [] s) = (Ok tt, map zent_it items).
Proof.
  intros bs BS. pose proof (pack_add_items bs BS items [] eq_refl) as H. cbn [map app] in H.
  rewrite H. reflexivity.
Qed.

Lemma listed_items : no_faults s -> forall files, listed s dirs files ->
  files = map (fun t => entry_of s (path_it t)) items.
Proof.
  intros NF files [lists [F ->]]. unfold items. clear AP. revert lists F.
  induction dirs as [|d l IH]; intros lists F; inversion F as [|x y l1 l2 H1 H2]; subst; [reflexivity|].
  cbn [flat_map List.concat]. rewrite map_app. inversion PD as [|x2 y2 P1 P2]; subst.
  f_equal; [|apply IH; assumption].
  destruct P1 as [K1 K2 K3 K4 K5].
  rewrite (tree_entries s (fst d) (snd d) TREE NF K2 K3 K4) in H1. apply (f_equal fst) in H1.
  apply Ok_inj in H1. rewrite <- H1, !map_map. reflexivity.
Qed.

Lemma items_inodes : inodes_ok s -> forall h,
  In (EFile h) (map (fun t => entry_of s (path_it t)) items) -> h_ino h < s_next s.
Proof.
  intros IO h I. apply in_map_iff in I. destruct I as [t [X I]].
  unfold entry_of in X. destruct (stat s (path_it t)) as [[|i|x]|] eqn:SX; try discriminate.
  injection X as X. rewrite <- X. cbn [h_ino]. unfold stat in SX.
  destruct (resolve true s (path_it t)) as [y|]; [|discriminate]. exact (IO y i SX).
Qed.

End Dirs.

Section Final.

Variables (s : sys) (dirs : list (path * cpath)).
Hypothesis TREE : tree_ok s.
Hypothesis PD : Forall (packable_dir s) dirs.
Hypothesis AP : apart (map given_names dirs).

Let ts := items s dirs.
Let zs := map (zent_it s) ts.

Definition isd (t : item) : bool :=
  match stored_data s (iq t) (ir t) with None => true | Some _ => false end.

(** The components of a stored path, the last one apart. *)
Definition front (t : item) : list comp := removelast (p_comps (ip t) ++ map Nm (ir t)).
Definition final (t : item) : string := last (root t ++ ir t) ""%string.

Lemma front_final : forall t, In (fst t) dirs ->
  p_comps (ip t) ++ map Nm (ir t) = front t ++ [Nm (final t)].
Proof.
  intros t I. destruct (pd_path _ _ (proj1 (Forall_forall _ _) PD _ I)) as [_ [_ [a [n E]]]].
  unfold front, final, root, given_names. fold (ip t) in *.
  destruct (ir t) as [|m r] using rev_ind.
  - cbn [map]. rewrite !app_nil_r, E, removelast_last, nm_app. cbn [names_of].
    rewrite last_last. reflexivity.
  - rewrite map_app, !app_assoc. cbn [map]. rewrite removelast_last, last_last. reflexivity.
Qed.

Lemma front_plain : forall t, In (fst t) dirs -> plain (front t).
Proof.
  intros t I. assert (P : plain (p_comps (ip t) ++ map Nm (ir t))).
  { apply Forall_app. split; [|apply plain_names].
    destruct (pd_path _ _ (proj1 (Forall_forall _ _) PD _ I)) as [_ [G _]].
    eapply Forall_impl; [|exact G]. intros [| |n] H; [discriminate|contradiction|discriminate]. }
  rewrite front_final in P by exact I. apply Forall_app in P. apply P.
Qed.

Lemma front_names : forall t, In (fst t) dirs -> names_of (front t) ++ [final t] = root t ++ ir t.
Proof.
  intros t I. pose proof (f_equal names_of (front_final t I)) as H.
  rewrite !nm_app, nm_names in H. cbn [names_of] in H. symmetry. exact H.
Qed.

Lemma root_nonempty : forall d, In d dirs -> given_names d <> [].
Proof.
  intros d I. pose proof (front_names (d, []) I) as H. unfold root, ir in H. cbn [fst snd] in H.
  rewrite app_nil_r in H. rewrite <- H. intros X. apply app_eq_nil in X. destruct X; discriminate.
Qed.

Lemma item_in_dirs : forall t, In t ts -> In (fst t) dirs.
Proof. intros t I. apply (in_items s dirs) in I. apply I. Qed.

Lemma kind_dir : forall t, In t ts -> isd t = true -> lookup (s_nodes s) (iq t ++ ir t) = Some NDir.
Proof.
  intros t I D. destruct (item_kind s dirs TREE PD t I) as [L|[i L]]; [exact L|].
  unfold isd, stored_data in D. rewrite L in D. discriminate.
Qed.
Lemma kind_file : forall t, In t ts -> isd t = false ->
  exists i, lookup (s_nodes s) (iq t ++ ir t) = Some (NFile i)
    /\ stored_data s (iq t) (ir t) = Some (s_data s i).
Proof.
  intros t I D. destruct (item_kind s dirs TREE PD t I) as [L|[i L]];
    unfold isd, stored_data in *; rewrite L in *; [discriminate|]. eauto.
Qed.

Lemma zent_parts : forall t,
  ze_name (zent_it s t) = stored_name (isd t) (path_it t)
  /\ ze_data (zent_it s t) = match stored_data s (iq t) (ir t) with Some l => l | None => [] end.
Proof. intros t. unfold zent_it, zent_of, isd, path_it. destruct (stored_data s (iq t) (ir t)); split; reflexivity. Qed.

Lemma below_exists : forall d a b, In (d, a ++ b) ts -> b <> [] -> lookup (s_nodes s) (snd d ++ a) = Some NDir.
Proof.
  intros d a b I N. apply (in_items s dirs) in I. destruct I as [_ I]. unfold ir, iq in I. cbn [fst snd] in I.
  destruct I as [X|I].
  - symmetry in X. apply app_eq_nil in X. destruct X. contradiction.
  - apply rels_in in I. destruct I as [_ I]. rewrite app_assoc in I.
    apply (ancestors s b (snd d ++ a) TREE N I).
Qed.

(** Unpacked to. *)
Variables (s2 : sys) (o : path) (q0 : cpath) (names : list string) (c0 : list comp) (T : cpath).
Hypothesis T2 : tree_ok s2.
Hypothesis NF2 : no_faults s2.
Let abs := p_abs o.
Hypothesis PO : p_comps o = c0 ++ map Nm names.
Hypothesis NEO : abs = true \/ p_comps o <> [].
Hypothesis BASE : resolve true s2 (mkPath abs c0) = Some q0.
Hypothesis DIR0 : lookup (s_nodes s2) q0 = Some NDir.
Hypothesis NED : dirs <> [].
Hypothesis WAY : forall d, In d dirs -> forall a b, names ++ given_names d = a ++ b -> b <> [] ->
    lookup (s_nodes s2) (q0 ++ a) = None \/ lookup (s_nodes s2) (q0 ++ a) = Some NDir.
Hypothesis FREE2 : forall d, In d dirs -> lookup (s_nodes s2) (q0 ++ names ++ given_names d) = None.
Hypothesis LT : lookup (s_nodes s2) T = None.
Hypothesis TW : forall d, In d dirs -> ~ on_the_way q0 (names ++ given_names d) T.
Hypothesis TI : forall d, In d dirs -> ~ inside (q0 ++ names ++ given_names d) T.

Definition target (d : path * cpath) : cpath := q0 ++ names ++ given_names d.

Definition ent_of (t : item) : entity :=
  (mkPath abs (p_comps o ++ p_comps (ip t) ++ map Nm (ir t)),
   mkZread (ze_name (zent_it s t)) true (ze_data (zent_it s t)) true).

Lemma entities_eq : entities o (map (fun e => mkZread (ze_name e) true (ze_data e) true) zs)
  = map ent_of ts.
Proof.
  unfold zs. assert (X : forall l, incl l ts ->
    entities o (map (fun e => mkZread (ze_name e) true (ze_data e) true) (map (zent_it s) l))
    = map ent_of l); [|apply X, incl_refl].
  induction l as [|t l IH]; intros I; [reflexivity|]. cbn [map].
  specialize (IH (fun x J => I x (or_intror J))). unfold entities in *. cbn [flat_map].
  rewrite IH. cbn [zr_open zr_name].
  destruct (zent_parts t) as [ZN _].
  rewrite ZN at 1. rewrite stored_name_enclosed
    by (apply (item_packable s dirs TREE PD), I; left; reflexivity).
  unfold ent_of at 2. unfold path_push, path_it, sub. cbn [p_abs p_comps app].
  destruct (pd_path _ _ (dir_of s dirs PD t (I t (or_introl eq_refl)))) as [A _].
  unfold ip. rewrite A. reflexivity.
Qed.

Lemma accepted_true : forall es : list entity, accepted es (map (fun _ => true) (map fst es)) = es.
Proof.
  unfold accepted. induction es as [|e es IH]; [reflexivity|]. cbn [map combine filter snd fst].
  f_equal. exact IH.
Qed.

Definition dit (t : item) : ditem := mkD (front t) (final t) ""%string [].
Definition fit (t : item) : fitem :=
  mkF (map Nm names ++ front t) (final t) (ze_name (zent_it s t)) (ze_data (zent_it s t)).

Lemma ent_dir : forall t, In t ts -> ent_is_dir (ent_of t) = isd t.
Proof.
  intros t I. unfold ent_is_dir, ent_of. cbn [snd zr_name].
  destruct (zent_parts t) as [ZN _]. rewrite ZN. apply stored_name_dir.
  apply (item_packable s dirs TREE PD), I.
Qed.

Lemma dirs_eq : map fst (filter ent_is_dir (map ent_of ts)) = map (d_path o) (map dit (filter isd ts)).
Proof.
  assert (X : forall l, incl l ts ->
    map fst (filter ent_is_dir (map ent_of l)) = map (d_path o) (map dit (filter isd l)));
    [|apply X, incl_refl].
  induction l as [|t l IH]; intros I; [reflexivity|]. cbn [map filter].
  rewrite ent_dir by (apply I; left; reflexivity).
  assert (IH' := IH (fun x J => I x (or_intror J))).
  destruct (isd t); [|exact IH']. cbn [map]. rewrite IH'. f_equal.
  unfold ent_of, d_path, dit. cbn [fst di_dir di_last].
  rewrite <- front_final by (apply item_in_dirs, I; left; reflexivity). reflexivity.
Qed.

Lemma files_eq : filter (fun e => negb (ent_is_dir e)) (map ent_of ts)
  = map (f_ent abs c0) (map fit (filter (fun t => negb (isd t)) ts)).
Proof.
  assert (X : forall l, incl l ts ->
    filter (fun e => negb (ent_is_dir e)) (map ent_of l)
    = map (f_ent abs c0) (map fit (filter (fun t => negb (isd t)) l)));
    [|apply X, incl_refl].
  induction l as [|t l IH]; intros I; [reflexivity|]. cbn [map filter].
  rewrite ent_dir by (apply I; left; reflexivity).
  assert (IH' := IH (fun x J => I x (or_intror J))).
  destruct (isd t); cbn [negb]; [exact IH'|]. cbn [map]. rewrite IH'. f_equal.
  unfold ent_of, f_ent, fit. cbn [f_dir f_last f_stored f_data].
  rewrite <- !app_assoc, <- front_final, PO, <- app_assoc by (apply item_in_dirs, I; left; reflexivity).
  reflexivity.
Qed.

Lemma fit_place : forall t, In (fst t) dirs -> f_place q0 (fit t) = target (fst t) ++ ir t.
Proof.
  intros t I. unfold f_place, fit, target. cbn [f_dir f_last].
  rewrite nm_app, nm_names, <- !app_assoc, front_names by exact I. reflexivity.
Qed.

Lemma dit_names : forall t, In (fst t) dirs -> d_names names (dit t) = names ++ root t ++ ir t.
Proof. intros t I. unfold d_names, dit. cbn [di_dir di_last]. rewrite front_names by exact I. reflexivity. Qed.

Let ds := map dit (filter isd ts).
Let fs := map fit (filter (fun t => negb (isd t)) ts).

Lemma in_ds : forall d, In d ds -> exists t, d = dit t /\ In t ts /\ isd t = true.
Proof.
  intros d I. apply in_map_iff in I. destruct I as [t [<- I]]. apply filter_In in I. exists t. tauto.
Qed.
Lemma in_fs : forall f, In f fs -> exists t, f = fit t /\ In t ts /\ isd t = false.
Proof.
  intros f I. apply in_map_iff in I. destruct I as [t [<- I]]. apply filter_In in I.
  exists t. rewrite negb_true_iff in I. tauto.
Qed.

(** What is wanted: the ways, and places of directories. *)
Lemma wanted_cases : forall a, wanted names ds a ->
  (exists d b, In d dirs /\ names ++ given_names d = a ++ b /\ b <> [])
  \/ exists d rel, In d dirs /\ a = names ++ given_names d ++ rel
       /\ lookup (s_nodes s) (snd d ++ rel) = Some NDir.
Proof.
  intros a [NA [[b X]|[x [b [I X]]]]].
  - left. assert (ED : exists d, In d dirs).
    { clear - NED. destruct dirs as [|d l]; [contradiction|]. exists d. left. reflexivity. }
    destruct ED as [d ID]. exists d, (b ++ given_names d). split; [exact ID|]. split; [rewrite X, <- app_assoc; reflexivity|].
    intros Y. apply app_eq_nil in Y. destruct Y as [_ Y]. exact (root_nonempty d ID Y).
  - destruct (in_ds x I) as [[d rel] [-> [IR DR]]]. pose proof (item_in_dirs _ IR) as ID.
    rewrite dit_names in X by exact ID. unfold root, ir in X. cbn [fst snd] in *.
    rewrite app_assoc in X. symmetry in X.
    destruct (prefix_cases _ _ _ _ X) as [[y [Y1 Y2]]|[y [Y1 [Y2 Y3]]]].
    + right. exists d, y. split; [exact ID|]. split; [rewrite Y1, <- app_assoc; reflexivity|].
      destruct (nil_or b) as [->|NB].
      * rewrite app_nil_r in Y2. subst y. apply (kind_dir (d, rel)); assumption.
      * apply (below_exists d y b); [rewrite <- Y2; exact IR|exact NB].
    + left. exists d, y. auto.
Qed.

Lemma target_free : forall d rel, In d dirs -> lookup (s_nodes s2) (target d ++ rel) = None.
Proof.
  intros d rel ID. destruct (nil_or rel) as [->|N]; [rewrite app_nil_r; apply FREE2, ID|].
  destruct (lookup (s_nodes s2) (target d ++ rel)) as [n|] eqn:L; [|reflexivity]. exfalso.
  assert (IK : In (target d ++ rel) (map fst (s_nodes s2))).
  { unfold lookup in L. destruct (target d ++ rel) as [|y l] eqn:E.
    - apply app_eq_nil in E. destruct E. contradiction.
    - apply find_in in L. apply (in_map fst) in L. exact L. }
  pose proof (ancestors s2 rel (target d) T2 N IK) as X. unfold target in X. rewrite FREE2 in X by exact ID.
  discriminate.
Qed.

(** The state in which extraction begins. *)
Variable s5 : sys.
Hypothesis TM : temp_made True s2 T s5.

Lemma look5 : forall r, r <> T -> lookup (s_nodes s5) r = lookup (s_nodes s2) r.
Proof.
  intros r N. rewrite (tm_nodes _ _ _ _ TM), lookup_add by exact LT.
  apply cpath_eqb_neq in N. rewrite N. reflexivity.
Qed.

Lemma not_temp : forall d rel, In d dirs -> target d ++ rel <> T.
Proof. intros d rel ID E. apply (TI d ID). exists rel. symmetry. exact E. Qed.

Lemma free5 : forall a, wanted names ds a ->
  lookup (s_nodes s5) (q0 ++ a) = None \/ lookup (s_nodes s5) (q0 ++ a) = Some NDir.
Proof.
  intros a W. pose proof W as [NA _]. apply wanted_cases in W.
  destruct W as [[d [b [ID [X NB]]]]|[d [rel [ID [-> L]]]]].
  - rewrite look5; [apply (WAY d ID a b X NB)|]. intros E. apply (TW d ID). exists a, b. auto.
  - rewrite !app_assoc, <- (app_assoc q0). fold (target d). rewrite look5 by (apply not_temp, ID).
    left. apply target_free, ID.
Qed.

Lemma grown5 : grown (s_nodes s2) (s_nodes s5).
Proof. rewrite (tm_nodes _ _ _ _ TM). apply grown_add, LT. Qed.

Lemma dir_place_wanted : forall d rel, In d dirs -> lookup (s_nodes s) (snd d ++ rel) = Some NDir ->
  wanted names ds (names ++ given_names d ++ rel).
Proof.
  intros d rel ID L. split.
  - intros X. apply app_eq_nil in X. destruct X as [_ X]. apply app_eq_nil in X. destruct X as [X _].
    exact (root_nonempty d ID X).
  - right. exists (dit (d, rel)), []. split; [|rewrite dit_names, app_nil_r by exact ID; reflexivity].
    apply in_map. apply filter_In. split; [apply (item_there s dirs PD); [exact ID|congruence]|].
    unfold isd, stored_data, iq, ir. cbn [fst snd]. rewrite L. reflexivity.
Qed.

Lemma wanted_place : forall d rel, In d dirs -> wanted names ds (names ++ given_names d ++ rel) ->
  lookup (s_nodes s) (snd d ++ rel) = Some NDir.
Proof.
  intros d rel ID W. apply wanted_cases in W. destruct W as [[d' [b [ID' [X NB]]]]|[d' [rel' [ID' [X L]]]]].
  - exfalso. rewrite <- app_assoc in X. apply app_inv_head in X.
    assert (d' = d).
    { symmetry. apply (apart_same dirs); auto. exists (rel ++ b). rewrite X, <- app_assoc. reflexivity. }
    subst d'. apply (f_equal (@List.length string)) in X. rewrite !app_length in X.
    destruct b; [contradiction|]. cbn in X. lia.
  - apply app_inv_head in X.
    assert (E : (d, rel) = (d', rel')) by (apply (item_inj dirs); auto).
    injection E as -> ->. exact L.
Qed.

Lemma files5 : Forall (fun f => plain (f_dir f)
  /\ (nm (f_dir f) <> [] -> wanted names ds (nm (f_dir f)))
  /\ ~ wanted names ds (nm (f_dir f) ++ [f_last f])
  /\ lookup (s_nodes s5) (f_place q0 f) = None) fs.
Proof.
  apply Forall_forall. intros f I. destruct (in_fs f I) as [[d rel] [-> [IR DR]]].
  destruct (kind_file _ IR DR) as [i [L SD]]. pose proof (item_in_dirs _ IR) as ID.
  unfold iq, ir in L. cbn [fst snd] in L, ID.
  pose proof (pd_dir _ _ (proj1 (Forall_forall _ _) PD _ ID)) as DIR.
  assert (NR : rel <> []) by (intros ->; rewrite app_nil_r in L; congruence).
  split; [apply Forall_app; split; [apply plain_names|apply front_plain, ID]|].
  assert (FN : nm (f_dir (fit (d, rel))) ++ [f_last (fit (d, rel))] = names ++ given_names d ++ rel).
  { unfold fit. cbn [f_dir f_last]. rewrite nm_app, nm_names, <- app_assoc, front_names by exact ID. reflexivity. }
  split; [|split].
  - intros _. destruct (exists_last NR) as [r' [m E]].
    assert (X : nm (f_dir (fit (d, rel))) = names ++ given_names d ++ r').
    { assert (FN2 : names ++ given_names d ++ rel = (names ++ given_names d ++ r') ++ [m])
        by (rewrite E, !app_assoc; reflexivity).
      rewrite FN2 in FN. apply app_inj_tail in FN. apply FN. }
    rewrite X. apply dir_place_wanted; [exact ID|].
    apply (below_exists d r' [m]); [rewrite <- E; exact IR|discriminate].
  - rewrite FN. intros W. apply wanted_place in W; [congruence|exact ID].
  - rewrite fit_place by exact ID. cbn [fst]. rewrite look5 by (apply not_temp, ID). apply target_free, ID.
Qed.

Lemma files_nodup : NoDup (map (f_place q0) fs).
Proof.
  unfold fs. rewrite map_map.
  assert (X : forall l, incl l ts -> NoDup l -> NoDup (map (fun t => f_place q0 (fit t)) l)).
  { induction l as [|a l IH]; intros IL N; cbn [map]; [constructor|].
    inversion N as [|x y N1 N2]; subst. constructor; [|apply IH; [|exact N2]; intros z Z; apply IL; right; exact Z].
    intros H. apply in_map_iff in H. destruct H as [b [E B]].
    pose proof (item_in_dirs _ (IL b (or_intror B))) as IB.
    pose proof (item_in_dirs _ (IL a (or_introl eq_refl))) as IA.
    rewrite !fit_place in E by assumption. unfold target in E. rewrite <- !app_assoc in E.
    apply app_inv_head in E. apply app_inv_head in E.
    apply (item_inj dirs AP) in E; [|exact IB|exact IA]. subst b. contradiction. }
  apply X; [|apply NoDup_filter; apply (items_nodup s dirs TREE AP)].
  intros x I. apply filter_In in I. apply I.
Qed.

Definition enough : nat := limit names ds + List.length ds.

Lemma restored_copy : forall s', restored s5 names q0 ds fs s' -> forall d rel, In d dirs ->
  same_thing (at_place s (snd d ++ rel)) (at_place s' (target d ++ rel))
  /\ forall i, lookup (s_nodes s') (target d ++ rel) = Some (NFile i) -> s_next s5 <= i.
Proof.
  intros s' R d rel ID. unfold at_place.
  pose proof (pd_links _ _ (proj1 (Forall_forall _ _) PD _ ID)) as NL.
  destruct (lookup (s_nodes s) (snd d ++ rel)) as [[|i|t]|] eqn:L.
  - pose proof (re_dirs _ _ _ _ _ _ R _ (dir_place_wanted d rel ID L)) as X.
    rewrite !app_assoc, <- (app_assoc q0) in X. fold (target d) in X. rewrite X. split; [exact Logic.I|discriminate].
  - assert (IR : In (d, rel) ts) by (apply (item_there s dirs PD); [exact ID|congruence]).
    assert (DR : isd (d, rel) = false) by (unfold isd, stored_data, iq, ir; cbn [fst snd]; rewrite L; reflexivity).
    assert (IF : In (fit (d, rel)) fs).
    { apply in_map. apply filter_In. rewrite DR. auto. }
    destruct (re_files _ _ _ _ _ _ R _ IF) as [j [X [DJ LJ]]]. rewrite fit_place in X by exact ID.
    cbn [fst] in X. unfold ir in X. cbn [snd] in X. rewrite X.
    cbn [same_thing]. split; [|intros k K; congruence].
    rewrite DJ. unfold fit. cbn [f_data]. destruct (zent_parts (d, rel)) as [_ ZD]. rewrite ZD.
    unfold stored_data, iq, ir. cbn [fst snd]. rewrite L. reflexivity.
  - exfalso. apply (NL (snd d ++ rel) t); [exists rel; reflexivity|exact L].
  - assert (X : lookup (s_nodes s') (target d ++ rel) = None).
    { rewrite (re_rest _ _ _ _ _ _ R).
      - rewrite look5 by (apply not_temp, ID). apply target_free, ID.
      - intros a W E. unfold target in E. rewrite <- app_assoc in E. apply app_inv_head in E.
        rewrite <- app_assoc in E. subst a. apply wanted_place in W; [congruence|exact ID].
      - intros I. apply in_map_iff in I. destruct I as [f [E I]].
        destruct (in_fs f I) as [t' [-> [IR DR]]]. pose proof (item_in_dirs _ IR) as ID'.
        rewrite fit_place in E by exact ID'. unfold target in E. rewrite <- !app_assoc in E.
        apply app_inv_head in E. apply app_inv_head in E.
        apply (item_inj dirs AP t' (d, rel)) in E; [|exact ID'|exact ID]. subst t'.
        destruct (kind_file _ IR DR) as [i [LI _]]. unfold iq, ir in LI. cbn [fst snd] in LI. congruence. }
    rewrite X. split; [exact Logic.I|discriminate].
Qed.

Lemma restored_grown : forall s', restored s5 names q0 ds fs s' -> grown (s_nodes s5) (s_nodes s').
Proof.
  intros s' R r n L. destruct (node_dec (lookup (s_nodes s') r) (Some n)) as [X|X]; [exact X|exfalso].
  apply X. rewrite <- L. apply (re_rest _ _ _ _ _ _ R).
  - intros a W E. subst r. pose proof (re_dirs _ _ _ _ _ _ R a W) as D. apply X. rewrite D, <- L.
    destruct (free5 a W); congruence.
  - intros I. apply in_map_iff in I. destruct I as [f [E I]]. pose proof files5 as F.
    rewrite Forall_forall in F. destruct (F f I) as [_ [_ [_ N]]]. congruence.
Qed.

Lemma extraction : forall (h : handle) sched r s',
  (th <- (fun s => let '(th, s') := run_sched sched (mkdir_threads o (map ent_of ts)) s in (Ok th, s')) ;;
   lift (join_all th) ;;
   extract_all (filter (fun e => negb (ent_is_dir e)) (map ent_of ts)) ;;
   ret h) s5 = (r, s') ->
  (r = Ok h /\ restored s5 names q0 ds fs s')
  \/ (r = Diverge /\ exists k, k <= enough /\ turns sched k < enough).
Proof.
  intros h sched r s' H.
  assert (B5 : resolve true s5 (mkPath (p_abs o) c0) = Some q0).
  { eapply resolve_grown_some; [exact grown5|apply (tm_cwd _ _ _ _ TM)|exact BASE|exact DIR0]. }
  assert (DP : Forall (fun d => plain (di_dir d)) ds).
  { apply Forall_forall. intros d I. destruct (in_ds d I) as [t [-> [I2 _]]]. apply front_plain, item_in_dirs, I2. }
  destruct (restore_items s5 o c0 names q0 ds fs (map ent_of ts) (tm_calm _ _ _ _ TM NF2) PO NEO B5
              (grown5 _ _ DIR0) dirs_eq files_eq DP free5 files5 files_nodup h sched r s' H)
    as [[-> R]|[-> [k [K1 K2]]]]; [left; auto|right].
  split; [reflexivity|]. exists k. unfold enough.
  assert (1 <= limit names ds) by (unfold limit; lia). split; lia.
Qed.

End Final.

(** ** Decrypting what packing wrote *)

Lemma encrypted_back_detached : forall E bs req w w', env_ok E -> 0 < bs -> bs <= BLOCK_SIZE ->
  ht_version (er_header_type req) = V5 -> er_detached req = true ->
  d_plan (w_in w) = [] -> d_plan (w_out w) = [] -> d_data (w_out w) = [] ->
  d_plan (w_hdr w) = [] -> d_data (w_hdr w) = [] ->
  encrypt_execute_bs E bs req w = (Ok tt, w') ->
  all_zero (firstn 416 (d_data (w_out w'))) = false ->
  forall v, d_plan (w_in v) = [] -> d_plan (w_out v) = [] -> d_plan (w_hdr v) = [] ->
  d_pos (w_in v) = 0 -> d_data (w_in v) = d_data (w_out w') ->
  d_pos (w_hdr v) = 0 -> d_data (w_hdr v) = d_data (w_hdr w') ->
  exists v', decrypt_execute_bs E bs true (er_raw_key req) v = (Ok tt, v')
    /\ wrote (w_out v) (w_out v') (d_data (w_in w)).
Proof.
  intros E bs req w w' HE B1 B2 V5' DT PI PO DO PH DH EN AZ v VI VO VH P1 D1 P2 D2.
  destruct (encrypt_ok_inv E bs req w tt w' HE B1 EN)
    as (key & wrapped & b & aad & ct & cs & k & HK & _ & _ & HM & _).
  destruct (encrypt_execute_result E bs req w key HE B1 B2 HM) as
    (wr & b' & aad' & _ & _ & _ & _ & _ & R6); auto.
  { intros. apply e_header_wf_v5; auto. eapply hash_known; eauto. }
  destruct (N.of_nat (List.length (d_data (w_in w)) / bs) <=? counter_max E)%N eqn:CM.
  2:{ destruct R6 as [w2 R6]. congruence. }
  apply N.leb_le in CM.
  destruct (file_round_trip_detached_bs E bs req w key HE B1 B2 HM) as (w2 & hdr & body & F1 & F2 & _ & F4 & F5 & F6); auto.
  { intros. apply e_header_wf_v5; auto. eapply hash_known; eauto. }
  assert (w2 = w') by congruence. subst w2.
  assert (B : d_data (w_out w') = body).
  { destruct F2 as (X & _). cbn [set_pos d_data d_pos] in X. now rewrite X, DO, write_at_empty. }
  assert (H : d_data (w_hdr w') = hdr).
  { destruct F4 as (X & _). cbn [set_pos d_data d_pos] in X. now rewrite X, DH, write_at_empty. }
  apply F6; auto.
  - exists []. rewrite P2, D2, H, app_nil_r. reflexivity.
  - left. split; [congruence|]. rewrite F5, V5', <- B. exact AZ.
Qed.

(** The encryption within a run of pack that succeeded. *)
Lemma pack_encrypts : forall E Z pick bs req s tr a1 zs,
  0 < bs -> no_faults s -> h_ino (pr_out req) < s_next s ->
  (forall hh, pr_hdr req = Some hh -> h_ino hh < s_next s /\ h_ino hh <> h_ino (pr_out req)
     /\ h_plan hh = [] /\ s_data s (h_ino hh) = []) ->
  h_plan (pr_out req) = [] -> s_data s (h_ino (pr_out req)) = [] ->
  (forall h, In (EFile h) (pr_files req) -> h_ino h < s_next s) ->
  fst (pack_add bs (pr_files req) [] s) = (Ok tt, zs) ->
  pack_execute_bs E Z pick bs req (s, tr) = (Ok tt, a1) ->
  exists w w', encrypt_execute_bs E bs (encreq req) w = (Ok tt, w')
    /\ d_data (w_in w) = z_encode Z (pr_compression req) zs
    /\ d_plan (w_in w) = [] /\ d_plan (w_out w) = [] /\ d_data (w_out w) = []
    /\ d_plan (w_hdr w) = [] /\ d_data (w_hdr w) = []
    /\ s_data (fst a1) (h_ino (pr_out req)) = d_data (w_out w')
    /\ forall hh, pr_hdr req = Some hh -> s_data (fst a1) (h_ino hh) = d_data (w_hdr w').
Proof.
  intros E Z pick bs req s tr a1 zs BS NF HO HH PO DO FO PA RUN.
  apply pack_stages in RUN; [|exact BS|exact HO|intros x X; apply HH, X].
  destruct RUN as [? X|? ? ? ? ? ? ? ? ? X|? ? ? ? ? ? X
    |T zs' h1 aa h hx a2 cap oe o6 RT LT MD ZD CO TR RNG HI HP RW N1 N2 SL HI2 HP2 HPL2 CAP WT X];
    [discriminate|congruence|destruct X; discriminate|].
  specialize (ZD NF). specialize (CO FO). specialize (HP NF).
  assert (zs' = zs) by congruence. subst zs'.
  assert (OE : oe = Ok tt) by (destruct o6, oe as [[]|?| |]; congruence).
  subst oe.
  apply wipe_any in WT. destruct WT as [WD _]. rewrite HI2 in WD.
  unfold run_world in RW.
  set (w0 := mkWorld (handle_dev (fst aa) h1) (handle_dev (fst aa) (pr_out req))
               (opt_dev (fst aa) (pr_hdr req)) (s_rng (fst aa)) (snd aa)) in RW.
  destruct (encrypt_execute_bs E bs (encreq req) w0) as [oo w1] eqn:EN.
  injection RW as R1 R2 R3 R4. subst oo.
  exists w0, w1. split; [exact EN|]. unfold w0. cbn [w_in w_out w_hdr handle_dev d_data d_plan].
  split; [rewrite HI, ZD; reflexivity|]. split; [exact HP|]. split; [exact PO|].
  split; [rewrite (tm_data _ _ _ _ MD) by lia; exact DO|].
  destruct (pr_hdr req) as [hh|] eqn:PH.
  - destruct (HH hh eq_refl) as (K1 & K2 & K3 & K4). cbn [opt_dev handle_dev d_plan d_data].
    split; [exact K3|]. split; [rewrite (tm_data _ _ _ _ MD) by lia; exact K4|].
    split; [|intros x X'; injection X' as <-]; rewrite WD by lia; rewrite <- R4; cbn [fst with_rng s_data put_opt];
      unfold put_handle; cbn [with_data s_data]; unfold set_data.
    + destruct (Nat.eqb_spec (h_ino (pr_out req)) (h_ino hh)) as [Y|Y]; [congruence|].
      rewrite Nat.eqb_refl. reflexivity.
    + rewrite Nat.eqb_refl. reflexivity.
  - cbn [opt_dev no_dev d_plan d_data]. split; [reflexivity|]. split; [reflexivity|].
    split; [|intros x X'; discriminate]. rewrite WD by lia. rewrite <- R4. cbn [fst with_rng s_data put_opt].
    unfold put_handle. cbn [with_data s_data]. unfold set_data. rewrite Nat.eqb_refl. reflexivity.
Qed.

(** ** The round trip *)

Lemma file_len_calm : forall h s, no_faults s ->
  file_len (EFile h) s = (Ok (List.length (s_data s (h_ino h))), s).
Proof.
  intros h s [NF1 NF2]. unfold file_len, call_or, next_fault. rewrite NF1. reflexivity.
Qed.

Lemma on_sys_eq : forall {E A} (m : M sys E A) s tr o s', m s = (o, s') ->
  on_sys m (s, tr) = (o, (s', tr)).
Proof. intros E A m s tr o s' H. unfold on_sys, zoom. cbn [fst]. rewrite H. reflexivity. Qed.

Lemma map_err_eq : forall {S E E' A} (f : E -> E') (m : M S E A) s a s', m s = (Ok a, s') ->
  map_err f m s = (Ok a, s').
Proof. intros S E E' A f m s a s' H. unfold map_err. rewrite H. reflexivity. Qed.

(** Unpacking a file from which decryption gives the archive. *)
Lemma unpack_many : forall E Z bs s dirs comp,
  zip_ok Z -> tree_ok s -> Forall (packable_dir s) dirs -> apart (map given_names dirs) -> dirs <> [] ->
  forall pick2 s2 ureq q0 names tr2,
  tree_ok s2 -> no_faults s2 ->
  (let ps := map (fun t => mkPath (p_abs (ur_out ureq)) (p_comps (ur_out ureq) ++ p_comps (ip t) ++ map Nm (ir t)))
                 (items s dirs) in ur_ask ureq ps = Some (map (fun _ => true) ps)) ->
  h_ino (ur_in ureq) < s_next s2 -> (forall hh, ur_hdr ureq = Some hh -> h_ino hh < s_next s2) ->
  (forall v, w_in v = handle_dev s2 (ur_in ureq) -> w_hdr v = opt_dev s2 (ur_hdr ureq) -> d_plan (w_out v) = [] ->
    exists v', decrypt_execute_bs E bs (match ur_hdr ureq with Some _ => true | None => false end)
                 (ur_raw_key ureq) v = (Ok tt, v')
      /\ wrote (w_out v) (w_out v') (z_encode Z comp (map (zent_it s) (items s dirs)))) ->
  Forall (fun d => room_for s2 (ur_out ureq) q0 names (given_names d) (temp_path pick2 s2)) dirs ->
  exists n, forall sched r a',
  unpack_execute_bs E Z pick2 bs sched ureq (s2, tr2) = (r, a') ->
  (r = Ok tt /\ Forall (fun d => copied s (snd d) (fst a') (q0 ++ names ++ given_names d)) dirs)
  \/ (r = Diverge /\ exists k, k <= n /\ turns sched k < n).
Proof.
  intros E Z bs s dirs comp ZO TREE PD AP NED pick2 s2 ureq q0 names tr2 T2 NF2 AG II IH DEC RF.
  exists (enough s dirs names). intros sched r a' H.
  assert (R0 : exists d, In d dirs).
  { clear - NED. destruct dirs as [|d l]; [contradiction|]. exists d. left. reflexivity. }
  destruct R0 as [d0 ID0]. rewrite Forall_forall in RF.
  destruct (RF d0 ID0) as [NEO [c0 [PO BASE]] DIR0 _ _ [T [RTT [LT _]]]].
  assert (WAY : forall d, In d dirs -> forall a b, names ++ given_names d = a ++ b -> b <> [] ->
    lookup (s_nodes s2) (q0 ++ a) = None \/ lookup (s_nodes s2) (q0 ++ a) = Some NDir).
  { intros d ID. apply (rf_way _ _ _ _ _ _ (RF d ID)). }
  assert (FREE2 : forall d, In d dirs -> lookup (s_nodes s2) (q0 ++ names ++ given_names d) = None).
  { intros d ID. apply (rf_free _ _ _ _ _ _ (RF d ID)). }
  assert (TW : forall d, In d dirs -> ~ on_the_way q0 (names ++ given_names d) T).
  { intros d ID. destruct (rf_temp _ _ _ _ _ _ (RF d ID)) as [T' [X1 [X2 [X3 X4]]]].
    assert (T' = T) by congruence. subst T'. exact X3. }
  assert (TI : forall d, In d dirs -> ~ inside (q0 ++ names ++ given_names d) T).
  { intros d ID. destruct (rf_temp _ _ _ _ _ _ (RF d ID)) as [T' [X1 [X2 [X3 X4]]]].
    assert (T' = T) by congruence. subst T'. exact X4. }
  (* the temporary file *)
  destruct (create_temp_calm pick2 s2 T NF2 RTT LT) as [s3 [CT [TM3 D3]]].
  set (h0 := mkHandle (temp_path pick2 s2) (s_next s2) 0 []) in *.
  set (v := mkWorld (handle_dev s3 (ur_in ureq)) (handle_dev s3 h0) (opt_dev s3 (ur_hdr ureq)) (s_rng s3) tr2).
  destruct (DEC v) as [v' [DE [W1 _]]].
  { unfold v. cbn [w_in]. unfold handle_dev. rewrite (tm_data _ _ _ _ TM3) by lia. reflexivity. }
  { unfold v. cbn [w_hdr]. destruct (ur_hdr ureq) as [hh|] eqn:UH; [|reflexivity]. cbn [opt_dev].
    unfold handle_dev. rewrite (tm_data _ _ _ _ TM3); [reflexivity|].
    specialize (IH hh eq_refl). lia. }
  { reflexivity. }
  destruct (run_world (decrypt_execute_bs E bs (match ur_hdr ureq with Some _ => true | None => false end)
              (ur_raw_key ureq)) (ur_in ureq) h0 (ur_hdr ureq) (s3, tr2)) as [[o4 [hx h4]] a4] eqn:RW.
  pose proof RW as RW0. pose proof RW as DW. apply decrypt_world in DW. cbn [fst] in DW.
  destruct DW as [ST4 [HI4 [HP4 [PL4 [DD4 LG4]]]]].
  unfold run_world in RW. cbn [fst snd] in RW. fold v in RW. rewrite DE in RW.
  assert (O4 : o4 = Ok tt) by congruence. subst o4.
  assert (D4 : s_data (fst a4) (s_next s2) = z_encode Z comp (map (zent_it s) (items s dirs))).
  { assert (X : fst a4 = with_rng (w_rng v') (put_opt (w_hdr v') (ur_hdr ureq)
                  (put_handle (w_out v') h0 (put_handle (w_in v') (ur_in ureq) s3)))).
    { apply (f_equal snd) in RW. cbn [snd] in RW. rewrite <- RW. reflexivity. }
    rewrite X. cbn [with_rng s_data].
    assert (Y : forall s', s_data (put_opt (w_hdr v') (ur_hdr ureq) s') (s_next s2) = s_data s' (s_next s2)).
    { intros s'. destruct (ur_hdr ureq) as [hh|] eqn:UH; [|reflexivity].
      cbn [put_opt put_handle with_data s_data]. unfold set_data.
      specialize (IH hh eq_refl). destruct (Nat.eqb_spec (s_next s2) (h_ino hh)); [lia|reflexivity]. }
    rewrite Y. cbn [put_handle with_data s_data h_ino h0]. unfold set_data.
    rewrite Nat.eqb_refl, W1. unfold v. cbn [w_out handle_dev d_data d_pos h0 h_ino h_pos].
    rewrite D3. apply write_at_empty. }
  clear RW. destruct a4 as [s4 tr4]. cbn [fst] in *.
  assert (TM4 : temp_made True s2 T s4).
  { eapply temp_made_more; [exact TM3|exact ST4|exact DD4|].
    destruct LG4 as [ws [L1 L2]]. exists ws. split; [exact L1|]. intros _. apply L2.
    intros x X. specialize (IH x X). cbn [h0 h_ino]. lia. }
  specialize (PL4 eq_refl).
  destruct (rewind_calm h4 s4 PL4) as [h5 [s5 [RE [ST5 [D5 [LG5 [HI5 [HP5 PL5]]]]]]]].
  assert (TM5 : temp_made True s2 T s5).
  { eapply temp_made_more; [exact TM4|exact ST5|intros; apply D5|].
    exists []. split; [rewrite LG5; cbn; rewrite app_nil_r; reflexivity|].
    intros _. rewrite D5. split; [lia|constructor]. }
  (* the archive *)
  unfold unpack_execute_bs in H.
  assert (CT' : map_err UnStorage (on_sys (create_temp_file pick2)) (s2, tr2) = (Ok (EFile h0), (s3, tr2)))
    by (apply map_err_eq, on_sys_eq; exact CT).
  erewrite bind_ok in H by exact CT'. cbn iota in H. clear CT'.
  erewrite bind_ok in H by (rewrite RW0; reflexivity).
  erewrite bind_ok in H by (apply map_err_eq, on_sys_eq, file_len_calm, (tm_calm _ _ _ _ TM4 NF2)).
  destruct (unpack_archive Z sched ureq h4 s4) as [ro s6] eqn:UA.
  pose proof UA as UA0.
  assert (ZD : z_decode Z (s_data s5 (h_ino h4))
    = Some (map (fun e => mkZread (ze_name e) true (ze_data e) true) (map (zent_it s) (items s dirs)))).
  { rewrite D5, HI4. cbn [h0 h_ino]. rewrite D4. apply ZO.
    apply (names_it_nodup s dirs TREE PD AP). }
  unfold unpack_archive in UA. rewrite RE in UA. rewrite ZD in UA.
  rewrite (entities_eq s dirs TREE PD (ur_out ureq)) in UA.
  assert (AG' : ur_ask ureq (map fst (map (ent_of s (ur_out ureq)) (items s dirs)))
    = Some (map (fun _ => true) (map fst (map (ent_of s (ur_out ureq)) (items s dirs))))).
  { rewrite (map_map (ent_of s (ur_out ureq)) fst). exact AG. }
  rewrite AG' in UA. clear AG'. cbn zeta iota in UA. rewrite accepted_true in UA.
  apply (extraction s dirs TREE PD AP s2 (ur_out ureq) q0 names c0 T T2 NF2 PO NEO BASE DIR0 NED
           WAY FREE2 LT TW TI s5 TM5) in UA.
  destruct UA as [[-> RS]|[-> [k [K1 K2]]]].
  2:{ right. unfold bind at 1 in H. rewrite (on_sys_eq _ _ _ _ _ UA0) in H.
      injection H as <- _. split; [reflexivity|]. exists k. auto. }
  left. erewrite bind_ok in H by (apply on_sys_eq; exact UA0).
  pose proof (restored_grown s dirs TREE PD AP s2 (ur_out ureq) q0 names T T2 NEO
           NED WAY FREE2 LT TW TI s5 TM5 s6 RS) as G6.
  assert (G26 : grown (s_nodes s2) (s_nodes s6)).
  { intros x n X. apply G6. rewrite (tm_nodes _ _ _ _ TM5). apply grown_add; assumption. }
  assert (L5 : lookup (s_nodes s5) T = Some (NFile (s_next s2))).
  { rewrite (tm_nodes _ _ _ _ TM5), lookup_add, cpath_eqb_refl by exact LT. reflexivity. }
  assert (R6 : resolve false s6 (h_path h5) = Some T).
  { rewrite HP5, HP4. cbn [h0 h_path]. eapply resolve_grown; [exact G26| |exact RTT|discriminate].
    rewrite (re_cwd _ _ _ _ _ _ RS). apply (tm_cwd _ _ _ _ TM5). }
  destruct (wipe_calm h5 (List.length (s_data s4 (h_ino h4))) 1%Z s6 T (s_next s2)
              (re_calm _ _ _ _ _ _ RS) PL5 R6 (G6 _ _ L5)) as [s7 [cs [W7 [WN _]]]].
  pose proof (wipe_any _ _ _ _ _ _ W7) as [WD _].
  erewrite on_sys_eq in H by (apply map_err_eq; exact W7). injection H as <- <-. cbn [fst].
  split; [reflexivity|]. apply Forall_forall. intros d ID rel.
  destruct (restored_copy s dirs TREE PD AP s2 (ur_out ureq) q0 names T T2 NEO
              NED FREE2 LT TI s5 TM5 s6 RS d rel ID)
    as [SM NX].
  unfold at_place, target in *. rewrite WN, lookup_remove.
  2:{ intros Y. subst T. discriminate LT. }
  assert (NT : cpath_eqb ((q0 ++ names ++ given_names d) ++ rel) T = false).
  { apply cpath_eqb_neq. intros Y. apply (TI d ID). exists rel. symmetry. exact Y. }
  rewrite NT. destruct (lookup (s_nodes s6) ((q0 ++ names ++ given_names d) ++ rel))
    as [[|i|t]|] eqn:L6; try exact SM.
  rewrite WD; [exact SM|]. rewrite HI5, HI4. cbn [h0 h_ino].
  specialize (NX i eq_refl). rewrite (tm_next _ _ _ _ TM5) in NX. lia.
Qed.

Theorem round_trip_many : forall E Z pick bs s dirs preq tr a1,
  env_ok E -> zip_ok Z -> 0 < bs <= BLOCK_SIZE ->
  tree_ok s -> no_faults s -> inodes_ok s ->
  Forall (packable_dir s) dirs -> apart (map given_names dirs) -> dirs <> [] ->
  listed s dirs (pr_files preq) -> ht_version (pr_header_type preq) = V5 ->
  h_plan (pr_out preq) = [] -> s_data s (h_ino (pr_out preq)) = [] ->
  h_ino (pr_out preq) < s_next s ->
  pack_execute_bs E Z pick bs preq (s, tr) = (Ok tt, a1) ->
  forall pick2 s2 ureq q0 names tr2,
  tree_ok s2 -> no_faults s2 ->
  ur_raw_key ureq = pr_raw_key preq ->
  (let ps := map (fun t => mkPath (p_abs (ur_out ureq)) (p_comps (ur_out ureq) ++ p_comps (ip t) ++ map Nm (ir t)))
                 (items s dirs) in ur_ask ureq ps = Some (map (fun _ => true) ps)) ->
  h_ino (ur_in ureq) < s_next s2 -> h_plan (ur_in ureq) = [] -> h_pos (ur_in ureq) = 0 ->
  s_data s2 (h_ino (ur_in ureq)) = s_data (fst a1) (h_ino (pr_out preq)) ->
  header_too preq s (fst a1) ureq s2 ->
  Forall (fun d => room_for s2 (ur_out ureq) q0 names (given_names d) (temp_path pick2 s2)) dirs ->
  exists n, forall sched r a',
  unpack_execute_bs E Z pick2 bs sched ureq (s2, tr2) = (r, a') ->
  (r = Ok tt /\ Forall (fun d => copied s (snd d) (fst a') (q0 ++ names ++ given_names d)) dirs)
  \/ (r = Diverge /\ exists k, k <= n /\ turns sched k < n).
Proof.
  intros E Z pick bs s dirs preq tr a1 EO ZO BS TREE NF IO PD AP NED LI V5E OP OD OI PE.
  intros pick2 s2 ureq q0 names tr2 T2 NF2 UK AG II IP IPOS ID HT RF.
  pose proof (listed_items s dirs TREE PD NF _ LI) as FE.
  pose proof (items_packed s dirs TREE PD AP bs (proj1 BS)) as PA. rewrite <- FE in PA.
  assert (FI : forall h, In (EFile h) (pr_files preq) -> h_ino h < s_next s).
  { intros h I. rewrite FE in I. eapply items_inodes; eauto. }
  assert (HH : forall hh, pr_hdr preq = Some hh -> h_ino hh < s_next s /\ h_ino hh <> h_ino (pr_out preq)
     /\ h_plan hh = [] /\ s_data s (h_ino hh) = []).
  { intros hh X. unfold header_too in HT. rewrite X in HT. destruct (ur_hdr ureq); [|contradiction]. tauto. }
  destruct (pack_encrypts E Z pick bs preq s tr a1 _ (proj1 BS) NF OI HH OP OD FI PA PE)
    as (w & w' & EN & WI & P1 & P2 & D2 & P3 & D3 & WO & WH).
  eapply unpack_many with (comp := pr_compression preq); eauto.
  - intros hu X. unfold header_too in HT. rewrite X in HT. destruct (pr_hdr preq); [tauto|contradiction].
  - rewrite UK, <- WI. unfold header_too in HT. intros v VI VH VO.
    destruct (pr_hdr preq) as [hp|] eqn:PH, (ur_hdr ureq) as [hu|] eqn:UH; try contradiction.
    + destruct HT as (_ & _ & _ & _ & K1 & K2 & K3 & K4 & K5).
      change (pr_raw_key preq) with (er_raw_key (encreq preq)).
      eapply (encrypted_back_detached E bs (encreq preq) w w' EO (proj1 BS) (proj2 BS) V5E); eauto.
      * unfold encreq. cbn [er_detached]. rewrite PH. reflexivity.
      * destruct (all_zero (firstn 416 (d_data (w_out w')))) eqn:AZ; [|reflexivity].
        exfalso. apply K5. cbv zeta. rewrite WO. apply all_zero_iff. exact AZ.
      * rewrite VI. exact IP.
      * rewrite VH. exact K2.
      * rewrite VI. exact IPOS.
      * rewrite VI. cbn [handle_dev d_data]. rewrite ID. exact WO.
      * rewrite VH. exact K3.
      * rewrite VH. cbn [opt_dev handle_dev d_data]. rewrite K4. apply WH. reflexivity.
    + change (pr_raw_key preq) with (er_raw_key (encreq preq)).
      eapply (encrypted_back E bs (encreq preq) w w' EO (proj1 BS) (proj2 BS) V5E); eauto.
      * unfold encreq. cbn [er_detached]. rewrite PH. reflexivity.
      * rewrite VI. exact IP.
      * rewrite VI. unfold rest. cbn [handle_dev d_pos d_data]. rewrite IPOS, ID. exact WO.
Qed.

Theorem round_trip : forall E Z pick bs s dirs preq tr a1,
  env_ok E -> zip_ok Z -> 0 < bs <= BLOCK_SIZE ->
  tree_ok s -> no_faults s -> inodes_ok s ->
  Forall (packable_dir s) dirs -> apart (map given_names dirs) -> dirs <> [] ->
  listed s dirs (pr_files preq) -> ht_version (pr_header_type preq) = V5 ->
  h_plan (pr_out preq) = [] -> s_data s (h_ino (pr_out preq)) = [] ->
  h_ino (pr_out preq) < s_next s ->
  pack_execute_bs E Z pick bs preq (s, tr) = (Ok tt, a1) ->
  forall pick2 s2 ureq q0 names tr2,
  tree_ok s2 -> no_faults s2 ->
  ur_raw_key ureq = pr_raw_key preq -> agrees ureq ->
  h_ino (ur_in ureq) < s_next s2 -> h_plan (ur_in ureq) = [] -> h_pos (ur_in ureq) = 0 ->
  s_data s2 (h_ino (ur_in ureq)) = s_data (fst a1) (h_ino (pr_out preq)) ->
  header_too preq s (fst a1) ureq s2 ->
  Forall (fun d => room_for s2 (ur_out ureq) q0 names (given_names d) (temp_path pick2 s2)) dirs ->
  exists n, forall sched r a',
  unpack_execute_bs E Z pick2 bs sched ureq (s2, tr2) = (r, a') ->
  (r = Ok tt /\ Forall (fun d => copied s (snd d) (fst a') (q0 ++ names ++ given_names d)) dirs)
  \/ (r = Diverge /\ exists k, k <= n /\ turns sched k < n).
Proof.
  intros E Z pick bs s dirs preq tr a1 EO ZO BS TREE NF IO PD AP NED LI V5E OP OD OI PE.
  intros pick2 s2 ureq q0 names tr2 T2 NF2 UK AG II IP IPOS ID HT RF.
  eapply round_trip_many; eauto.
Qed.
