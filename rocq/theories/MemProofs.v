(** The two storages side by side. *)
From Coq Require Import List Arith ZArith Bool String Lia Permutation.
From Verif Require Import Bytes Outcome IO Primitives Overwrite FS FSSpec Erase ArchiveSpec MemStore MemSpec.
From Verif Require Import BytesFacts IOSpec IOFacts FSFacts EraseMany MemDisk MemMap.
Import ListNotations.
Local Open Scope nat_scope.
Local Open Scope list_scope.
Strategy 1000 [walk MAX_LINKS resolve].

(** ** Erasing everything below a directory, on either storage *)

Section Each.
Context {S H : Type} (stor : storage S H) (inv : S -> (list string -> kept) -> Prop).
Hypothesis INV_EXT : forall s K K', inv s K -> (forall n, n <> [] -> K n = K' n) -> inv s K'.
Hypothesis ERASE : forall s K n l passes, inv s K -> n <> [] -> K n = KFile l ->
  exists s', erase_on stor (rel n) passes s = (Ok tt, s') /\ inv s' (change K n KNone).

Lemma each_erased : forall passes ns files s K, inv s K -> NoDup ns -> ~ In [] ns ->
  map (st_path stor) files = map rel ns ->
  map (st_is_dir stor) files = map (fun r => match K r with KDir => true | _ => false end) ns ->
  (forall r, In r ns -> K r <> KNone) ->
  exists s' K', erase_each stor passes files s = (Ok tt, s') /\ inv s' K'
  /\ (forall r, K' r = K r \/ In r ns /\ K r <> KDir /\ K' r = KNone).
Proof.
  intros passes. induction ns as [|n ns IH]; intros files s K IV ND NE P D EX.
  - destruct files; [|discriminate]. exists s, K. split; [reflexivity|]. split; [exact IV|]. intros; left; reflexivity.
  - destruct files as [|f files]; [discriminate|]. cbn [map] in P, D. injection P as P1 P. injection D as D1 D.
    apply NoDup_cons_iff in ND. destruct ND as [N1 N2].
    assert (NN : n <> []) by (intros ->; apply NE; left; reflexivity).
    assert (NE' : ~ In [] ns) by (intros X; apply NE; right; exact X).
    cbn [erase_each]. rewrite D1.
    destruct (K n) as [| |l] eqn:KN.
    + exfalso. apply (EX n (or_introl eq_refl) KN).
    + destruct (IH files s K IV N2 NE' P D) as (s' & K' & R & I & C).
      { intros r X. apply EX. right. exact X. }
      exists s', K'. split; [exact R|]. split; [exact I|]. intros r. destruct (C r) as [C1|[C1 C2]]; [left; exact C1|right].
      split; [right; exact C1|exact C2].
    + unfold bind at 1. unfold map_err. rewrite P1. destruct (ERASE s K n l passes IV NN KN) as (s1 & R1 & I1). rewrite R1.
      assert (CH : forall r, In r ns -> change K n KNone r = K r).
      { intros r X. unfold change. destruct (cpath_eqb r n) eqn:E; [|reflexivity].
        apply cpath_eqb_eq in E. subst r. contradiction. }
      destruct (IH files s1 (change K n KNone) I1 N2 NE' P) as (s' & K' & R & I & C).
      { rewrite D. apply map_ext_in. intros r X. rewrite (CH r X). reflexivity. }
      { intros r X. rewrite (CH r X). apply EX. right. exact X. }
      exists s', K'. split; [exact R|]. split; [exact I|]. intros r. unfold change in C. specialize (C r).
      destruct (cpath_eqb r n) eqn:E.
      * apply cpath_eqb_eq in E. subst r. right. split; [left; reflexivity|]. split; [congruence|].
        destruct C as [C|[_ [_ C]]]; exact C.
      * destruct C as [C|[C1 C2]]; [left; exact C|right]. split; [right; exact C1|exact C2].
Qed.

Variable dir : path -> H.
Hypothesis DIR : forall p, st_is_dir stor (dir p) = true.
Hypothesis LIST : forall s K n, inv s K -> n <> [] -> K n = KDir ->
  exists es ns, st_read_dir stor (dir (rel n)) s = (Ok es, s)
  /\ map (st_path stor) es = map rel ns
  /\ map (st_is_dir stor) es = map (fun r => match K r with KDir => true | _ => false end) ns
  /\ NoDup ns /\ (forall r, In r ns <-> below n r = true /\ K r <> KNone).
Hypothesis RMDIR : forall s K n, inv s K -> n <> [] -> K n = KDir ->
  exists s', st_remove_dir_all stor (dir (rel n)) s = (Ok tt, s') /\ inv s' (prune K n).

Lemma dir_erased : forall s K n passes, inv s K -> n <> [] -> K n = KDir ->
  exists s', erase_dir_on stor (dir (rel n)) passes s = (Ok tt, s') /\ inv s' (prune K n).
Proof.
  intros s K n passes IV N KN. unfold erase_dir_on. rewrite DIR. cbn [negb].
  destruct (LIST s K n IV N KN) as (es & ns & R & P & D & ND & IN).
  unfold bind at 1. unfold map_err at 1. rewrite R.
  destruct (each_erased passes ns es s K IV ND) as (s1 & K1 & R1 & I1 & C).
  - intros X. apply IN in X. destruct X as [X _]. apply below_inside in X. destruct X as [z X].
    symmetry in X. apply app_eq_nil in X. destruct X. contradiction.
  - exact P.
  - exact D.
  - intros r X. apply IN in X. apply X.
  - unfold bind. rewrite R1.
    assert (K1N : K1 n = KDir).
    { destruct (C n) as [->|[_ [X _]]]; [exact KN|contradiction]. }
    destruct (RMDIR s1 K1 n I1 N K1N) as (s2 & R2 & I2). unfold map_err. rewrite R2.
    exists s2. split; [reflexivity|]. eapply INV_EXT; [exact I2|].
    intros r _. unfold prune. destruct (below n r) eqn:B; [reflexivity|].
    destruct (C r) as [->|[X _]]; [reflexivity|]. apply IN in X. destruct X. congruence.
Qed.

End Each.

Lemma erase_dir_disk : forall s K n passes, holds s K -> n <> [] -> K n = KDir ->
  exists s', erase_dir_on FileStorage (EDir (rel n)) passes s = (Ok tt, s') /\ holds s' (prune K n).
Proof.
  apply (dir_erased FileStorage holds holds_ext erase_rel EDir).
  - reflexivity.
  - exact disk_listing.
  - exact rmdir_rel.
Qed.

Lemma erase_dir_mem : forall m K n passes, mholds m K -> n <> [] -> K n = KDir ->
  exists m', erase_dir_on InMemoryStorage (MDir (rel n)) passes m = (Ok tt, m') /\ mholds m' (prune K n).
Proof.
  apply (dir_erased InMemoryStorage mholds mholds_ext erase_mem MDir).
  - reflexivity.
  - intros m K n HM N _. apply (mem_listing m K n HM N).
  - intros m K n HM N _. apply (rmdir_mem m K n HM N).
Qed.

(** ** The remaining calls *)

Lemma listed_same : forall (A B : Type) (pa : A -> path) (da : A -> bool) (pb : B -> path) (db : B -> bool) K n es ns fs ms,
  map pa es = map rel ns -> map da es = map (fun r : list string => match K r with KDir => true | _ => false end) ns ->
  NoDup ns -> (forall r, In r ns <-> below n r = true /\ K r <> KNone) ->
  map pb fs = map rel ms -> map db fs = map (fun r : list string => match K r with KDir => true | _ => false end) ms ->
  NoDup ms -> (forall r, In r ms <-> below n r = true /\ K r <> KNone) ->
  Permutation (map (fun x => (pa x, da x)) es) (map (fun x => (pb x, db x)) fs).
Proof.
  assert (X : forall (A : Type) (pa : A -> path) (da : A -> bool) K es ns,
    map pa es = map rel ns -> map da es = map (fun r : list string => match K r with KDir => true | _ => false end) ns ->
    map (fun x => (pa x, da x)) es = map (fun r => (rel r, match K r with KDir => true | _ => false end)) ns).
  { intros A pa da K. induction es as [|e es IH]; intros [|n ns] P D; try discriminate; [reflexivity|].
    cbn [map] in *. injection P as P1 P. injection D as D1 D. rewrite P1, D1. f_equal. apply IH; assumption. }
  intros A B pa da pb db K n es ns fs ms P1 D1 N1 I1 P2 D2 N2 I2.
  rewrite (X _ _ _ _ _ _ P1 D1), (X _ _ _ _ _ _ P2 D2). apply Permutation_map.
  apply NoDup_Permutation; [exact N1|exact N2|]. intros r. rewrite I1, I2. reflexivity.
Qed.

Lemma disk_erase : forall s K n passes, holds s K -> n <> [] ->
  exists s', perform FileStorage (Erase n passes) s
    = (match K n with KFile _ => Ok ADone | _ => Err (CeErase EraOpenFile) end, s')
  /\ holds s' (match K n with KFile _ => change K n KNone | _ => K end).
Proof.
  intros s K n passes HD N. unfold perform, bind, map_err.
  destruct (K n) as [| |l] eqn:KN.
  - rewrite (erase_rel_not s K n passes HD N) by congruence. eauto.
  - rewrite (erase_rel_not s K n passes HD N) by congruence. eauto.
  - destruct (erase_rel s K n l passes HD N KN) as (s' & R & I). rewrite R. exists s'. split; [reflexivity|exact I].
Qed.

Lemma mem_erase : forall m K n passes, mholds m K -> n <> [] ->
  exists m', perform InMemoryStorage (Erase n passes) m
    = (match K n with KFile _ => Ok ADone | _ => Err (CeErase EraOpenFile) end, m')
  /\ mholds m' (match K n with KFile _ => change K n KNone | _ => K end).
Proof.
  intros m K n passes HD N. unfold perform, bind, map_err.
  destruct (K n) as [| |l] eqn:KN.
  - rewrite (erase_mem_not m K n passes HD N) by congruence. eauto.
  - rewrite (erase_mem_not m K n passes HD N) by congruence. eauto.
  - destruct (erase_mem m K n l passes HD N KN) as (m' & R & I). rewrite R. exists m'. split; [reflexivity|exact I].
Qed.

Lemma disk_open : forall s K n, holds s K -> n <> [] -> 
  match K n with
  | KNone => read_file (rel n) s = (Err StOpenRead, s)
  | KDir => read_file (rel n) s = (Ok (EDir (rel n)), s)
  | KFile _ => exists h, read_file (rel n) s = (Ok (EFile h), s)
  end.
Proof.
  intros s K n [PD HK] N. rewrite read_rel by assumption. rewrite <- HK by exact N.
  destruct (on_disk s n) as [| |l] eqn:O.
  - rewrite on_disk_none by assumption. reflexivity.
  - rewrite on_disk_dir by assumption. reflexivity.
  - apply on_disk_file in O. destruct O as (i & L & D). rewrite L. eauto.
Qed.

Lemma mem_open : forall m K n, mholds m K -> n <> [] ->
  match K n with
  | KNone => mem_read_file (rel n) m = (Err StOpenRead, m)
  | KDir => mem_read_file (rel n) m = (Ok (MDir (rel n)), m)
  | KFile _ => exists c, mem_read_file (rel n) m = (Ok (MFile (rel n) c), m)
  end.
Proof.
  intros m K n HM N. destruct (mholds_good m K HM) as (al & E & G). rewrite <- (g_kind al K G n N).
  unfold mem_read_file. rewrite E, named_get. destruct (al_get n al) as [[l0|]|]; cbn [kind]; eauto.
Qed.

Lemma disk_erase_dir : forall s K n passes, holds s K -> n <> [] ->
  exists s', perform FileStorage (EraseDir n passes) s
    = (match K n with
       | KNone => Err (CeStore StOpenRead) | KDir => Ok ADone
       | KFile _ => Err (CeEraseDir EdInvalidFileType) end, s')
  /\ holds s' (match K n with KDir => prune K n | _ => K end).
Proof.
  intros s K n passes HD N. pose proof (disk_open s K n HD N) as O.
  unfold perform, sto, bind, map_err. cbn [FileStorage st_read_file].
  destruct (K n) as [| |l] eqn:KN.
  - rewrite O. eauto.
  - rewrite O. destruct (erase_dir_disk s K n passes HD N KN) as (s' & R & I).
    rewrite R. exists s'. split; [reflexivity|exact I].
  - destruct O as [h ->]. exists s. split; [reflexivity|exact HD].
Qed.

Lemma mem_erase_dir : forall m K n passes, mholds m K -> n <> [] ->
  exists m', perform InMemoryStorage (EraseDir n passes) m
    = (match K n with
       | KNone => Err (CeStore StOpenRead) | KDir => Ok ADone
       | KFile _ => Err (CeEraseDir EdInvalidFileType) end, m')
  /\ mholds m' (match K n with KDir => prune K n | _ => K end).
Proof.
  intros m K n passes HM N. pose proof (mem_open m K n HM N) as O.
  unfold perform, sto, bind, map_err. cbn [InMemoryStorage st_read_file].
  destruct (K n) as [| |l] eqn:KN.
  - rewrite O. eauto.
  - rewrite O. destruct (erase_dir_mem m K n passes HM N KN) as (m' & R & I).
    rewrite R. exists m'. split; [reflexivity|exact I].
  - destruct O as [c ->]. exists m. split; [reflexivity|exact HM].
Qed.

Lemma entries_same : forall m s K n, mholds m K -> holds s K -> n <> [] ->
  exists a b, perform InMemoryStorage (Entries n) m = (a, m) /\ perform FileStorage (Entries n) s = (b, s)
  /\ agree a b.
Proof.
  intros m s K n HM HD N. pose proof (disk_open s K n HD N) as O. pose proof (mem_open m K n HM N) as Q.
  unfold perform, sto, bind, map_err. cbn [InMemoryStorage FileStorage st_read_file st_read_dir st_path st_is_dir].
  destruct (K n) as [| |l] eqn:KN.
  - rewrite O, Q. do 2 eexists. split; [reflexivity|]. split; reflexivity.
  - rewrite O, Q. destruct (disk_listing s K n HD N KN) as (es & ns & R & P1 & D1 & N1 & I1).
    destruct (mem_listing m K n HM N) as (fs & ms & R' & P2 & D2 & N2 & I2). rewrite R, R'.
    do 2 eexists. split; [reflexivity|]. split; [reflexivity|]. cbn [agree].
    eapply (listed_same mentry entry mentry_path mentry_is_dir entry_path entry_is_dir K n); eassumption.
  - destruct O as [h ->], Q as [c ->]. do 2 eexists. split; [reflexivity|]. split; reflexivity.
Qed.

(** ** Agreement *)

Lemma same_holds : forall m s, same_store m s -> mholds m (on_disk s) /\ holds s (on_disk s).
Proof. intros m s [A B C]. split; (split; [assumption|]); [exact C|reflexivity]. Qed.

Lemma holds_store : forall m s K, mholds m K -> holds s K -> same_store m s.
Proof.
  intros m s K [A B] [C D]. constructor; [exact A|exact C|]. intros n N. rewrite B, D by exact N. reflexivity.
Qed.

(** The same changes on both sides exactly if what is stored then is the same. *)
Lemma store_iff : forall m s K L, mholds m K -> holds s L ->
  (same_store m s <-> forall n, n <> [] -> K n = L n).
Proof.
  intros m s K L HM HD. split.
  - intros [_ _ E] n N. destruct HM as [_ HM], HD as [_ HD]. rewrite <- HM, <- HD by exact N. apply E, N.
  - intros E. eapply (holds_store m s L); [|exact HD]. eapply mholds_ext; [exact HM|exact E].
Qed.

Lemma change_at : forall K n k, change K n k n = k.
Proof. intros. unfold change. rewrite cpath_eqb_refl. reflexivity. Qed.

Lemma parents_there : forall s K n, holds s K -> n <> [] -> K n <> KNone ->
  removelast n = [] \/ K (removelast n) = KDir.
Proof.
  intros s K n [PD HK] N KN. destruct (removelast n) as [|x r] eqn:E; [left; reflexivity|right].
  rewrite <- HK in * by (exact N || discriminate).
  destruct (lookup (s_nodes s) (s_cwd s ++ n)) as [nd|] eqn:L.
  - pose proof (there s PD n nd N L) as T. rewrite E in T. unfold on_disk, at_place. rewrite T. reflexivity.
  - exfalso. apply KN. unfold on_disk, at_place. rewrite L. reflexivity.
Qed.

Theorem boundary : forall m s c a m' b s', same_store m s -> target c <> [] ->
  perform InMemoryStorage c m = (a, m') -> perform FileStorage c s = (b, s') ->
  (agree a b /\ same_store m' s' <-> permitted (on_disk s) c).
Proof.
  intros m s c a m' b s' SS N PM PF. destruct (same_holds m s SS) as [HM HD].
  remember (on_disk s) as K eqn:EK. clear EK SS.
  destruct c as [n l|n|n|n|n l|n|n|n|n passes|n passes]; cbn [target] in N; cbn [permitted].
  - destruct (mem_put m K n l HM N) as (m1 & R1 & H1). destruct (disk_put s K n l HD N) as (s1 & R2 & H2).
    rewrite R1 in PM. rewrite R2 in PF. injection PM as <- <-. injection PF as <- <-.
    destruct (K n) as [| |l0] eqn:KN.
    + destruct (removelast n) as [|x r] eqn:RL.
      * split; [auto|]. intros _. split; [reflexivity|]. eapply holds_store; eassumption.
      * destruct (K (x :: r)) as [| |l0] eqn:KP.
        -- split; [intros [X _]; discriminate|intros [_ [X|X]]; congruence].
        -- split; [auto|]. intros _. split; [reflexivity|]. eapply holds_store; eassumption.
        -- split; [intros [X _]; discriminate|intros [_ [X|X]]; congruence].
    + split; [intros _; split; [exact N|]; eapply parents_there; [exact HD|exact N|congruence]|].
      intros _. split; [reflexivity|]. eapply holds_store; eassumption.
    + split; [intros _; split; [exact N|]; eapply parents_there; [exact HD|exact N|congruence]|].
      intros _. split; [reflexivity|]. eapply holds_store; eassumption.
  - rewrite (mem_get m K n HM N) in PM. destruct (disk_get s K n HD N) as (s1 & R2 & H2).
    rewrite R2 in PF. injection PM as <- <-. injection PF as <- <-. split; [auto|]. intros _.
    split; [destruct (K n); reflexivity|]. eapply holds_store; eassumption.
  - rewrite (mem_len m K n HM N) in PM. rewrite (disk_len s K n HD N) in PF.
    injection PM as <- <-. injection PF as <- <-. split; [auto|]. intros _.
    split; [destruct (K n); reflexivity|]. eapply holds_store; eassumption.
  - rewrite (mem_wlen m K n HM N) in PM. destruct (disk_wlen s K n HD N) as (s1 & R2 & H2).
    rewrite R2 in PF. injection PM as <- <-. injection PF as <- <-. destruct (K n) as [| |l] eqn:KN.
    + split; [auto|]. intros _. split; [reflexivity|]. eapply holds_store; eassumption.
    + split; [intros [X _]; discriminate|]. intros [_ [X|X]]; discriminate.
    + split.
      * intros [X _]. cbn in X. injection X as X. split; [exact N|right]. destruct l; [reflexivity|discriminate].
      * intros [_ [X|X]]; [discriminate|]. injection X as ->. split; [reflexivity|].
        apply (store_iff m s1 K _ HM H2). intros r R. unfold change. destruct (cpath_eqb r n) eqn:E; [|reflexivity].
        apply cpath_eqb_eq in E. subst r. exact KN.
  - destruct (mem_update m K n l HM N) as (m1 & R1 & H1). destruct (disk_update s K n l HD N) as (s1 & R2 & H2).
    rewrite R1 in PM. rewrite R2 in PF. injection PM as <- <-. injection PF as <- <-.
    destruct (K n) as [| |l0] eqn:KN.
    + split; [auto|]. intros _. split; [reflexivity|]. eapply holds_store; eassumption.
    + split; [intros [X _]; discriminate|]. intros [_ [X|(l1 & X & _)]]; discriminate.
    + split.
      * intros [_ X]. split; [exact N|right]. exists l0. split; [reflexivity|].
        apply (store_iff m1 s1 _ _ H1 H2) with (n := n) in X; [|exact N]. rewrite !change_at in X.
        injection X as X. apply (f_equal (@List.length _)) in X. rewrite app_length, skipn_length in X. lia.
      * intros [_ [X|(l1 & X & Q)]]; [discriminate|]. injection X as <-. split; [reflexivity|].
        apply (store_iff m1 s1 _ _ H1 H2). intros r _. rewrite skipn_all2 by exact Q. rewrite app_nil_r. reflexivity.
  - destruct (mem_del m K n HM N) as (m1 & R1 & H1). destruct (disk_del s K n HD N) as (s1 & R2 & H2).
    rewrite R1 in PM. rewrite R2 in PF. injection PM as <- <-. injection PF as <- <-.
    destruct (K n) as [| |l0] eqn:KN.
    + split; [intros _; split; [exact N|discriminate]|]. intros _. split; [reflexivity|]. eapply holds_store; eassumption.
    + split; [intros [X _]; discriminate|]. intros [_ X]; contradiction.
    + split; [intros _; split; [exact N|discriminate]|]. intros _. split; [reflexivity|]. eapply holds_store; eassumption.
  - destruct (mem_rmdir m K n HM N) as (m1 & R1 & H1). destruct (disk_rmdir s K n HD N) as (s1 & R2 & H2).
    rewrite R1 in PM. rewrite R2 in PF. injection PM as <- <-. injection PF as <- <-.
    destruct (K n) as [| |l0] eqn:KN.
    + split; [auto|]. intros _. split; [reflexivity|]. eapply holds_store; eassumption.
    + split; [auto|]. intros _. split; [reflexivity|]. eapply holds_store; eassumption.
    + split; [intros [X _]; discriminate|]. intros [_ [X|X]]; discriminate.
  - destruct (entries_same m s K n HM HD N) as (a1 & b1 & R1 & R2 & A).
    rewrite R1 in PM. rewrite R2 in PF. injection PM as <- <-. injection PF as <- <-.
    split; [auto|]. intros _. split; [exact A|]. eapply holds_store; eassumption.
  - destruct (mem_erase m K n passes HM N) as (m1 & R1 & H1). destruct (disk_erase s K n passes HD N) as (s1 & R2 & H2).
    rewrite R1 in PM. rewrite R2 in PF. injection PM as <- <-. injection PF as <- <-. split; [auto|]. intros _.
    split; [destruct (K n); reflexivity|]. eapply holds_store; eassumption.
  - destruct (mem_erase_dir m K n passes HM N) as (m1 & R1 & H1). destruct (disk_erase_dir s K n passes HD N) as (s1 & R2 & H2).
    rewrite R1 in PM. rewrite R2 in PF. injection PM as <- <-. injection PF as <- <-. split; [auto|]. intros _.
    split; [destruct (K n); reflexivity|]. eapply holds_store; eassumption.
Qed.

Lemma permitted_target : forall K c, permitted K c -> target c <> [].
Proof. intros K [] H; cbn in *; tauto. Qed.

Theorem sequences_agree : forall cs m s xs m' ys s', same_store m s -> all_permitted cs s ->
  perform_all InMemoryStorage cs m = (xs, m') -> perform_all FileStorage cs s = (ys, s') ->
  Forall2 agree xs ys /\ same_store m' s'.
Proof.
  induction cs as [|c cs IH]; intros m s xs m' ys s' SS AP PM PF.
  - injection PM as <- <-. injection PF as <- <-. split; [constructor|exact SS].
  - cbn [perform_all] in PM, PF. cbn [all_permitted] in AP. destruct AP as [A1 A2].
    destruct (perform InMemoryStorage c m) as [a m1] eqn:R1. destruct (perform FileStorage c s) as [b s1] eqn:R2.
    destruct (perform_all InMemoryStorage cs m1) as [as_ m2] eqn:R3.
    destruct (perform_all FileStorage cs s1) as [bs s2] eqn:R4.
    injection PM as <- <-. injection PF as <- <-.
    apply (boundary m s c a m1 b s1 SS (permitted_target _ _ A1) R1 R2) in A1. destruct A1 as [AG SS1].
    destruct (IH m1 s1 as_ m2 bs s2 SS1 A2 R3 R4) as [F SS2]. split; [constructor; assumption|exact SS2].
Qed.

(** ** Where the tests are blind *)

Theorem erase_capacity : forall m s n l, same_store m s -> n <> [] -> on_disk s n = KFile l ->
  fst (perform InMemoryStorage (WLen n) m) = Ok (ALen (List.length l))
  /\ fst (perform FileStorage (WLen n) s) = Ok (ALen 0).
Proof.
  intros m s n l SS N O. destruct (same_holds m s SS) as [HM HD].
  rewrite (mem_wlen m _ n HM N). destruct (disk_wlen s _ n HD N) as (s1 & R & _). rewrite R, O. split; reflexivity.
Qed.
