(** The test data of crates/volaris-tools/src/storage.rs (lines 218-233) in both
    storages, and where the two part. *)
From Coq Require Import List Arith ZArith Bool String Permutation.
From Verif Require Import Bytes Outcome IO Primitives Overwrite FS Erase.
From Verif Require Import FSSpec FSFacts EraseCases ArchiveSpec ArchiveCases PackPath MemStore MemSpec MemDisk MemMap MemProofs.
Import ListNotations.
Local Open Scope nat_scope.
Local Open Scope list_scope.

(** ** Checking [same_store] *)

Definition kept_eqb (a b : kept) : bool :=
  match a, b with
  | KNone, KNone | KDir, KDir => true
  | KFile l, KFile k => if list_eq_dec Byte.byte_eq_dec l k then true else false
  | _, _ => false
  end.
Lemma kept_eqb_spec : forall a b, kept_eqb a b = true -> a = b.
Proof.
  intros [| |l] [| |k] H; try discriminate; try reflexivity. cbn in H.
  destruct (list_eq_dec Byte.byte_eq_dec l k); [congruence|discriminate].
Qed.

Definition inode (e : cpath * node) : list nat := match snd e with NFile i => [i] | _ => [] end.
Fixpoint distinct_nat (l : list nat) : bool :=
  match l with [] => true | x :: l' => negb (existsb (Nat.eqb x) l') && distinct_nat l' end.

Definition plain_diskb (s : sys) : bool :=
  tree_okb s && match s_faults s with [] => true | _ => false end
  && match s_plans s with [] => true | _ => false end && inodes_okb s
  && match lookup (s_nodes s) (s_cwd s) with Some NDir => true | _ => false end
  && forallb (fun e => match snd e with NLink _ => false | _ => true end) (s_nodes s)
  && distinct_nat (flat_map inode (s_nodes s)).

Lemma inodes_once : forall t, distinct_nat (flat_map inode t) = true ->
  forall r r' i, In (r, NFile i) t -> In (r', NFile i) t -> r = r'.
Proof.
  assert (X : forall t r i, In (r, NFile i) t -> existsb (Nat.eqb i) (flat_map inode t) = true).
  { intros t r i I. apply existsb_exists. exists i. split; [|apply Nat.eqb_refl].
    apply in_flat_map. exists (r, NFile i). split; [exact I|left; reflexivity]. }
  induction t as [|[k n] t IH]; intros D r r' i I I'; [destruct I|].
  cbn [flat_map] in D. destruct I as [I|I], I' as [I'|I'].
  - congruence.
  - injection I as -> ->. cbn [inode snd app distinct_nat] in D. rewrite (X t r' i I') in D. discriminate.
  - injection I' as -> ->. cbn [inode snd app distinct_nat] in D. rewrite (X t r i I) in D. discriminate.
  - apply (IH) with (i := i); [|exact I|exact I']. destruct n; cbn [inode snd app distinct_nat] in D; try exact D.
    apply andb_prop in D. apply D.
Qed.

Lemma plain_diskb_spec : forall s, plain_diskb s = true -> plain_disk s.
Proof.
  intros s H. unfold plain_diskb in H. do 6 (apply andb_prop in H; destruct H as [H ?]).
  assert (FI : forall r n, lookup (s_nodes s) r = Some n -> n <> NDir -> In (r, n) (s_nodes s)).
  { intros r n L ND. destruct r as [|x r]; [cbn in L; congruence|]. apply find_in. exact L. }
  constructor.
  - apply tree_okb_spec. assumption.
  - split; [destruct (s_faults s)|destruct (s_plans s)]; congruence.
  - apply inodes_okb_spec. assumption.
  - destruct (lookup (s_nodes s) (s_cwd s)) as [[| |]|]; congruence.
  - intros r t _ L. apply FI in L; [|discriminate].
    match goal with F : forallb _ _ = true |- _ => rewrite forallb_forall in F; apply F in L; discriminate end.
  - intros r _ i r' L L'. apply FI in L; [|discriminate]. apply FI in L'; [|discriminate].
    eapply inodes_once; eassumption.
Qed.

Definition same_storeb (m : mem) (ns : list (list string)) (s : sys) : bool :=
  plain_diskb s && distinct ns && negb (cpath_in [] ns)
  && forallb (fun n => kept_eqb (in_mem m n) (on_disk s n)) ns
  && forallb (fun e => match strip_prefix (s_cwd s) (fst e) with
                       | Some (x :: r) => cpath_in (x :: r) ns
                       | _ => true end) (s_nodes s).

Lemma same_storeb_spec : forall ns g fs s, let m := mkMem (combine (map rel ns) fs) g in
  List.length fs = List.length ns -> same_storeb m ns s = true -> same_store m s.
Proof.
  intros ns g fs s m LEN H. unfold same_storeb in H. do 4 (apply andb_prop in H; destruct H as [H ?]).
  assert (K : map fst (m_files m) = map rel ns).
  { subst m. cbn [m_files]. clear - LEN. revert fs LEN. induction ns as [|n ns IH]; intros [|f fs] L; try discriminate; [reflexivity|].
    cbn. f_equal. apply IH. cbn in L. congruence. }
  constructor.
  - exists ns. split; [exact K|]. split; [apply distinct_spec; assumption|].
    intros I. apply cpath_in_spec in I. rewrite I in *. discriminate.
  - apply plain_diskb_spec. assumption.
  - intros n N. destruct (cpath_in n ns) eqn:C.
    + apply cpath_in_spec in C.
      match goal with F : forallb (fun n => kept_eqb _ _) _ = true |- _ =>
        rewrite forallb_forall in F; apply kept_eqb_spec, F, C end.
    + assert (NI : ~ In n ns) by (intros I; apply cpath_in_spec in I; congruence).
      assert (E1 : in_mem m n = KNone).
      { unfold in_mem. destruct (find (fun e => path_eqb (fst e) (rel n)) (m_files m)) as [[k f]|] eqn:F; [|reflexivity].
        apply find_some in F. destruct F as [I E]. apply (in_map fst) in I. rewrite K in I. apply in_map_iff in I.
        cbn [fst] in *. destruct I as (n' & <- & I). rewrite path_eqb_rel in E. apply cpath_eqb_eq in E. subst n'. contradiction. }
      rewrite E1. unfold on_disk, at_place.
      destruct (lookup (s_nodes s) (s_cwd s ++ n)) as [nd|] eqn:L; [|reflexivity]. exfalso.
      apply lookup_key in L; [|apply app_ne, N]. apply in_map_iff in L. destruct L as ([k nd'] & E & I). cbn [fst] in E. subst k.
      match goal with F : forallb (fun e => match strip_prefix _ _ with _ => _ end) _ = true |- _ =>
        rewrite forallb_forall in F; apply F in I end.
      cbn [fst] in I. replace (strip_prefix (s_cwd s) (s_cwd s ++ n)) with (Some n) in I.
      2:{ symmetry. clear. induction (s_cwd s) as [|x c IH]; [reflexivity|]. cbn. rewrite String.eqb_refl. exact IH. }
      destruct n as [|x r]; [contradiction|]. congruence.
Qed.

(** ** storage.rs lines 218-233 *)

Definition test_names : list (list string) :=
  [["hello.txt"]; ["bar"]; ["bar"; "hello.txt"]; ["bar"; "world.txt"]; ["bar"; "foo"];
   ["bar"; "foo"; "hello.txt"]; ["bar"; "foo"; "world.txt"]]%string.
Definition test_files : list im_file :=
  [IMFile (B "hello world"); IMDir; IMFile (B "hello"); IMFile (B "world"); IMDir;
   IMFile (B "hello"); IMFile (B "world")].
Definition test_mem : mem := mkMem (combine (map rel test_names) test_files) noise.

Definition test_disk : sys :=
  fs [(["home"], NDir); (["home"; "hello.txt"], NFile 0); (["home"; "bar"], NDir);
      (["home"; "bar"; "world.txt"], NFile 2); (["home"; "bar"; "hello.txt"], NFile 1);
      (["home"; "bar"; "foo"], NDir); (["home"; "bar"; "foo"; "hello.txt"], NFile 3);
      (["home"; "bar"; "foo"; "world.txt"], NFile 4); (["tmp"], NDir)]%string
     ["hello world"; "hello"; "world"; "hello"; "world"]%string.

Lemma test_same : same_store test_mem test_disk.
Proof. apply (same_storeb_spec test_names noise test_files test_disk eq_refl). vm_compute. reflexivity. Qed.

Definition both (cs : list call) :=
  (fst (perform_all InMemoryStorage cs test_mem), fst (perform_all FileStorage cs test_disk)).

Lemma shorter_update : exists m s n l a b,
  same_store m s
  /\ fst (perform_all InMemoryStorage [Update n l; Get n] m) = [Ok ADone; Ok (AContent a)]
  /\ fst (perform_all FileStorage [Update n l; Get n] s) = [Ok ADone; Ok (AContent b)] /\ a <> b.
Proof.
  exists test_mem, test_disk, ["hello.txt"%string], (B "bye"), (B "byelo world"), (B "bye").
  split; [exact test_same|]. split; [vm_compute; reflexivity|]. split; [vm_compute; reflexivity|discriminate].
Qed.
