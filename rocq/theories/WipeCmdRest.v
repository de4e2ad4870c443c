(** What the read buffers of pack and hash keep. *)
From Coq Require Import List Arith NArith ZArith String Bool Lia.
From Verif Require Import Bytes BytesFacts Outcome IO IOFacts Primitives Crypto Header HeaderFacts KeyModel Stream EncDec KeyOps Hash.
From Verif Require Import Overwrite FS FSSpec FSFacts Erase Archive Cli CliSpec CliKeys CliRuns CliCommands CliResults.
From Verif Require Import Wipe WipeSpec WipeLib WipeProofs WipeResults WipeCli WipeCliSpec WipeCliProofs WipeCmd WipeCmdSpec WipeCmdProofs WipeCmdKeys.
Import ListNotations.
Local Open Scope nat_scope.
Local Open Scope list_scope.

(** [b'] is the buffer [b] after [r] was read into it block by block. *)
Definition read_in (n : nat) (r b b' : bytes) : Prop :=
  (List.length r < n /\ b' = r ++ skipn (List.length r) b)
  \/ exists pre x y, r = pre ++ x ++ y /\ b' = y ++ x /\ List.length b' = n.

Lemma read_in_short n r b : List.length r < n -> List.length b = n ->
  read_in n r b (firstn (List.length b) (r ++ skipn (List.length r) b)).
Proof.
  intros L B. left. split; [exact L|]. apply firstn_all2. rewrite app_length, skipn_length. lia.
Qed.
Lemma read_in_more n got r b b' : List.length got = n -> read_in n r got b' -> read_in n (got ++ r) b b'.
Proof.
  intros L [[L1 ->]|(pre & x & y & -> & -> & L1)]; right.
  - exists (firstn (List.length r) got), (skipn (List.length r) got), r.
    split; [|split; [reflexivity|rewrite app_length, skipn_length; lia]].
    rewrite app_assoc. rewrite firstn_skipn. reflexivity.
  - exists (got ++ pre), x, y. split; [rewrite <- app_assoc; reflexivity|]. split; [reflexivity|exact L1].
Qed.
Lemma read_in_rest n r b b' : List.length b = n -> read_in n r b b' -> rest_of n r b'.
Proof.
  intros B [[L ->]|(pre & x & y & -> & -> & L)]; split.
  - rewrite app_length, skipn_length. lia.
  - left. split; [exact L|]. eexists. reflexivity.
  - exact L.
  - right. exists pre, x, y. split; reflexivity.
Qed.
Lemma refilled n (got b : bytes) : List.length got = n -> List.length b = n ->
  firstn (List.length b) (got ++ skipn (List.length got) b) = got.
Proof.
  intros L B. rewrite skipn_all2 by lia. rewrite app_nil_r. apply firstn_all2. lia.
Qed.

Lemma read_plain bs d : d_plan d = [] -> dev_read bs d
  = (Ok (firstn bs (skipn (d_pos d) (d_data d))),
     mkDev (d_data d) (d_pos d + List.length (firstn bs (skipn (d_pos d) (d_data d)))) [] (d_log d)).
Proof. intros P. unfold dev_read, next_ev. rewrite P. unfold take_at. cbn. rewrite P. reflexivity. Qed.

Lemma pack_read_rest bs : forall fuel acc d (k : memory) b acc' d' k',
  d_plan d = [] -> List.length b = bs ->
  pack_read_m fuel bs (List.length k) acc d (k ++ [mkCell Plain b true]) = (((Ok tt, acc'), d'), k') ->
  exists b', k' = k ++ [mkCell Plain b' true] /\ read_in bs (skipn (d_pos d) (d_data d)) b b'.
Proof.
  induction fuel as [|fuel IH]; intros acc d k b acc' d' k' P L R; cbn [pack_read_m] in R; [discriminate|].
  rewrite (read_plain bs d P) in R. rewrite update_last in R.
  set (r := skipn (d_pos d) (d_data d)) in *.
  assert (F : filled (firstn bs r) (mkCell Plain b true)
              = mkCell Plain (firstn (List.length b) (firstn bs r ++ skipn (List.length (firstn bs r)) b)) true) by reflexivity.
  rewrite F in R. destruct (Nat.eqb_spec (List.length (firstn bs r)) bs) as [Q|Q].
  - rewrite (refilled bs) in R by assumption.
    apply IH in R as (b' & -> & H); [|reflexivity|exact Q]. cbn [d_pos d_data] in H.
    exists b'. split; [reflexivity|]. rewrite Q in H. rewrite <- (firstn_skipn bs r).
    apply read_in_more; [exact Q|]. unfold r. rewrite skipn_skipn'. exact H.
  - injection R as _ _ <-. eexists. split; [reflexivity|].
    rewrite firstn_length in Q. rewrite (@firstn_all2 _ bs r) by lia. apply read_in_short; lia.
Qed.

Lemma keeps_in {A} (x : A) a b : In x a -> In x (a ++ b).
Proof. intros H. apply in_app_iff. left. exact H. Qed.

Lemma pack_add_rest bs : forall es acc s (k : memory) zs s' k',
  (forall h, In (EFile h) es -> h_plan h = [] /\ h_pos h = 0) ->
  pack_add_m bs es acc s k = (((Ok tt, zs), s'), k') ->
  (exists new, k' = k ++ new)
  /\ forall h, In (EFile h) es -> exists b, In (mkCell Plain b false) k' /\ rest_of bs (s_data s (h_ino h)) b.
Proof.
  induction es as [|[h|p] es IH]; intros acc s k zs s' k' H R; cbn [pack_add_m] in R.
  - injection R as _ _ <-. split; [exists []; rewrite app_nil_r; reflexivity|]. intros h [].
  - destruct (has_name _ acc); [discriminate|].
    match type of R with context [pack_read_m ?f bs ?i [] ?d ?k0] =>
      destruct (pack_read_m f bs i [] d k0) as [[[o data] d'] k1] eqn:P end.
    destruct o as [[]|e| |]; try discriminate.
    destruct (H h (or_introl eq_refl)) as [H1 H2].
    apply pack_read_rest in P as (b & -> & B); [|exact H1|unfold zeros; apply repeat_length].
    rewrite update_last in R. cbn [handle_dev d_pos d_data] in B. rewrite H2 in B. cbn [skipn] in B.
    apply read_in_rest in B; [|unfold zeros; apply repeat_length].
    destruct (IH _ _ _ _ _ _ (fun x I => H x (or_intror I)) R) as [(new & ->) J].
    split; [exists ([dead (mkCell Plain b true)] ++ new); rewrite app_assoc; reflexivity|].
    intros h' [X|I]; [|exact (J h' I)]. injection X as <-. exists b. split; [|exact B].
    apply keeps_in, in_app_iff. right. left. reflexivity.
  - destruct (has_name _ acc); [discriminate|].
    destruct (IH _ _ _ _ _ _ (fun x I => H x (or_intror I)) R) as [N J]. split; [exact N|].
    intros h' [X|I]; [discriminate|exact (J h' I)].
Qed.

(** ** Hashing *)

Lemma hash_loop_memory H bs : forall fuel (h : hr_state H) d (k : memory) b o d' k',
  hash_loop_m H fuel bs (List.length k) h (d, k ++ [mkCell Plain b true]) = (o, (d', k')) ->
  exists b', k' = k ++ [mkCell Plain b' true] /\ List.length b' = List.length b.
Proof.
  induction fuel as [|fuel IH]; intros h d k b o d' k' R; cbn [hash_loop_m] in R.
  { injection R as _ _ <-. exists b. split; reflexivity. }
  assert (Z : exists b', k ++ [mkCell Plain b true] = k ++ [mkCell Plain b' true] /\ List.length b' = List.length b)
    by (exists b; split; reflexivity).
  unfold bind in R at 1. unfold thru, map_err in R. cbn [fst snd] in R.
  destruct (dev_read bs d) as [[got|e| |] d1]; try (injection R as _ _ <-; exact Z).
  unfold bind, fill, change in R. cbn [fst snd] in R. rewrite update_last in R.
  assert (F : filled got (mkCell Plain b true)
              = mkCell Plain (firstn (List.length b) (got ++ skipn (List.length got) b)) true) by reflexivity.
  rewrite F in R.
  assert (L : List.length (firstn (List.length b) (got ++ skipn (List.length got) b)) = List.length b)
    by (rewrite firstn_length, app_length, skipn_length; lia).
  destruct (List.length got =? bs).
  - apply IH in R as (b' & -> & X). exists b'. split; [reflexivity|lia].
  - injection R as _ _ <-. eexists. split; [reflexivity|exact L].
Qed.
Lemma hash_loop_rest H bs : forall fuel (h h' : hr_state H) d (k : memory) b d' k',
  d_plan d = [] -> List.length b = bs ->
  hash_loop_m H fuel bs (List.length k) h (d, k ++ [mkCell Plain b true]) = (Ok h', (d', k')) ->
  exists b', k' = k ++ [mkCell Plain b' true] /\ read_in bs (skipn (d_pos d) (d_data d)) b b'.
Proof.
  induction fuel as [|fuel IH]; intros h h' d k b d' k' P L R; cbn [hash_loop_m] in R; [discriminate|].
  unfold bind in R at 1. unfold thru, map_err in R. cbn [fst snd] in R.
  rewrite (read_plain bs d P) in R.
  unfold bind, fill, change in R. cbn [fst snd] in R. rewrite update_last in R.
  set (r := skipn (d_pos d) (d_data d)) in *.
  assert (F : filled (firstn bs r) (mkCell Plain b true)
              = mkCell Plain (firstn (List.length b) (firstn bs r ++ skipn (List.length (firstn bs r)) b)) true) by reflexivity.
  rewrite F in R. destruct (Nat.eqb_spec (List.length (firstn bs r)) bs) as [Q|Q].
  - rewrite (refilled bs) in R by assumption.
    apply IH in R as (b' & -> & X); [|reflexivity|exact Q]. cbn [d_pos d_data] in X.
    exists b'. split; [reflexivity|]. rewrite Q in X. rewrite <- (firstn_skipn bs r).
    apply read_in_more; [exact Q|]. unfold r. rewrite skipn_skipn'. exact X.
  - injection R as _ _ <-. eexists. split; [reflexivity|].
    rewrite firstn_length in Q. rewrite (@firstn_all2 _ bs r) by lia. apply read_in_short; lia.
Qed.

Lemma hash_memory H bs (h : hr_state H) d (k : memory) o d' k' :
  hash_execute_m H bs h (d, k) = (o, (d', k')) ->
  exists new, k' = k ++ new /\ Forall (read_buffer bs) new.
Proof.
  intros R. unfold hash_execute_m in R. unfold bind in R at 1. unfold thru, map_err in R. cbn [fst snd] in R.
  assert (Z : exists new, k = k ++ new /\ Forall (read_buffer bs) new)
    by (exists []; rewrite app_nil_r; split; [reflexivity|constructor]).
  destruct (dev_rewind d) as [[u|e| |] d1]; try (injection R as _ _ <-; exact Z).
  unfold bind in R at 1. unfold alloc in R. cbn [fst snd] in R. unfold owning, bind in R. cbn [fst snd] in R.
  match type of R with context [hash_loop_m H ?f bs ?i h ?x] =>
    destruct (hash_loop_m H f bs i h x) as [o1 [d2 k2]] eqn:E end.
  apply hash_loop_memory in E as (b & -> & L). unfold zeros in L. rewrite repeat_length in L.
  assert (X : k' = k ++ [mkCell Plain b false]).
  { destruct o1; unfold ret in R; rewrite update_last in R; injection R as _ _ <-; reflexivity. }
  exists [mkCell Plain b false]. split; [exact X|]. constructor; [|constructor].
  exists b. split; [reflexivity|exact L].
Qed.
Lemma hash_rest H bs (h : hr_state H) l (k : memory) x d' k' :
  hash_execute_m H bs h (mkDev l 0 [] [], k) = (Ok x, (d', k')) ->
  exists b, k' = k ++ [mkCell Plain b false] /\ rest_of bs l b.
Proof.
  intros R. unfold hash_execute_m in R. unfold bind in R at 1. unfold thru, map_err in R. cbn [fst snd] in R.
  change (dev_rewind (mkDev l 0 [] [])) with (@Ok io_error unit tt, mkDev l 0 [] []) in R.
  unfold bind in R at 1. unfold alloc in R. cbn [fst snd] in R. unfold owning, bind in R. cbn [fst snd] in R.
  match type of R with context [hash_loop_m H ?f bs ?i h ?x] =>
    destruct (hash_loop_m H f bs i h x) as [[h1|e| |] [d2 k2]] eqn:E end; try discriminate.
  apply hash_loop_rest in E as (b & -> & B); [|reflexivity|unfold zeros; apply repeat_length].
  cbn [d_pos d_data skipn] in B. apply read_in_rest in B; [|unfold zeros; apply repeat_length].
  unfold ret in R. rewrite update_last in R. injection R as _ _ <-.
  exists b. split; [reflexivity|exact B].
Qed.

Lemma hash_files_memory V bs : forall fs c (k : memory) o c' k',
  hash_files_m V bs fs (c, k) = (o, (c', k')) -> exists new, k' = k ++ new /\ Forall (read_buffer bs) new.
Proof.
  assert (Z : forall k : memory, exists new, k = k ++ new /\ Forall (read_buffer bs) new)
    by (intros k; exists []; rewrite app_nil_r; split; [reflexivity|constructor]).
  induction fs as [|f fs IH]; intros c k o c' k' R; cbn [hash_files_m] in R.
  { injection R as _ _ <-. apply Z. }
  unfold bind in R at 1. unfold on_a_m, on_sys_m in R. cbn [fst snd] in R.
  destruct (hash_file_m V bs (os_path f) (fst (c_a c), k)) as [o1 [s1 k1]] eqn:E.
  assert (N : exists new, k1 = k ++ new /\ Forall (read_buffer bs) new).
  { unfold hash_file_m in E. cbn [fst snd] in E. destruct (next_fault (fst (c_a c))) as [b s].
    destruct b; [injection E as _ _ <-; apply Z|].
    destruct (stat s (os_path f)) as [[|i|t]|]; try (injection E as _ _ <-; apply Z).
    destruct (next_plan s) as [plan s2].
    match type of E with context [hash_execute_m ?H bs ?x ?y] =>
      destruct (hash_execute_m H bs x y) as [o2 [d2 k2]] eqn:G end.
    apply hash_memory in G. destruct o2; injection E as _ _ <-; exact G. }
  destruct N as (n1 & -> & F1).
  destruct o1 as [x|e| |]; try (injection R as _ _ <-; exists n1; split; [reflexivity|exact F1]).
  unfold bind, thru, say in R. cbn [fst snd] in R. apply IH in R as (n2 & -> & F2).
  exists (n1 ++ n2). split; [rewrite app_assoc; reflexivity|]. apply Forall_app. split; assumption.
Qed.
Lemma hash_files_rest V bs : forall fs c (k : memory) c' k', no_faults (disk c) ->
  hash_files_m V bs fs (c, k) = (Ok tt, (c', k')) ->
  (exists new, k' = k ++ new)
  /\ forall f, In f fs -> exists i b, stat (disk c) (os_path f) = Some (NFile i)
       /\ rest_of bs (s_data (disk c) i) b /\ In (mkCell Plain b false) k'.
Proof.
  induction fs as [|f fs IH]; intros c k c' k' NF R; cbn [hash_files_m] in R.
  { injection R as _ <-. split; [exists []; rewrite app_nil_r; reflexivity|]. intros f []. }
  unfold bind in R at 1. unfold on_a_m, on_sys_m in R. cbn [fst snd] in R.
  destruct (hash_file_m V bs (os_path f) (fst (c_a c), k)) as [[x|e| |] [s1 k1]] eqn:E; try discriminate.
  assert (N : s1 = disk c /\ exists i b, stat (disk c) (os_path f) = Some (NFile i)
       /\ rest_of bs (s_data (disk c) i) b /\ k1 = k ++ [mkCell Plain b false]).
  { unfold hash_file_m in E. cbn [fst snd] in E. fold (disk c) in E.
    destruct (next_fault (disk c)) as [b s] eqn:NX.
    apply next_fault_spec in NX as (_ & _ & _ & NX). destruct (NX (proj1 NF)) as [-> ->].
    destruct (stat (disk c) (os_path f)) as [[|i|t]|]; try discriminate.
    destruct (next_plan (disk c)) as [plan s2] eqn:NP.
    apply next_plan_spec in NP as (_ & _ & _ & NP). destruct (NP (proj2 NF)) as [-> ->].
    match type of E with context [hash_execute_m ?H bs ?x ?y] =>
      destruct (hash_execute_m H bs x y) as [[h|e| |] [d2 k2]] eqn:G end; try discriminate.
    injection E as _ <- <-. apply hash_rest in G as (b & -> & B).
    split; [reflexivity|]. exists i, b. split; [reflexivity|]. split; [exact B|reflexivity]. }
  destruct N as (-> & i & b & St & B & ->).
  unfold bind, thru, say in R. cbn [fst snd] in R.
  match type of R with hash_files_m V bs fs (?c1, _) = _ => specialize (IH c1 _ _ _ NF R) end.
  destruct IH as [(new & ->) J].
  split; [exists ([mkCell Plain b false] ++ new); rewrite app_assoc; reflexivity|].
  intros g [<-|I]; [|exact (J g I)].
  exists i, b. split; [exact St|]. split; [exact B|].
  apply keeps_in, in_app_iff. right. left. reflexivity.
Qed.
