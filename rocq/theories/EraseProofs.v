(** Proofs about erasing files and directories. *)
From Coq Require Import List Arith NArith ZArith Ascii String Bool Lia.
From Verif Require Import Bytes Outcome IO Primitives Overwrite FS Erase.
From Verif Require Import BytesFacts IOFacts IOSpec ToolSpec ToolProofs FSSpec FSFacts.
Import ListNotations.
Local Open Scope nat_scope.
Local Open Scope list_scope.

(** ** Single calls *)

Lemma set_data_eq : forall f i l, set_data f i l i = l.
Proof. intros. unfold set_data. rewrite Nat.eqb_refl. reflexivity. Qed.
Lemma set_data_neq : forall f i l j, j <> i -> set_data f i l j = f j.
Proof. intros. unfold set_data. destruct (Nat.eqb_spec j i); congruence. Qed.

Lemma write_file_any : forall p s o s', write_file p s = (o, s') ->
  (o = Err StOpenWrite /\ same_disk s s'
   /\ (s_faults s = [] -> forall i, stat s p <> Some (NFile i)))
  \/ (exists i plan s1 s2, stat s p = Some (NFile i)
        /\ o = Ok (EFile (mkHandle p i 0 plan))
        /\ same_disk s s1
        /\ s2 = with_data i [] [FTrunc i] s1
        /\ same_disk s2 s'
        /\ s_rng s' = s_rng s
        /\ (no_faults s -> plan = [] /\ s' = s2 /\ s1 = s)).
Proof.
  intros p s o s' H. unfold write_file in H. apply call_or_inv in H.
  destruct H as [s1 [D [R [PL [F [[-> [-> NF]]|H]]]]]].
  - left. split; [auto|]. split; [exact D|]. intros N. contradiction.
  - rewrite (stat_disk s s1 p D) in H.
    destruct (stat s p) as [[|i|t]|] eqn:ST;
      try (injection H as <- <-; left; repeat split; try apply D; congruence).
    right. unfold new_handle in H.
    destruct (next_plan (with_data i [] [FTrunc i] s1)) as [plan s2] eqn:NP.
    injection H as <- <-. apply next_plan_spec in NP. destruct NP as [D2 [R2 [F2 P2]]].
    exists i, plan, s1, (with_data i [] [FTrunc i] s1). repeat split; auto; try apply D; try apply D2.
    + rewrite R2. cbn. exact R.
    + apply P2. cbn. rewrite PL. apply H.
    + apply P2. cbn. rewrite PL. apply H.
    + apply F, H.
Qed.

Lemma same_disk_data : forall s s' i, same_disk s s' -> s_data s' i = s_data s i.
Proof. intros s s' i [_ [H _]]. rewrite H. reflexivity. Qed.

Lemma chunks_of_nothing : forall (cs : list bytes), List.concat cs = [] ->
  Forall (fun c => c <> []) cs -> cs = [].
Proof.
  intros [|c cs] C F; [reflexivity|]. cbn in C. apply app_eq_nil in C. destruct C as [-> _].
  inversion F. contradiction.
Qed.

(** With capacity zero, overwriting writes nothing. *)
Lemma overwrite_zero : forall passes h s r s',
  run_handle (overwrite_execute 0 passes) h s = (r, s') ->
  h_path (snd r) = h_path h /\ h_ino (snd r) = h_ino h
  /\ s_nodes s' = s_nodes s /\ (forall j, s_data s' j = s_data s j) /\ s_next s' = s_next s
  /\ s_cwd s' = s_cwd s /\ s_tmp s' = s_tmp s /\ s_log s' = s_log s
  /\ s_faults s' = s_faults s /\ s_plans s' = s_plans s /\ s_rng s' = s_rng s
  /\ fst r <> Panic /\ fst r <> Diverge
  /\ (h_plan h = [] -> fst r = Ok tt).
Proof.
  intros passes h s r s' H. unfold run_handle in H.
  destruct (overwrite_execute 0 passes (handle_dev s h, s_rng s)) as [o [d g]] eqn:O.
  apply overwrite_any in O. cbn [fst snd handle_dev d_data d_log d_plan] in O.
  destruct O as [G [[k [cs [K [_ [DD [CC [CF LL]]]]]]] [PL OO]]].
  assert (k = 0) by lia. subst k. cbn [zeros repeat] in *. cbn [skipn app] in DD.
  apply chunks_of_nothing in CF; [|exact CC]. subst cs. cbn in LL.
  injection H as <- <-. cbn [fst snd]. unfold move_handle, with_rng, put_handle. cbn.
  rewrite LL. cbn. rewrite app_nil_r. repeat split; auto.
  - intros j. rewrite DD. unfold set_data. destruct (Nat.eqb_spec j (h_ino h)); congruence.
  - destruct o; congruence || contradiction.
  - destruct o; congruence || contradiction.
  - intros P. destruct o as [[]|e| |]; auto; contradiction.
Qed.

Lemma unlink_any : forall p s o s', unlink p s = (o, s') ->
  (o = Err StRemoveFile /\ same_disk s s'
   /\ (s_faults s = [] -> forall q, resolve false s p = Some q ->
       lookup (s_nodes s) q = None \/ lookup (s_nodes s) q = Some NDir))
  \/ (exists q s1, resolve false s p = Some q
      /\ (exists n, lookup (s_nodes s) q = Some n /\ n <> NDir)
      /\ o = Ok tt /\ same_disk s s1 /\ s_rng s1 = s_rng s /\ s_plans s1 = s_plans s
      /\ (s_faults s = [] -> s1 = s)
      /\ s' = with_nodes (remove_node (s_nodes s1) q) (FUnlink q) s1).
Proof.
  intros p s o s' H. unfold unlink in H. apply call_or_inv in H.
  destruct H as [s1 [D [R [PL [F [[-> [-> NF]]|H]]]]]].
  - left. split; [auto|]. split; [exact D|]. intros N. contradiction.
  - rewrite (resolve_disk false s s1 p D) in H.
    destruct (resolve false s p) as [q|] eqn:RS;
      [|injection H as <- <-; left; repeat split; try apply D; discriminate].
    assert (E : s_nodes s1 = s_nodes s) by apply D.
    rewrite E in H.
    destruct (lookup (s_nodes s) q) as [[|i|t]|] eqn:L;
      try (injection H as <- <-; left; repeat split; try apply D;
           intros _ q' X; injection X as <-; rewrite L; auto).
    + right. injection H as <- <-. exists q, s1. rewrite E.
      repeat split; auto; try apply D. exists (NFile i). split; congruence.
    + right. injection H as <- <-. exists q, s1. rewrite E.
      repeat split; auto; try apply D. exists (NLink t). split; congruence.
Qed.

(** ** Erasing a file *)

(** The relation between the states before and after each call. *)
Definition touches_only (i : nat) (s s' : sys) : Prop :=
  s_nodes s' = s_nodes s /\ s_cwd s' = s_cwd s /\ s_tmp s' = s_tmp s /\ s_next s' = s_next s
  /\ (forall j, j <> i -> s_data s' j = s_data s j).

Lemma touches_disk : forall i s s', same_disk s s' -> touches_only i s s'.
Proof.
  intros i s s' [H1 [H2 [H3 [H4 [H5 H6]]]]]. unfold touches_only.
  repeat split; auto. intros. rewrite H2. reflexivity.
Qed.

Lemma touches_trans : forall i a b c, touches_only i a b -> touches_only i b c -> touches_only i a c.
Proof.
  intros i a b c [A1 [A2 [A3 [A4 A5]]]] [B1 [B2 [B3 [B4 B5]]]]. unfold touches_only.
  repeat split; try congruence. intros j N. rewrite B5, A5; auto.
Qed.

Lemma touches_with_data : forall i l es s, touches_only i s (with_data i l es s).
Proof.
  intros. unfold touches_only. cbn. repeat split; auto. intros. apply set_data_neq. assumption.
Qed.

Lemma erase_any : forall p passes s o s', run (erase_execute p passes) s = (o, s') ->
  (o = Err EraOpenFile /\ same_disk s s'
   /\ (s_faults s = [] -> forall i, stat s p <> Some (NFile i)))
  \/ (exists i q0, stat s p = Some (NFile i) /\ resolve false s p = Some q0
      /\ s_cwd s' = s_cwd s /\ s_tmp s' = s_tmp s /\ s_next s' = s_next s
      /\ (forall j, j <> i -> s_data s' j = s_data s j) /\ s_data s' i = []
      /\ (exists es, added s s' es
           /\ (o <> Ok tt /\ (es = [FTrunc i] \/ es = [FTrunc i; FTrunc i])
               \/ o = Ok tt /\ es = [FTrunc i; FTrunc i; FUnlink q0]))
      /\ ((o = Ok tt /\ s_nodes s' = remove_node (s_nodes s) q0
           /\ exists n, lookup (s_nodes s) q0 = Some n /\ n <> NDir)
          \/ (s_nodes s' = s_nodes s /\ ~ no_faults s /\ exists e, o = Err e))).
Proof.
  intros p passes s o s' H. unfold erase_execute in H.
  rewrite run_bind, run_map_err, run_atom in H.
  destruct (write_file p s) as [o1 s1] eqn:W. apply write_file_any in W.
  destruct W as [[-> [D N]]|[i [plan [sa [sb [ST [-> [Da [Eb [Db [Rg NFa]]]]]]]]]]].
  { injection H as <- <-. left. auto. }
  destruct (stat_resolve _ _ _ ST) as [q [q0 [R1 [L R0]]]].
  right. exists i, q0. split; [exact ST|]. split; [exact R0|].
  assert (T1 : touches_only i s s1).
  { apply touches_trans with sa; [apply touches_disk, Da|].
    apply touches_trans with sb; [rewrite Eb; apply touches_with_data|apply touches_disk, Db]. }
  assert (Z1 : s_data s1 i = []).
  { rewrite (same_disk_data sb s1 i Db), Eb. cbn. apply set_data_eq. }
  assert (G1 : added s s1 [FTrunc i]).
  { unfold added. destruct Db as [_ [_ [_ [_ [_ ->]]]]]. rewrite Eb. cbn.
    destruct Da as [_ [_ [_ [_ [_ ->]]]]]. reflexivity. }
  cbn beta iota in H.
  rewrite run_bind, run_map_err, run_atom in H. cbn [file_len h_ino] in H.
  destruct (call_or StFileLen _ s1) as [o2 s2] eqn:C. apply call_or_inv in C.
  cbn [h_ino] in C.
  destruct C as [s2' [D2 [R2 [PL2 [F2 C]]]]].
  assert (E12 : s2 = s2') by (destruct C as [[_ [? _]]|C]; [assumption|injection C as _ ?; congruence]).
  subst s2'.
  assert (T2 : touches_only i s s2) by (eapply touches_trans; [exact T1|apply touches_disk, D2]).
  assert (Z2 : s_data s2 i = []) by (rewrite (same_disk_data s1 s2 i D2); exact Z1).
  assert (G2 : added s s2 [FTrunc i]).
  { unfold added. destruct D2 as [_ [_ [_ [_ [_ ->]]]]]. exact G1. }
  assert (NF1 : no_faults s -> s_faults s1 = [] /\ s_plans s1 = []).
  { intros NF. destruct (NFa NF) as [_ [-> ->]]. subst sb. cbn. apply NF. }
  destruct T2 as [T2a [T2b [T2c [T2d T2e]]]].
  destruct C as [[-> [_ NF]]|C].
  { injection H as <- <-. repeat split; auto.
    - exists [FTrunc i]. split; [assumption|]. left. split; [discriminate|auto].
    - right. split; auto. split; [|eauto]. intros X. destruct (NF1 X) as [Y _]. contradiction. }
  rewrite Z2 in C. cbn [List.length] in C. injection C as C. subst o2.
  cbn beta iota in H. rewrite run_bind in H. cbn [overwrite_file] in H.
  rewrite run_bind, run_act in H.
  destruct (run_handle (overwrite_execute 0 passes) (mkHandle p i 0 plan) s2) as [[r h'] s3] eqn:OW.
  apply overwrite_zero in OW. cbn [fst snd h_path h_ino h_plan] in OW.
  destruct OW as [W1 [W2 [W3 [W4 [W5 [W6 [W7 [W8 [W9 [W10 [W11 [W12 [W13 W14]]]]]]]]]]]]].
  assert (G3 : added s s3 [FTrunc i]) by (unfold added; rewrite W8; exact G2).
  destruct r as [u|e| |]; try (exfalso; congruence).
  2:{ cbn in H. injection H as <- <-. repeat split; try congruence.
      - intros j N. rewrite W4. auto.
      - exists [FTrunc i]. split; [assumption|]. left. split; [discriminate|auto].
      - right. split; [congruence|]. split; [|eauto].
        intros X. destruct (NFa X) as [-> _]. specialize (W14 eq_refl). discriminate. }
  cbn [run rret] in H. rewrite run_map_err in H. unfold remove_file in H.
  rewrite !run_bind, !run_atom in H.
  destruct (truncate h' s3) as [o4 s4] eqn:TR. unfold truncate in TR. apply call_or_inv in TR.
  destruct TR as [sc [Dc [Rc [PLc [Fc TR]]]]].
  assert (NF3 : no_faults s -> s_faults s3 = []).
  { intros X. rewrite W9. destruct (NF1 X) as [Y _]. rewrite (F2 Y). exact Y. }
  destruct TR as [[-> [-> NF]]|TR].
  { injection H as <- <-. destruct Dc as [D1 [D3 [D4 [D5 [D6 D7]]]]].
    repeat split; try congruence.
    - intros j N. rewrite D3, W4. auto.
    - exists [FTrunc i]. split; [|left; split; [discriminate|auto]]. unfold added. rewrite D7. exact G3.
    - right. split; [congruence|]. split; [|eauto]. intros X. destruct (NF (NF3 X)). }
  injection TR as <- <-. rewrite W2 in H.
  cbn beta iota in H. rewrite run_atom in H.
  match type of H with context [flush ?x] => destruct (flush x) as [o5 s5] eqn:FL end.
  unfold flush in FL. apply call_or_inv in FL.
  destruct FL as [sd [Dd [Rd [PLd [Fd FL]]]]].
  assert (E5 : s5 = sd) by (destruct FL as [[_ [? _]]|FL]; [assumption|congruence]).
  subst sd.
  assert (T5 : touches_only i s s5 /\ s_data s5 i = [] /\ added s s5 [FTrunc i; FTrunc i]).
  { destruct Dc as [D1 [D3 [D4 [D5 [D6 D7]]]]]. destruct Dd as [F1 [F3 [F4 [F5 [F6 F7]]]]].
    cbn in F1, F3, F4, F5, F6, F7. unfold touches_only, added. repeat split; try congruence.
    - intros j N. rewrite F3, set_data_neq by exact N. rewrite D3, W4. auto.
    - rewrite F3. apply set_data_eq.
    - rewrite F7, D7, G3, <- app_assoc. reflexivity. }
  destruct T5 as [[T5a [T5b [T5c [T5d T5e]]]] [Z5 G5]].
  destruct FL as [[-> [_ NF]]|FL].
  { injection H as <- <-. repeat split; auto.
    - exists [FTrunc i; FTrunc i]. split; [assumption|]. left. split; [discriminate|auto].
    - right. split; auto. split; [|eauto]. intros X. apply NF. cbn. rewrite Fc; auto. }
  injection FL as <-. rewrite run_atom in H. cbn [entry_path] in H. rewrite W1 in H.
  destruct (unlink p s5) as [o6 s6] eqn:U. apply unlink_any in U.
  assert (R5 : resolve false s5 p = Some q0).
  { rewrite (resolve_nodes false s s5 p T5a T5b). exact R0. }
  destruct U as [[-> [D6 N6]]|[q6 [s7 [RQ [[n [LN ND]] [-> [D7 [R7 [PL7 [F7 ->]]]]]]]]]].
  { injection H as <- <-. destruct D6 as [X1 [X2 [X3 [X4 [X5 X6]]]]].
    repeat split; try congruence.
    - intros j N. rewrite X2. auto.
    - exists [FTrunc i; FTrunc i]. split; [|left; split; [discriminate|auto]]. unfold added. rewrite X6. exact G5.
    - right. split; [congruence|]. split; [|eauto]. intros X.
      assert (F5' : s_faults s5 = []).
      { rewrite Fd by (cbn; rewrite Fc; auto). cbn. rewrite Fc; auto. }
      destruct (N6 F5' q0 R5) as [Y|Y]; rewrite T5a in Y.
      + pose proof (resolve_missing _ _ _ _ R0 Y R1). congruence.
      + pose proof (resolve_same _ _ _ _ R0 Y ltac:(discriminate)). congruence. }
  injection H as <- <-. rewrite R5 in RQ. injection RQ as <-. rewrite T5a in LN.
  destruct D7 as [X1 [X2 [X3 [X4 [X5 X6]]]]].
  repeat split; cbn; try congruence.
  - intros j N. rewrite X2. auto.
  - exists [FTrunc i; FTrunc i; FUnlink q0]. split; auto. unfold added. cbn. rewrite X6, G5, <- app_assoc. reflexivity.
  - left. split; auto. rewrite X1, T5a. split; eauto.
Qed.

Lemma at_place_ext : forall s s' r,
  lookup (s_nodes s') r = lookup (s_nodes s) r ->
  (forall i, lookup (s_nodes s) r = Some (NFile i) -> s_data s' i = s_data s i) ->
  at_place s' r = at_place s r.
Proof.
  intros s s' r L D. unfold at_place. rewrite L.
  destruct (lookup (s_nodes s) r) as [[|i|t]|]; auto. rewrite (D i eq_refl). reflexivity.
Qed.

(** What may happen to a place when the file [i] is erased through the name [q]. *)
Definition place_after (s s' : sys) (i : nat) (q r : cpath) : Prop :=
  at_place s' r = at_place s r
  \/ (lookup (s_nodes s) r = Some (NFile i) /\ at_place s' r = Some (SFile i []))
  \/ (r = q /\ at_place s' r = None).

Lemma erase_holds : forall p passes s o s', run (erase_execute p passes) s = (o, s') ->
  ((forall i, stat s p <> Some (NFile i)) ->
     o = Err EraOpenFile /\ added s s' [] /\ forall r, at_place s' r = at_place s r)
  /\ (o = Ok tt -> exists i q, stat s p = Some (NFile i) /\ resolve false s p = Some q
        /\ stat s' p = None /\ at_place s' q = None
        /\ (forall r, r <> q -> lookup (s_nodes s) r <> Some (NFile i) ->
              at_place s' r = at_place s r)
        /\ (forall r, r <> q -> lookup (s_nodes s) r = Some (NFile i) ->
              at_place s' r = Some (SFile i []))
        /\ (resolve true s p = Some q -> only_name s q ->
              forall r, r <> q -> at_place s' r = at_place s r))
  /\ (forall i q, stat s p = Some (NFile i) -> resolve false s p = Some q ->
        forall r, place_after s s' i q r)
  /\ (forall i, no_faults s -> stat s p = Some (NFile i) -> o = Ok tt)
  /\ o <> Panic /\ o <> Diverge.
Proof.
  intros p passes s o s' H. apply erase_any in H.
  destruct H as [[-> [D N]]|[i [q [ST [RF [C [TM [NX [DO [DI [[es [AD EV]] H]]]]]]]]]]].
  - assert (P : forall r, at_place s' r = at_place s r).
    { intros r. destruct D as [D1 [D2 _]]. apply at_place_ext; rewrite ?D1, ?D2; auto. }
    repeat split; try discriminate; auto.
    + unfold added. rewrite app_nil_r. apply D.
    + intros i q _ _ r. left. apply P.
    + intros i NF ST. destruct (N (proj1 NF) i ST).
  - assert (DD : forall r n, lookup (s_nodes s) r = Some n -> n <> NFile i ->
      forall j, lookup (s_nodes s) r = Some (NFile j) -> s_data s' j = s_data s j).
    { intros r n L NN j L2. apply DO. congruence. }
    split; [intros X; destruct (X i ST)|].
    destruct H as [[-> [EN [n [LN ND]]]]|[EN [NF [e ->]]]].
    + assert (NQ : q <> []) by (intros ->; cbn in LN; congruence).
      assert (NDq : lookup (s_nodes s) q <> Some NDir) by congruence.
      assert (L' : forall r, r <> q -> lookup (s_nodes s') r = lookup (s_nodes s) r).
      { intros r NR. rewrite EN, lookup_remove by exact NQ.
        apply cpath_eqb_neq in NR. rewrite NR. reflexivity. }
      assert (PQ : at_place s' q = None).
      { unfold at_place. rewrite EN, lookup_remove, cpath_eqb_refl by exact NQ. reflexivity. }
      assert (A1 : forall r, r <> q -> lookup (s_nodes s) r <> Some (NFile i) ->
              at_place s' r = at_place s r).
      { intros r NR NI. apply at_place_ext; [apply L', NR|]. intros j L. apply DO. congruence. }
      assert (A2 : forall r, r <> q -> lookup (s_nodes s) r = Some (NFile i) ->
              at_place s' r = Some (SFile i [])).
      { intros r NR L. unfold at_place. rewrite L', L, DI by exact NR. reflexivity. }
      split; [|split; [|split; [auto|split; discriminate]]].
      * intros _. exists i, q. split; [exact ST|]. split; [exact RF|].
        split; [apply (stat_removed s s' p q C EN RF NQ NDq)|].
        split; [exact PQ|]. split; [exact A1|]. split; [exact A2|].
        intros RT ON r NR. apply A1; [exact NR|]. intros L. apply NR.
        apply (ON i r); [|exact L]. unfold stat in ST. rewrite RT in ST. exact ST.
      * intros i' q' ST' RF' r. rewrite ST in ST'. injection ST' as <-.
        rewrite RF in RF'. injection RF' as <-.
        destruct (cpath_eq_dec r q) as [->|NR]; [right; right; auto|].
        destruct (lookup (s_nodes s) r) as [[|j|t]|] eqn:L;
          try (left; apply A1; [exact NR|congruence]).
        destruct (Nat.eq_dec j i) as [->|NJ].
        -- right. left. auto.
        -- left. apply A1; congruence.
    + split; [discriminate|]. split; [|split; [contradiction|split; discriminate]].
      intros i' q' ST' RF' r. rewrite ST in ST'. injection ST' as <-.
      destruct (lookup (s_nodes s) r) as [[|j|t]|] eqn:L;
        try (left; apply at_place_ext; [rewrite EN; reflexivity|congruence]).
      destruct (Nat.eq_dec j i) as [->|NJ].
      * right. left. split; [exact L|]. unfold at_place. rewrite EN, L, DI. reflexivity.
      * left. apply at_place_ext; [rewrite EN; reflexivity|].
        intros k L2. apply DO. congruence.
Qed.

(** Nothing of the old content is ever written over. *)
Lemma erase_never_overwrites : forall p passes s o s' es i off,
  run (erase_execute p passes) s = (o, s') -> added s s' es ->
  ~ overwritten es i off.
Proof.
  intros p passes s o s' es i off H AD [o' [l [I _]]]. apply erase_any in H.
  destruct H as [[-> [D N]]|[i' [q [_ [_ [_ [_ [_ [_ [_ [[es' [AD' EV]] _]]]]]]]]]]].
  - assert (E : s_log s' = s_log s) by apply D. unfold added in AD. rewrite E in AD.
    rewrite <- (app_nil_r (s_log s)) in AD at 1. apply app_inv_head in AD. subst es. contradiction.
  - unfold added in *. rewrite AD in AD'. apply app_inv_head in AD'. subst es'.
    destruct EV as [[_ [->| ->]]|[_ ->]]; cbn in I; intuition discriminate.
Qed.

Lemma erase_drops_first : forall p passes s s' es,
  run (erase_execute p passes) s = (Ok tt, s') -> added s s' es ->
  exists i q, stat s p = Some (NFile i) /\ resolve false s p = Some q
    /\ es = [FTrunc i; FTrunc i; FUnlink q] /\ s_data s' i = [].
Proof.
  intros p passes s s' es H AD. apply erase_any in H.
  destruct H as [[X _]|[i [q [ST [RF [C [TM [NX [DO [DI [[es' [AD' EV]] H]]]]]]]]]]]; [discriminate|].
  exists i, q. unfold added in *. rewrite AD in AD'. apply app_inv_head in AD'. subst es'.
  repeat split; auto.
  destruct EV as [[X _]|[_ ->]]; [contradiction|reflexivity].
Qed.
