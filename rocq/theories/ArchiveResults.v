(** The properties of PropertiesArchive, from UnpackProofs and PackProofs. *)
From Coq Require Import List Arith NArith ZArith Lia Ascii String Bool.
From Verif Require Import Bytes Outcome IO Primitives Crypto Header Stream KeyModel EncDec Overwrite FS Archive.
From Verif Require Import FSSpec FSFacts ArchiveSpec ArchiveProofs UnpackProofs.
Import ListNotations.
Local Open Scope nat_scope.
Local Open Scope list_scope.

Lemma place_eq_dec : forall a b : option stored, {a = b} + {a <> b}.
Proof.
  assert (C : forall a b : comp, {a = b} + {a <> b}) by (decide equality; apply string_dec).
  assert (P : forall a b : path, {a = b} + {a <> b}).
  { decide equality; [apply (list_eq_dec C)|apply Bool.bool_dec]. }
  decide equality. decide equality; [apply (list_eq_dec Byte.byte_eq_dec)|apply Nat.eq_dec].
Qed.

Lemma unpack_does : forall E Z pick bs sched req s q0 names tr r a',
  tree_ok s -> lookup (s_nodes s) (s_cwd s) = Some NDir -> inodes_ok s ->
  output_at s (ur_out req) q0 names ->
  unpack_execute_bs E Z pick bs sched req (s, tr) = (r, a') ->
  exists paths answers es,
    (answers = [] \/ ur_ask req paths = Some answers)
    /\ added s (fst a') es
    /\ Forall (allowed_event s (temp_path pick s) (ur_out req) q0 names paths answers) es
    /\ forall x, at_place (fst a') x <> at_place s x ->
         allowed_change s (fst a') (temp_path pick s) (ur_out req) q0 names paths answers x.
Proof. intros. eapply unpack_changes; eauto. Qed.

Lemma unpack_confined : forall E Z pick bs sched req s q0 names tr r a' es,
  tree_ok s -> lookup (s_nodes s) (s_cwd s) = Some NDir -> inodes_ok s ->
  output_at s (ur_out req) q0 names ->
  unpack_execute_bs E Z pick bs sched req (s, tr) = (r, a') ->
  added s (fst a') es ->
  Forall (confined_event s (temp_path pick s) q0 names) es
  /\ (no_outside_names s (q0 ++ names) ->
      forall x, at_place (fst a') x <> at_place s x ->
        inside (q0 ++ names) x
        \/ (resolve false s (temp_path pick s) = Some x /\ at_place s x = None)
        \/ (on_the_way q0 names x /\ at_place s x = None /\ at_place (fst a') x = Some SDir)).
Proof.
  intros E Z pick bs sched req s q0 names tr r a' es TO CW IO OA H AD.
  destruct (unpack_does _ _ _ _ _ _ _ _ _ _ _ _ TO CW IO OA H) as [paths [answers [es' [_ [AD' [F C]]]]]].
  unfold added in *. rewrite AD in AD'. apply app_inv_head in AD'. subst es'. split.
  - eapply Forall_impl; [|exact F]. intros e He.
    destruct e as [x i|x|i|i off l|x|x]; cbn [allowed_event confined_event] in *.
    + destruct He as [H1 [H2|[cs [_ [_ H2]]]]]; auto.
    + destruct He as [H1|[cs [k [_ [_ H2]]]]]; auto.
    + destruct He as [H1|[y [[cs [_ [_ H2]]] H3]]]; eauto.
    + destruct He as [H1|[y [[cs [_ [_ H2]]] H3]]]; eauto.
    + exact He.
    + exact He.
  - intros NO x CH. destruct (C x CH) as [X|[X|[X|[X|X]]]].
    + auto.
    + auto.
    + destruct X as [[cs [k [_ [_ X]]]] _]. auto.
    + destruct X as [cs [_ [_ X]]]. auto.
    + destruct X as [i [y [[cs [_ [_ X]]] [X1 X2]]]]. left.
      destruct (strip_prefix (q0 ++ names) x) as [w|] eqn:SP.
      * apply strip_prefix_spec in SP. exists w. exact SP.
      * exfalso. apply (NO y x i X); [|exact X2|exact X1].
        intros [w W]. apply strip_prefix_spec in W. congruence.
Qed.

Lemma unpack_spares : forall E Z pick bs sched req s q0 names tr r a' es,
  tree_ok s -> lookup (s_nodes s) (s_cwd s) = Some NDir -> inodes_ok s ->
  output_at s (ur_out req) q0 names ->
  unpack_execute_bs E Z pick bs sched req (s, tr) = (r, a') ->
  added s (fst a') es ->
  exists paths answers,
    (answers = [] \/ ur_ask req paths = Some answers)
    /\ forall x, avoided paths answers (ur_out req) (q0 ++ names) x ->
         ~ on_the_way q0 names x -> resolve false s (temp_path pick s) <> Some x -> only_name s x ->
         Forall (untouched s x) es /\ at_place (fst a') x = at_place s x.
Proof.
  intros E Z pick bs sched req s q0 names tr r a' es TO CW IO OA H AD.
  destruct (unpack_does _ _ _ _ _ _ _ _ _ _ _ _ TO CW IO OA H) as [paths [answers [es' [ASK [AD' [F C]]]]]].
  unfold added in *. rewrite AD in AD'. apply app_inv_head in AD'. subst es'.
  exists paths, answers. split; [exact ASK|]. intros x AV NW NT ON.
  assert (NP : ~ accepted_place paths answers (ur_out req) (q0 ++ names) x).
  { intros [cs [X1 [X2 _]]]. apply (AV cs (List.length cs) X1). rewrite firstn_all. auto. }
  assert (NP2 : ~ towards_accepted paths answers (ur_out req) (q0 ++ names) x).
  { intros [cs [k [X1 [X2 _]]]]. apply (AV cs k X1). auto. }
  assert (NF : forall i, (s_next s <= i \/ exists y, accepted_place paths answers (ur_out req) (q0 ++ names) y
                 /\ lookup (s_nodes s) y = Some (NFile i)) -> lookup (s_nodes s) x <> Some (NFile i)).
  { intros i [Hi|[y [Y1 Y2]]] L.
    - apply IO in L. lia.
    - apply NP. rewrite (ON i y L Y2) in Y1. exact Y1. }
  split.
  - eapply Forall_impl; [|exact F]. intros e He.
    destruct e as [y i|y|i|i off l|y|y]; cbn [allowed_event untouched] in *.
    + destruct He as [H1 [H2|H2]]; intros Y; subst y; contradiction.
    + destruct He as [H1|H2]; intros Y; subst y; contradiction.
    + apply NF, He.
    + apply NF, He.
    + congruence.
    + exact He.
  - destruct (place_eq_dec (at_place (fst a') x) (at_place s x)) as [EQ|CH]; [exact EQ|exfalso].
    destruct (C x CH) as [X|[X|[X|[X|X]]]].
    + apply NT, X.
    + apply NW, X.
    + apply NP2, X.
    + apply NP, X.
    + destruct X as [i [y [X1 [X2 X3]]]]. apply (NF i); eauto.
Qed.
