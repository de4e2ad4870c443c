(** Concrete file systems: the cases and the counterexamples of PropertiesErase. *)
From Coq Require Import List Arith NArith ZArith Ascii String Bool Lia.
From Verif Require Import Bytes Outcome IO Primitives Overwrite FS Erase.
From Verif Require Import FSSpec FSFacts EraseProofs EraseDirProofs.
Import ListNotations.
Local Open Scope nat_scope.
Local Open Scope list_scope.

(** ** Checking [tree_ok] *)

Definition cpath_in (p : cpath) (l : list cpath) : bool := existsb (cpath_eqb p) l.
Fixpoint distinct (l : list cpath) : bool :=
  match l with [] => true | x :: l' => negb (cpath_in x l') && distinct l' end.
Definition tree_okb (s : sys) : bool :=
  let ks := map fst (s_nodes s) in
  distinct ks
  && forallb (fun k => negb (cpath_eqb k []) &&
                       match lookup (s_nodes s) (removelast k) with
                       | Some NDir => true | _ => false end) ks.

Lemma cpath_in_spec : forall p l, cpath_in p l = true <-> In p l.
Proof.
  intros p l. unfold cpath_in. rewrite existsb_exists. split.
  - intros [x [I E]]. apply cpath_eqb_eq in E. congruence.
  - intros I. exists p. split; [exact I|apply cpath_eqb_refl].
Qed.

Lemma distinct_spec : forall l, distinct l = true -> NoDup l.
Proof.
  induction l as [|x l IH]; intros H; [constructor|]. cbn in H.
  apply andb_true_iff in H. destruct H as [H1 H2]. constructor; [|apply IH, H2].
  intros I. apply cpath_in_spec in I. rewrite I in H1. discriminate.
Qed.

Lemma tree_okb_spec : forall s, tree_okb s = true -> tree_ok s.
Proof.
  intros s H. apply andb_true_iff in H. destruct H as [H1 H2].
  rewrite forallb_forall in H2. split; [apply distinct_spec, H1|]. split.
  - intros I. apply H2 in I. discriminate.
  - intros r n I. apply H2 in I. apply andb_true_iff in I. destruct I as [_ I].
    rewrite removelast_last in I. destruct (lookup (s_nodes s) r) as [[| |]|]; congruence.
Qed.

(** ** Sample trees *)

Definition B (s : string) : bytes := list_byte_of_string s.
Definition abs (l : list string) : path := mkPath true (map Nm l).
Definition rel (l : list string) : path := mkPath false (map Nm l).
Definition noise : rng := fun _ => x55.

Definition contents (l : list string) (i : nat) : bytes := nth i (map B l) [].
Definition fs (t : nodes) (l : list string) : sys :=
  mkSys t (contents l) 10 ["home"%string] (abs ["tmp"%string]) [] [] noise [].

(** Two files and a directory to erase, beside files to keep. *)
Definition plain : sys :=
  fs [(["home"], NDir); (["home"; "d"], NDir); (["home"; "d"; "a"], NFile 0);
      (["home"; "d"; "sub"], NDir); (["home"; "d"; "sub"; "b"], NFile 1);
      (["home"; "d2"], NFile 2); (["tmp"], NDir); (["home"; "d"; "c"], NFile 3)]%string
     ["secret"; "more"; "kept"; "last"]%string.

(** A link and a second name for one file. *)
Definition linked : sys :=
  fs [(["home"], NDir); (["home"; "target"], NFile 0);
      (["home"; "link"], NLink (rel ["target"])); (["home"; "hard"], NFile 0)]%string
     ["precious"]%string.

(** A directory containing a link to a file outside. *)
Definition pointing_out : sys :=
  fs [(["home"], NDir); (["home"; "d"], NDir); (["home"; "outside"], NFile 0);
      (["home"; "d"; "l"], NLink (mkPath false [Up; Nm "outside"%string]))]%string
     ["precious"]%string.

(** A directory containing a file and a link to it. *)
Definition pointing_in : sys :=
  fs [(["home"], NDir); (["home"; "d"], NDir); (["home"; "d"; "a"], NFile 0);
      (["home"; "d"; "b"], NLink (rel ["a"]))]%string
     ["content"]%string.

Lemma plain_ok : tree_ok plain.        Proof. apply tree_okb_spec. vm_compute. reflexivity. Qed.
Lemma linked_ok : tree_ok linked.      Proof. apply tree_okb_spec. vm_compute. reflexivity. Qed.
Lemma pointing_out_ok : tree_ok pointing_out.
Proof. apply tree_okb_spec. vm_compute. reflexivity. Qed.
Lemma pointing_in_ok : tree_ok pointing_in.
Proof. apply tree_okb_spec. vm_compute. reflexivity. Qed.

Definition everything (s : sys) : list (cpath * option stored) :=
  map (fun e => (fst e, at_place s (fst e))) (s_nodes s).

(** ** The counterexamples *)

Lemma pair_ok : forall {A B} (x : A * B) a, fst x = a -> x = (a, snd x).
Proof. intros A B' [a b] a' H. cbn in H. subst. reflexivity. Qed.

Lemma erase_not_overwritten : exists s p passes s' es i,
  tree_ok s /\ no_faults s /\ stat s p = Some (NFile i) /\ s_data s i <> []
  /\ run (erase_execute p passes) s = (Ok tt, s') /\ added s s' es
  /\ ~ overwritten_before_loss es i (List.length (s_data s i)).
Proof.
  exists plain, (rel ["d2"%string]), 3%Z,
    (snd (run (erase_execute (rel ["d2"%string]) 3) plain)),
    [FTrunc 2; FTrunc 2; FUnlink ["home"; "d2"]%string], 2.
  split; [apply plain_ok|]. split; [split; reflexivity|]. split; [vm_compute; reflexivity|].
  split; [discriminate|]. split; [apply pair_ok; vm_compute; reflexivity|].
  split; [vm_compute; reflexivity|].
  intros H. destruct (H [] (FTrunc 2) [FTrunc 2; FUnlink ["home"; "d2"]%string] eq_refl
    (or_introl eq_refl) 0 ltac:(cbn; lia)) as [o [l [[] _]]].
Qed.

(** Erasing through a link empties the file it points to; erasing one name of a
    file empties it under its other name. *)
Lemma erase_touches_others : exists s,
  tree_ok s /\ no_faults s
  /\ (exists p s' r, run (erase_execute p 1) s = (Ok tt, s')
        /\ resolve true s p = Some r /\ resolve false s p <> Some r
        /\ at_place s r = Some (SFile 0 (B "precious"))
        /\ at_place s' r = Some (SFile 0 []))
  /\ (exists p s' q r, run (erase_execute p 1) s = (Ok tt, s')
        /\ resolve true s p = Some q /\ resolve false s p = Some q /\ r <> q
        /\ at_place s r = Some (SFile 0 (B "precious"))
        /\ at_place s' r = Some (SFile 0 [])).
Proof.
  exists linked. split; [apply linked_ok|]. split; [split; reflexivity|]. split.
  - exists (rel ["link"%string]), (snd (run (erase_execute (rel ["link"%string]) 1) linked)),
      ["home"; "target"]%string.
    split; [apply pair_ok; vm_compute; reflexivity|].
    split; [vm_compute; reflexivity|]. split; [vm_compute; discriminate|].
    split; vm_compute; reflexivity.
  - exists (rel ["hard"%string]), (snd (run (erase_execute (rel ["hard"%string]) 1) linked)),
      ["home"; "hard"]%string, ["home"; "target"]%string.
    split; [apply pair_ok; vm_compute; reflexivity|].
    split; [vm_compute; reflexivity|]. split; [vm_compute; reflexivity|].
    split; [discriminate|]. split; vm_compute; reflexivity.
Qed.

(** The main thread waits for all others, so any schedule may be continued by
    letting each thread finish. *)
Definition all_turns (n : nat) : list nat := flat_map (fun k => repeat k 6) (seq 0 n).

Lemma erase_dir_leaves : exists s s' r,
  tree_ok s /\ no_faults s
  /\ erase_dir_execute (all_turns 4) (EDir (rel ["d"%string])) 1 s = (Ok tt, s')
  /\ resolve true s (rel ["d"%string]) = Some ["home"; "d"]%string
  /\ ~ inside ["home"; "d"]%string r
  /\ at_place s r = Some (SFile 0 (B "precious")) /\ at_place s' r = Some (SFile 0 []).
Proof.
  exists pointing_out,
    (snd (erase_dir_execute (all_turns 4) (EDir (rel ["d"%string])) 1 pointing_out)),
    ["home"; "outside"]%string.
  split; [apply pointing_out_ok|]. split; [split; reflexivity|].
  split; [apply pair_ok; vm_compute; reflexivity|]. split; [vm_compute; reflexivity|].
  split; [intros [x H]; discriminate|]. split; vm_compute; reflexivity.
Qed.

Lemma erase_dir_order : exists s sched1 sched2,
  tree_ok s /\ no_faults s
  /\ (forall k, k < 2 -> 6 <= turns sched1 k /\ 6 <= turns sched2 k)
  /\ fst (erase_dir_execute sched1 (EDir (rel ["d"%string])) 1 s)
     = Err (EdEraseFile EraOpenFile)
  /\ fst (erase_dir_execute sched2 (EDir (rel ["d"%string])) 1 s) = Ok tt.
Proof.
  exists pointing_in, [0;0;0;0;0;0;1;1;1;1;1;1], [1;1;1;1;1;1;0;0;0;0;0;0].
  split; [apply pointing_in_ok|]. split; [split; reflexivity|].
  split; [intros [|[|k]] H; cbn; try lia; split; lia|]. split; vm_compute; reflexivity.
Qed.
