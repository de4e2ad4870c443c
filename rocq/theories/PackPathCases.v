(** Packing two directories with a header file, with the output inside and outside. *)
From Coq Require Import List ZArith String Bool.
From Verif Require Import Bytes Primitives Crypto FS FSSpec FSFacts EraseCases ArchiveSpec RestoreSpec RestoreManySpec RestoreCases.
From Verif Require Import Cli CliSpec CliCases PackPathSpec.
Import ListNotations.
Local Open Scope list_scope.

Definition home2 : sys :=
  mkSys [(["tmp"], NDir); (["home"], NDir); (["home"; "k"], NFile 1); (["home"; "out"], NFile 2);
         (["home"; "h"], NFile 3); (["home"; "d"], NDir); (["home"; "d"; "x"], NFile 4);
         (["home"; "e"], NDir); (["home"; "e"; "y"], NFile 5)]%string
        (fun i => nth i [[]; B "key"; B "old"; B "oldh"; B "inner"; B "other"] []) 10 ["home"%string]
        (abs ["tmp"%string]) [] [] noise [].
Definition start2 : cli := mkCli (home2, []) [] [] [].

Definition packing2 : list (string * list string) :=
  [("input", ["d"; "./e"]); ("output", ["out"]); ("keyfile", ["k"]); ("force", [""]); ("erase", [""]);
   ("header", ["h"])]%string.
Definition taking2 : crypto_params := mkCryptoParams false Force None (Keyfile "k") (Some "h"%string) (Blake3Balloon 5%Z).
Definition dirs2 : list (path * cpath) :=
  [(os_path "d", ["home"; "d"]); (os_path "./e", ["home"; "e"])]%string.

Lemma elsewhere_here : forall q p x i, resolve false home2 p = Some x -> stat home2 p = Some (NFile i) ->
  (forall b, x <> q ++ b) ->
  forallb (fun e => match snd e with NFile j => negb (below q (fst e) && Nat.eqb i j) | _ => true end) (s_nodes home2) = true ->
  q <> [] -> elsewhere home2 q p.
Proof.
  intros q p x i R S N F NE. split.
  - intros r R' [b E]. rewrite R in R'. injection R' as <-. exact (N b E).
  - intros j r S' [b ->] L. rewrite S in S'. injection S' as <-.
    destruct (q ++ b) as [|y l] eqn:E; [apply app_eq_nil in E; destruct E; contradiction|].
    cbn [lookup] in L. apply find_in in L. rewrite forallb_forall in F. specialize (F _ L). cbn [fst snd] in F.
    rewrite Nat.eqb_refl, andb_true_r in F. unfold below in F. rewrite <- E in F.
    assert (P : forall q b, strip_prefix q (q ++ b) = Some b).
    { clear. induction q as [|a q IH]; intros b; cbn; [reflexivity|]. rewrite String.eqb_refl. apply IH. }
    rewrite P in F. discriminate.
Qed.

Lemma good_one : forall n, In n ["d"; "e"; "x"; "y"]%string -> good_name n.
Proof.
  intros n [<-|[<-|[<-|[<-|[]]]]]; (split; [discriminate|]); (split; [discriminate|]); (split; [discriminate|]);
    (split; [intros [X|[]]; discriminate|]); (split; [intros [X|[]]; discriminate|]);
    intros [|c [|c' l]] Y; discriminate.
Qed.

Lemma to_pack_here : to_pack (args packing2) home2 "out" dirs2.
Proof.
  assert (IN : forall q rel n, lookup (s_nodes home2) (q ++ rel) = Some n -> q ++ rel <> [] -> In (q ++ rel, n) (s_nodes home2)).
  { intros q rel n L NE. destruct (q ++ rel) as [|y l]; [congruence|]. apply find_in. exact L. }
  constructor.
  - vm_compute. reflexivity.
  - discriminate.
  - assert (NL : forall x, no_links_inside home2 ("home"%string :: x)).
    { intros x r t [l ->] L. apply IN in L; [|discriminate]. apply (in_map snd) in L. vm_compute in L. clear - L.
      repeat match type of L with _ \/ _ => destruct L as [L|L] end; try discriminate; contradiction. }
    constructor; [|constructor; [|constructor]]; constructor; cbn [fst snd]; try apply NL; try (vm_compute; reflexivity).
    + split; [reflexivity|]. split; [|exists [], "d"%string; reflexivity].
      constructor; [apply good_one; cbn; tauto|constructor].
    + intros r A. unfold at_place in A. destruct (lookup _ _) as [n|] eqn:L in A; [|congruence].
      apply IN in L; [|discriminate]. clear IN A. vm_compute in L.
      repeat match type of L with _ \/ _ => destruct L as [L|L] end; try discriminate; try contradiction;
      injection L as; subst; repeat constructor; try discriminate; apply good_one; cbn; tauto.
    + split; [reflexivity|]. split; [|exists [Cur], "e"%string; reflexivity].
      constructor; [exact I|constructor; [apply good_one; cbn; tauto|constructor]].
    + intros r A. unfold at_place in A. destruct (lookup _ _) as [n|] eqn:L in A; [|congruence].
      apply IN in L; [|discriminate]. clear IN A. vm_compute in L.
      repeat match type of L with _ \/ _ => destruct L as [L|L] end; try discriminate; try contradiction;
      injection L as; subst; repeat constructor; try discriminate; apply good_one; cbn; tauto.
  - split; [|split; [constructor|exact I]]. constructor; [|constructor].
    split; intros [b E]; vm_compute in E; discriminate.
  - repeat constructor; cbn [fst snd]; (eapply elsewhere_here;
      [vm_compute; reflexivity|vm_compute; reflexivity|discriminate|vm_compute; reflexivity|discriminate]).
  - intros h (r & G). assert (h = "h"%string) by (cbn in G; congruence). subst h. split.
    + split; [vm_compute; discriminate|]. intros j S. assert (S1 : stat home2 (os_path "out") = Some (NFile 2)) by (vm_compute; reflexivity).
      rewrite S1 in S. injection S as <-. vm_compute. discriminate.
    + repeat constructor; cbn [fst snd]; (eapply elsewhere_here;
        [vm_compute; reflexivity|vm_compute; reflexivity|discriminate|vm_compute; reflexivity|discriminate]).
Qed.

Lemma inside_not_elsewhere : ~ elsewhere home2 ["home"; "d"]%string (os_path "d/new").
Proof.
  assert (R2 : resolve false home2 (os_path "d/new") = Some ["home"; "d"; "new"]%string) by (vm_compute; reflexivity).
  intros [E _]. apply (E _ R2). exists ["new"%string]. reflexivity.
Qed.
