(** Encrypting [a] to [new] while another program makes a file. *)
From Coq Require Import List Arith ZArith String Bool.
From Verif Require Import ArchiveCases.
From Verif Require Import Bytes Outcome IO Primitives Crypto EncDec FS Erase Archive Cli BytesFacts FSSpec FSFacts ArchiveSpec EraseCases CliSpec CliCases Races RacesSpec CliTools PackPathCases.
Import ListNotations.
Local Open Scope string_scope.
Local Open Scope list_scope.

(** At [q] there is a new file with the content [l]; what was there before, if anything,
    has no name any more. *)
Definition makes (q : cpath) (l : bytes) (s : sys) : sys :=
  mkSys (filter (fun e => negb (cpath_eqb q (fst e))) (s_nodes s) ++ [(q, NFile (s_next s))])
        (set_data (s_data s) (s_next s) l) (S (s_next s)) (s_cwd s) (s_tmp s) (s_faults s) (s_plans s) (s_rng s) (s_log s).

Lemma makes_place : forall q l s, q <> [] -> at_place (makes q l s) q = Some (SFile (s_next s) l).
Proof.
  intros q l s NE. assert (F : forall t n, find_node (filter (fun e => negb (cpath_eqb q (fst e))) t ++ [(q, n)]) q = Some n).
  { assert (R : cpath_eqb q q = true) by (apply cpath_eqb_eq; reflexivity).
    induction t as [|[r m] t IH]; intros n; cbn [filter fst app find_node]; [rewrite R; reflexivity|].
    destruct (cpath_eqb q r) eqn:E; cbn [negb app find_node]; [apply IH|]. rewrite E. apply IH. }
  unfold at_place, lookup. destruct q as [|x q]; [congruence|]. cbn [makes s_nodes s_data]. rewrite F.
  unfold set_data. rewrite Nat.eqb_refl. reflexivity.
Qed.

(** Someone saves a file as [new] while the password is being typed; or as [a] while it
    is being encrypted. *)
Definition saves_new : others := mkOthers (makes ["home"; "new"] (B "mine")) (fun s => s).
Definition saves_a : others := mkOthers (fun s => s) (makes ["home"; "a"] (B "mine")).
Definition outcome_o (O : others) (cmd : command) (l : list (string * list string)) (c : cli) :=
  fst (run_command_o O V0 cmd (args l) c).
Definition after_o (O : others) (cmd : command) (l : list (string * list string)) (c : cli) : cli :=
  snd (run_command_o O V0 cmd (args l) c).
Lemma ran_o : forall O cmd l c o, outcome_o O cmd l c = o ->
  run_command_o O V0 cmd (args l) c = (o, after_o O cmd l c).
Proof. intros O cmd l c o H. unfold outcome_o, after_o in *. destruct (run_command_o _ _ _ _ _). cbn in *. subst. reflexivity. Qed.

Lemma holds_nowhere : forall s l, forallb (fun e => match snd e with NFile i => negb (bytes_eqb (s_data s i) l) | _ => true end) (s_nodes s) = true ->
  forall q i, at_place s q <> Some (SFile i l).
Proof.
  intros s l F q i H. unfold at_place in H. destruct q as [|x q]; [discriminate H|].
  destruct (lookup (s_nodes s) (x :: q)) as [n|] eqn:L; [|discriminate]. apply find_in in L.
  rewrite forallb_forall in F. specialize (F _ L). cbn [snd] in F.
  destruct n as [|j|t]; try discriminate H. injection H as -> E. rewrite E in F. apply negb_true_iff in F.
  assert (X : bytes_eqb l l = true) by (apply bytes_eqb_eq; reflexivity). congruence.
Qed.

Lemma saved_over : exists O V g c c', no_faults (disk c) /\ inodes_ok (disk c)
  /\ not_given g "force" /\ given g "output" "new"
  /\ exists_path (disk c) (os_path "new") = false
  /\ (forall s, at_place (o_asking O s) ["home"; "new"] = Some (SFile (s_next s) (B "mine")))
  /\ run_command_o O V CmdEncrypt g c = (Ok tt, c')
  /\ (forall q, ~ In (NAsk q) (c_out c'))
  /\ forall q i, at_place (disk c') q <> Some (SFile i (B "mine")).
Proof.
  exists saves_new, V0, (args to_new), (start [] []), (after_o saves_new CmdEncrypt to_new (start [] [])).
  split; [apply home_calm|]. split; [apply home_inodes|]. split; [reflexivity|]. split; [exists []; reflexivity|].
  split; [vm_compute; reflexivity|].
  split; [intros s; apply makes_place; discriminate|].
  split; [apply ran_o; vm_compute; reflexivity|].
  split. { intros q. assert (X : c_out (after_o saves_new CmdEncrypt to_new (start [] [])) = []) by (vm_compute; reflexivity). rewrite X. intros []. }
  apply holds_nowhere. vm_compute. reflexivity.
Qed.

Lemma other_erased : exists O V g c c', no_faults (disk c) /\ inodes_ok (disk c)
  /\ given g "input" "a" /\ (forall s, o_asking O s = s)
  /\ at_place (disk c) ["home"; "a"] = Some (SFile 0 (B "secret"))
  /\ (forall s, exists i, at_place (o_erasing O s) ["home"; "a"] = Some (SFile i (B "mine")))
  /\ run_command_o O V CmdEncrypt g c = (Ok tt, c')
  /\ at_place (disk c') ["home"; "a"] = None
  /\ (forall q i, at_place (disk c') q <> Some (SFile i (B "mine")))
  /\ exists c2, run_command V CmdDecrypt (args (from_new "k" "out")) c' = (Ok tt, c2)
       /\ at_place (disk c2) ["home"; "out"] = Some (SFile 2 (B "secret")).
Proof.
  exists saves_a, V0, (args to_new), (start [] []), (after_o saves_a CmdEncrypt to_new (start [] [])).
  split; [apply home_calm|]. split; [apply home_inodes|]. split; [exists []; reflexivity|]. split; [reflexivity|].
  split; [vm_compute; reflexivity|].
  split; [intros s; exists (s_next s); apply makes_place; discriminate|].
  split; [apply ran_o; vm_compute; reflexivity|]. split; [vm_compute; reflexivity|].
  split; [apply holds_nowhere; vm_compute; reflexivity|].
  eexists. split; [apply ran; vm_compute; reflexivity|]. vm_compute. reflexivity.
Qed.

(** A file [z] that someone puts into [d] while it is being packed. *)
Definition saves_z : others := mkOthers (fun s => s) (makes ["home"; "d"; "z"] (B "mine")).
Lemma pack_other_erased : exists O V g c c', no_faults (disk c) /\ inodes_ok (disk c) /\ In "d" (g "input")
  /\ (forall s, o_asking O s = s)
  /\ (forall s, exists i, at_place (o_erasing O s) ["home"; "d"; "z"] = Some (SFile i (B "mine")))
  /\ run_command_o O V CmdPack g c = (Ok tt, c')
  /\ (forall q i, at_place (disk c') q <> Some (SFile i (B "mine")))
  /\ exists c2, unpack_cli V "out" "new" false taking2 c' = (Ok tt, c2)
       /\ (exists i, at_place (disk c2) ["home"; "new"; "d"; "x"] = Some (SFile i (B "inner")))
       /\ (forall q i, at_place (disk c2) q <> Some (SFile i (B "mine"))).
Proof.
  exists saves_z, V0, (args packing2), start2, (after_o saves_z CmdPack packing2 start2).
  split; [split; reflexivity|]. split; [apply inodes_okb_spec; vm_compute; reflexivity|]. split; [left; reflexivity|]. split; [reflexivity|].
  split; [intros s; exists (s_next s); apply makes_place; discriminate|].
  split; [apply ran_o; vm_compute; reflexivity|].
  split; [apply holds_nowhere; vm_compute; reflexivity|].
  exists (snd (unpack_cli V0 "out" "new" false taking2 (after_o saves_z CmdPack packing2 start2))).
  split. { assert (X : fst (unpack_cli V0 "out" "new" false taking2 (after_o saves_z CmdPack packing2 start2)) = Ok tt) by (vm_compute; reflexivity).
    destruct (unpack_cli _ _ _ _ _ _). cbn [fst snd] in *. rewrite X. reflexivity. }
  split; [eexists; vm_compute; reflexivity|].
  apply holds_nowhere. vm_compute. reflexivity.
Qed.
(** A file saved as [fresh] while decrypt asks for the password, and one saved as [new]
    while it decrypts. *)
Definition saves_out : others := mkOthers (makes ["home"; "fresh"] (B "mine")) (makes ["home"; "new"] (B "later")).
Lemma decrypt_other :
  let c := after V0 CmdEncrypt to_new (start [] []) in
  let c' := after_o saves_out CmdDecrypt (from_new "k" "fresh") c in
  (outcome_o saves_out CmdDecrypt (from_new "k" "fresh") c,
   map (at_place (disk c')) [["home"; "fresh"]; ["home"; "new"]])
  = (Ok tt, [Some (SFile 11 (B "secret")); None]).
Proof. vm_compute. reflexivity. Qed.

(** Others who write another file. *)
Definition saves_x : others := mkOthers (fun s => s) (makes ["home"; "x"] (B "mine")).
Lemma others_elsewhere : outcome_o saves_x CmdEncrypt to_new (start [] []) = Ok tt
  /\ map (at_place (disk (after_o saves_x CmdEncrypt to_new (start [] [])))) [["home"; "a"]; ["home"; "x"]]
     = [None; Some (SFile 11 (B "mine"))]
  /\ fst (run_command V0 CmdDecrypt (args (from_new "k" "out")) (after_o saves_x CmdEncrypt to_new (start [] []))) = Ok tt.
Proof. split; [vm_compute; reflexivity|]. split; vm_compute; reflexivity. Qed.
Lemma asked_no : map (fun i => (outcome_o saves_new CmdEncrypt [("input", ["a"]); ("output", ["out"]); ("keyfile", ["k"])] (start i [])))
   [[Byte.x6e]; []] = [Err CExit; Err CAnswer].
Proof. vm_compute. reflexivity. Qed.
Lemma both_let_be : forall O, In O [saves_x; saves_a] ->
  forall c1, encrypt_so_far O V0 (args to_new) (start [] []) = (Ok tt, c1) ->
  lets_be (write_targets (args to_new) "new") (os_path "a") (disk c1) (o_erasing O (disk c1)).
Proof.
  assert (G : forall O j, (forall s, o_asking O s = s) ->
    let s := disk (snd (encrypt_so_far O V0 (args to_new) (start [] []))) in
    stat (o_erasing O s) (os_path "a") = Some (NFile j) -> stat (o_erasing O s) (os_path "new") = Some (NFile 10) -> j <> 10 ->
    resolve true s (os_path "new") = Some ["home"; "new"] -> resolve true (o_erasing O s) (os_path "new") = Some ["home"; "new"] ->
    at_place (o_erasing O s) ["home"; "new"] = at_place s ["home"; "new"] ->
    forall c1, encrypt_so_far O V0 (args to_new) (start [] []) = (Ok tt, c1) ->
    lets_be (write_targets (args to_new) "new") (os_path "a") (disk c1) (o_erasing O (disk c1))).
  { intros O j _ s A B NE R1 R2 AP c1 E.
    assert (EQ : disk c1 = s) by (unfold s; rewrite E; reflexivity). rewrite EQ. clearbody s. clear E EQ.
    change (write_targets (args to_new) "new") with [os_path "new"]. split.
    - exists j. split; [exact A|]. intros t [<-|[]]. rewrite B. congruence.
    - intros t [<-|[]]. split; [rewrite R2; symmetry; exact R1|]. intros q R. rewrite R1 in R. injection R as <-. exact AP. }
  intros O [<-|[<-|[]]].
  - apply (G saves_x 0); [reflexivity|vm_compute; reflexivity|vm_compute; reflexivity|discriminate|vm_compute; reflexivity|vm_compute; reflexivity|vm_compute; reflexivity].
  - apply (G saves_a 11); [reflexivity|vm_compute; reflexivity|vm_compute; reflexivity|discriminate|vm_compute; reflexivity|vm_compute; reflexivity|vm_compute; reflexivity].
Qed.
