(** The concrete file systems of PropertiesRestore. *)
From Coq Require Import List Arith NArith ZArith Ascii String Bool Lia.
From Verif Require Import Bytes Outcome IO Primitives Crypto Header Stream KeyModel EncDec Overwrite FS Archive.
From Verif Require Import IOSpec ToyEnv Fixtures FileCases FSSpec FSFacts EraseCases ArchiveSpec ArchiveCases RestoreSpec RestoreManySpec RestoreProofs.
Import ListNotations.
Local Open Scope nat_scope.
Local Open Scope list_scope.

(** A directory to pack and one to unpack to; the encrypted archive is written to
    [out], inode 2. *)
Definition disk (a b : string) (plans : list (list ev)) : sys :=
  mkSys [(["tmp"], NDir); (["home"], NDir); (["home"; "d"], NDir); (["home"; "d"; a], NFile 0);
         (["home"; "d"; "e"], NDir); (["home"; "d"; "e"; b], NFile 1); (["home"; "f"], NDir);
         (["home"; "out"], NFile 2); (["home"; "to"], NDir)]%string
        (fun i => nth i [B "secret"; B "more"; []] []) 10 ["home"%string] (abs ["tmp"%string]) [] plans noise [].
Definition unpack_out : unpack_request :=
  mkUnpackReq (inp ["out"%string] 2) None pw (rel ["to"%string]) yes.

Definition packed_and_unpacked (s : sys) (p : path) (q : cpath) (a' : asys) : Prop :=
  exists files s1 a2 sched,
  tree_ok s /\ s_faults s = [] /\ inodes_ok s
  /\ resolve true s p = Some q /\ lookup (s_nodes s) q = Some NDir
  /\ read_dir (EDir p) s = (Ok files, s1)
  /\ pack_execute toy toy_zip pick (pack_req files) (s1, []) = (Ok tt, a2)
  /\ unpack_execute toy toy_zip pick sched unpack_out a2 = (Ok tt, a').

Definition files_of (p : path) (s : sys) : list entry :=
  match fst (read_dir (EDir p) s) with Ok l => l | _ => [] end.
Definition packing (p : path) (s : sys) :=
  pack_execute toy toy_zip pick (pack_req (files_of p s)) (snd (read_dir (EDir p) s), []).
Definition unpacking (p : path) (s : sys) :=
  unpack_execute toy toy_zip pick (turns 5) unpack_out (snd (packing p s)).

Lemma run_both : forall s p q, tree_okb s = true -> s_faults s = [] -> inodes_okb s = true ->
  resolve true s p = Some q -> lookup (s_nodes s) q = Some NDir ->
  fst (read_dir (EDir p) s) = Ok (files_of p s) ->
  fst (packing p s) = Ok tt -> fst (unpacking p s) = Ok tt ->
  packed_and_unpacked s p q (snd (unpacking p s)).
Proof.
  intros s p q H1 H2 H3 H4 H5 H6 H7 H8.
  exists (files_of p s), (snd (read_dir (EDir p) s)), (snd (packing p s)), (turns 5).
  split; [apply tree_okb_spec, H1|]. split; [exact H2|]. split; [apply inodes_okb_spec, H3|].
  split; [exact H4|]. split; [exact H5|]. split; [apply pair_ok, H6|].
  split; [apply pair_ok, H7|apply pair_ok, H8].
Qed.

(** Nothing at all comes back. *)
Lemma absolute_dropped : exists s p q a', packed_and_unpacked s p q a'
  /\ no_faults s /\ p_abs p = true
  /\ at_place s (q ++ ["a"]%string) = Some (SFile 0 (B "secret"))
  /\ map fst (s_nodes (fst a')) = map fst (s_nodes s).
Proof.
  exists (disk "a" "b" []), (abs ["home"; "d"]%string), ["home"; "d"]%string.
  eexists. split; [apply run_both; vm_compute; reflexivity|].
  split; [split; reflexivity|]. split; [reflexivity|]. split; [vm_compute; reflexivity|].
  vm_compute. reflexivity.
Qed.

Lemma parent_dropped : exists s p q a', packed_and_unpacked s p q a'
  /\ no_faults s /\ p = mkPath false [Up; Nm "home"; Nm "d"]%string
  /\ at_place s (q ++ ["a"]%string) = Some (SFile 0 (B "secret"))
  /\ map fst (s_nodes (fst a')) = map fst (s_nodes s).
Proof.
  exists (disk "a" "b" []), (mkPath false [Up; Nm "home"; Nm "d"]%string), ["home"; "d"]%string.
  eexists. split; [apply run_both; vm_compute; reflexivity|].
  split; [split; reflexivity|]. split; [reflexivity|]. split; [vm_compute; reflexivity|].
  vm_compute. reflexivity.
Qed.

(** A file becomes a directory. *)
Lemma backslash_lost : exists s p q a', packed_and_unpacked s p q a'
  /\ no_faults s /\ p = rel ["d"]%string
  /\ at_place s (q ++ ["a\"]%string) = Some (SFile 0 (B "secret"))
  /\ at_place (fst a') ["home"; "to"; "d"; "a\"]%string = Some SDir.
Proof.
  exists (disk "a\" "b" []), (rel ["d"]%string), ["home"; "d"]%string.
  eexists. split; [apply run_both; vm_compute; reflexivity|].
  split; [split; reflexivity|]. split; [reflexivity|]. split; vm_compute; reflexivity.
Qed.

(** A reader that at first returns less than asked for: the rest is lost. *)
Lemma short_read_lost : exists s p q a' k, packed_and_unpacked s p q a'
  /\ s_plans s = [[EvShort k]] /\ p = rel ["d"]%string
  /\ at_place s (q ++ ["a"]%string) = Some (SFile 0 (B "secret"))
  /\ exists i, at_place (fst a') ["home"; "to"; "d"; "a"]%string = Some (SFile i (B "sec")).
Proof.
  exists (disk "a" "b" [[EvShort 2]]), (rel ["d"]%string), ["home"; "d"]%string.
  eexists. exists 2. split; [apply run_both; vm_compute; reflexivity|].
  split; [reflexivity|]. split; [reflexivity|]. split; [vm_compute; reflexivity|].
  eexists. vm_compute. reflexivity.
Qed.

(** ** The hypotheses of the round trip *)

Lemma good_here : forall rel, at_place (disk "a" "b" []) (["home"; "d"]%string ++ rel) <> None ->
  Forall good_name rel.
Proof.
  intros r H. unfold at_place in H.
  assert (X : In r [[]; ["a"]; ["e"]; ["e"; "b"]]%string).
  { destruct r as [|x r]; [left; reflexivity|].
    assert (I : In (["home"; "d"]%string ++ x :: r) (map fst (s_nodes (disk "a" "b" [])))).
    { destruct (lookup _ _) as [n|] eqn:F in H; [|contradiction H; reflexivity].
      cbn [app lookup] in F. apply find_in in F. apply (in_map fst) in F. exact F. }
    cbn in I. cbn [app] in I.
    repeat match type of I with
    | _ \/ _ => destruct I as [I|I]
    end; try discriminate I; try contradiction; injection I as; subst; cbn; tauto. }
  cbn in X.
  assert (G : forall n, In n ["a"; "b"; "e"]%string -> good_name n).
  { intros n [<-|[<-|[<-|[]]]]; (split; [discriminate|]); (split; [discriminate|]); (split; [discriminate|]);
      (split; [intros [X'|[]]; discriminate|]); (split; [intros [X'|[]]; discriminate|]);
      intros [|c [|c' l]] Y; discriminate. }
  repeat match type of X with _ \/ _ => destruct X as [X|X] end; try contradiction; subst;
    repeat constructor; apply G; cbn; tauto.
Qed.

Lemma packable_d : packable (rel ["d"]%string).
Proof.
  split; [reflexivity|]. split; [|exists [], "d"%string; reflexivity].
  constructor; [|constructor]. cbn [good_comp].
  split; [discriminate|]. split; [discriminate|]. split; [discriminate|].
  split; [intros [X|[]]; discriminate|]. split; [intros [X|[]]; discriminate|].
  intros [|c [|c' l]] Y; discriminate.
Qed.

Lemma room_here : forall s, s_nodes s = s_nodes (disk "a" "b" []) -> s_cwd s = ["home"%string] ->
  s_tmp s = abs ["tmp"%string] ->
  room_for s (rel ["to"]%string) ["home"; "to"]%string [] ["d"]%string (temp_path pick s).
Proof.
  intros s N C T.
  assert (R : forall f p, resolve f s p = resolve f (disk "a" "b" []) p)
    by (intros f p; apply resolve_nodes; [exact N|exact C]).
  constructor; rewrite ?N.
  - right. discriminate.
  - exists [Nm "to"%string]. split; [reflexivity|]. rewrite R. vm_compute. reflexivity.
  - reflexivity.
  - intros [|x a] b E NB; [right; reflexivity|]. injection E as <- E.
    symmetry in E. apply app_eq_nil in E. destruct E. contradiction.
  - reflexivity.
  - exists ["tmp"; "tmpname"]%string. split; [rewrite R; unfold temp_path; rewrite T; vm_compute; reflexivity|].
    split; [rewrite ?N; reflexivity|]. split.
    + intros [a [b [_ [_ E]]]]. discriminate.
    + intros [r E]. discriminate.
Qed.

Lemma case_applies : exists n, forall sched r a',
  unpack_execute toy toy_zip pick sched unpack_out (snd (packing (rel ["d"]%string) (disk "a" "b" []))) = (r, a') ->
  (r = Ok tt /\ copied (disk "a" "b" []) ["home"; "d"]%string (fst a') ["home"; "to"; "d"]%string)
  \/ (r = Diverge /\ exists k, k <= n /\ FSSpec.turns sched k < n).
Proof.
  set (s := disk "a" "b" []). set (p := rel ["d"]%string).
  assert (PE : packing p s = (Ok tt, snd (packing p s))) by (apply pair_ok; vm_compute; reflexivity).
  assert (RD : read_dir (EDir p) s = (Ok (files_of p s), s)).
  { assert (X : fst (read_dir (EDir p) s) = Ok (files_of p s)) by (vm_compute; reflexivity).
    apply pair_ok in X. rewrite X at 1. f_equal. }
  destruct (snd (packing p s)) as [s2 tr2] eqn:S2.
  assert (NS : s_nodes s2 = s_nodes s /\ s_cwd s2 = s_cwd s /\ s_tmp s2 = s_tmp s /\ s_next s2 = 11
               /\ s_faults s2 = [] /\ s_plans s2 = []).
  { replace s2 with (fst (snd (packing p s))) by (rewrite S2; reflexivity). vm_compute. auto 10. }
  destruct NS as [N1 [N2 [N3 [N4 [N5 N6]]]]].
  assert (TR : tree_ok s) by (apply tree_okb_spec; vm_compute; reflexivity).
  assert (PD : packable_dir s (p, ["home"; "d"]%string)).
  { constructor; cbn [fst snd].
    - exact packable_d.
    - vm_compute. reflexivity.
    - reflexivity.
    - intros r t [l ->] L. cbn [app lookup] in L. apply find_in in L. apply (in_map snd) in L. vm_compute in L. clear - L.
      repeat match type of L with _ \/ _ => destruct L as [L|L] end; try discriminate; contradiction.
    - exact good_here. }
  destruct (round_trip toy toy_zip pick BLOCK_SIZE s [(p, ["home"; "d"]%string)] (pack_req (files_of p s)) [] (s2, tr2)
            toy_ok toy_zip_ok) with (names := @nil string) (q0 := ["home"; "to"]%string) (pick2 := pick) (s2 := s2)
            (ureq := unpack_out) (tr2 := tr2) as [n R]; try reflexivity.
  - split; [apply Nat.ltb_lt; vm_compute; reflexivity|apply Nat.le_refl].
  - exact TR.
  - split; reflexivity.
  - apply inodes_okb_spec. vm_compute. reflexivity.
  - constructor; [exact PD|constructor].
  - split; [constructor|exact I].
  - discriminate.
  - exists [files_of p s]. split; [constructor; [exact RD|constructor]|]. cbn [List.concat pack_req pr_files].
    rewrite app_nil_r. reflexivity.
  - apply Nat.ltb_lt. reflexivity.
  - unfold packing in PE. rewrite RD in PE. exact PE.
  - unfold tree_ok. rewrite N1. exact TR.
  - split; assumption.
  - intros ps. reflexivity.
  - rewrite N4. apply Nat.ltb_lt. reflexivity.
  - constructor; [apply (room_here s2); assumption|constructor].
  - exists n. intros sched r a' H. destruct (R sched r a' H) as [[O C]|D]; [left|right; exact D].
    split; [exact O|]. apply Forall_inv in C. exact C.
Qed.

(** Two directories, with the header in a file of its own. *)
Definition disk2 : sys :=
  mkSys [(["tmp"], NDir); (["home"], NDir); (["home"; "d"], NDir); (["home"; "d"; "a"], NFile 0);
         (["home"; "f"], NDir); (["home"; "f"; "a"], NFile 1);
         (["home"; "out"], NFile 2); (["home"; "hdr"], NFile 3); (["home"; "to"], NDir)]%string
        (fun i => nth i [B "secret"; B "more"; []; []] []) 10 ["home"%string] (abs ["tmp"%string]) [] [] noise [].
Definition two_dirs : list (path * cpath) :=
  [(rel ["d"], ["home"; "d"]); (rel ["f"], ["home"; "f"])]%string.
Definition pack_two : pack_request :=
  let r := pack_req (files_of (rel ["d"%string]) disk2 ++ files_of (rel ["f"%string]) disk2) in
  mkPackReq (pr_out r) (Some (inp ["hdr"%string] 3)) (pr_files r) (pr_compression r) (pr_raw_key r)
    (pr_header_type r) (pr_hashing_algorithm r).
Definition unpack_two : unpack_request :=
  mkUnpackReq (inp ["out"%string] 2) (Some (inp ["hdr"%string] 3)) pw (rel ["to"%string]) yes.
