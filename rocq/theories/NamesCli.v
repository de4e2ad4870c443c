(** The command on names that are not UTF-8. *)
From Coq Require Import List Arith NArith ZArith Ascii String Bool Lia.
From Verif Require Import Bytes Outcome IO Primitives Crypto Header Stream KeyModel EncDec.
From Verif Require Import Overwrite Hash FS Erase Archive Cli.
From Verif Require Import FSSpec FSFacts IOFacts ArchiveSpec EraseProofs EraseDirProofs UnpackProofs PackProofs ArchiveWalk.
From Verif Require Import RestoreSpec RestoreManySpec CliSpec CliKeys CliRuns CliCommands CliPack Utf8Facts SharedCalls ChoiceSpec PackPathSpec WorksSpec WorksMoreSpec WorksMore Names NamesSpec NamesProofs.
Import ListNotations.
Local Open Scope nat_scope.
Local Open Scope list_scope.

Notation good := (fun e => named (entry_path e)).

Lemma disk_a : forall c c', c_a c' = c_a c -> disk c' = disk c.
Proof. intros c c' H. unfold disk. rewrite H. reflexivity. Qed.

Lemma open_header_names : forall p c o c', all_names (disk c) -> (forall h, cp_header p = Some h -> is_name h) ->
  open_header p c = (o, c') -> all_names (disk c').
Proof.
  intros p c o c' A N H. unfold open_header in H. destruct (cp_header p) as [h|]; [|injection H as <- <-; exact A].
  assert (W : forall c1 r c2, all_names (disk c1) -> storage (create_or_write (os_path h)) c1 = (r, c2) -> all_names (disk c2)).
  { intros c1 r c2 A1 S. destruct (storage_inv _ _ _ _ S) as (r0 & s1 & CW & _ & ->). rewrite set_disk_disk.
    eapply names_made; [exact A1|apply os_path_named, N; reflexivity|exact CW]. }
  apply bind_inv in H. destruct H as [[u [c1 [H1 H2]]]|H].
  - destruct (check_or_exit_any _ _ _ _ _ H1) as (CA & _).
    assert (A1 : all_names (disk c1)) by (rewrite (disk_a _ _ CA); exact A).
    apply bind_inv in H2. destruct H2 as [[e [c2 [H2 H3]]]|H2].
    + injection H3 as <- <-. eapply W; eassumption.
    + destruct H2 as [[e [H2 _]]|[[H2 _]|[H2 _]]]; eapply W; eassumption.
  - assert (X : exists r, check_or_exit h (cp_force p) c = (r, c')) by (destruct H as [[e [H _]]|[[H _]|[H _]]]; eauto).
    destruct X as [r X]. destruct (check_or_exit_any _ _ _ _ _ X) as (CA & _). rewrite (disk_a _ _ CA). exact A.
Qed.

Lemma each_read_names : forall l c es c', Forall is_name l ->
  each (fun f => storage (read_file (os_path f))) l c = (Ok es, c') -> Forall good es.
Proof.
  induction l as [|f l IH]; intros c es c' F H; cbn [each] in H; [injection H as <- <-; constructor|].
  inversion F as [|f' l' N F']; subst.
  apply bind_inv in H. destruct H as [[e [c1 [H1 H]]]|[[e [_ X]]|[[_ X]|[_ X]]]]; [|discriminate..].
  apply bind_inv in H. destruct H as [[ys [c2 [H2 H]]]|[[y [_ X]]|[[_ X]|[_ X]]]]; [|discriminate..].
  injection H as <- <-. constructor; [|eapply IH; eassumption].
  destruct (storage_inv _ _ _ _ H1) as (r & s1 & RF & E & _).
  destruct (CliRuns.read_file_any _ _ _ _ RF) as (_ & _ & [[-> _]|[(i & plan & -> & _)|[-> _]]]); cbn in E;
    [injection E as ->|injection E as ->|discriminate]; cbn [entry_path h_path]; apply os_path_named, N.
Qed.

Lemma list_names : forall e c es c', all_names (disk c) -> named (entry_path e) ->
  (if entry_is_dir e then storage (read_dir e) else ret [e]) c = (Ok es, c') -> Forall good es.
Proof.
  intros e c es c' A N H. destruct e as [h|q]; cbn [entry_is_dir] in H.
  - injection H as <- <-. constructor; [exact N|constructor].
  - destruct (storage_inv _ _ _ _ H) as (r & s1 & RD & E & _).
    destruct (read_dir_any _ _ _ _ RD) as (_ & P & _). destruct r as [l|x| |]; try discriminate.
    cbn in E. injection E as ->. specialize (P l eq_refl).
    assert (LN : Forall named (listing (disk c) q)) by exact (listing_names _ _ A N). clear - P LN. revert LN.
    induction P as [|p e ps es [OP _] P IH]; intros LN; [constructor|].
    apply Forall_cons_iff in LN. destruct LN as [N1 N2]. constructor; [rewrite OP; exact N1|]. apply IH, N2.
Qed.

Lemma each_list_names : forall l c ls c', all_names (disk c) -> Forall good l ->
  each (fun f => if entry_is_dir f then storage (read_dir f) else ret [f]) l c = (Ok ls, c') ->
  Forall good (List.concat ls).
Proof.
  induction l as [|e l IH]; intros c ls c' A F H; cbn [each] in H; [injection H as <- <-; constructor|].
  inversion F as [|e' l' N F']; subst.
  apply bind_inv in H. destruct H as [[x [c1 [H1 H]]]|[[y [_ X]]|[[_ X]|[_ X]]]]; [|discriminate..].
  apply bind_inv in H. destruct H as [[ys [c2 [H2 H]]]|[[y [_ X]]|[[_ X]|[_ X]]]]; [|discriminate..].
  injection H as <- <-. cbn [List.concat]. apply Forall_app. split; [eapply list_names; eassumption|].
  eapply IH; [|exact F'|exact H2]. eapply names_disk; [|exact A]. exact (proj1 (list_step _ _ _ _ H1)).
Qed.

Lemma pack_cli_same : forall V inputs output p pp a c, all_names (disk c) ->
  Forall is_name inputs -> is_name output -> (forall h, cp_header p = Some h -> is_name h) ->
  pack_cli_t V inputs output p pp a c = pack_cli V inputs output p pp a c.
Proof.
  intros V inputs output p pp a c A NI NO NH. unfold pack_cli_t, pack_cli.
  destruct (existsb _ inputs); [reflexivity|].
  apply bind_congr_ok. intros u0 c0 H0.
  assert (A0 : all_names (disk c0)).
  { destruct (existsb _ inputs) in H0; [discriminate|]. injection H0 as _ <-. exact A. }
  apply bind_congr_ok. intros u1 c1 H1.
  assert (A1 : all_names (disk c1)).
  { destruct (check_or_exit_any _ _ _ _ _ H1) as (CA & _). rewrite (disk_a _ _ CA). exact A0. }
  apply bind_congr_ok. intros fs c2 H2.
  pose proof (each_read_names _ _ _ _ NI H2) as F2.
  assert (A2 : all_names (disk c2)).
  { eapply names_disk; [|exact A1]. eapply each_disk; [|exact H2]. intros x cx ox cx' _. apply read_step. }
  apply bind_congr_ok. intros raw c3 H3.
  assert (A3 : all_names (disk c3)).
  { eapply names_disk; [|exact A2]. exact (proj1 (get_secret_any _ _ _ _ _ _ H3)). }
  apply bind_congr_ok. intros fo c4 H4.
  assert (A4 : all_names (disk c4)).
  { destruct (storage_inv _ _ _ _ H4) as (r0 & s1 & CW & _ & ->). rewrite set_disk_disk.
    eapply names_made; [exact A3|apply os_path_named, NO|exact CW]. }
  apply bind_congr_ok. intros fh c5 H5.
  pose proof (open_header_names _ _ _ _ A4 NH H5) as A5.
  apply bind_congr_ok. intros lists c6 H6.
  pose proof (each_list_names _ _ _ _ A5 F2 H6) as F6.
  apply bind_congr_ok. intros ho c7 H7. apply first_congr.
  rewrite !on_a_run. destruct (same_opt ho (ok_handle fh)); [reflexivity|]. rewrite !map_err_run.
  unfold pack_execute_t, pack_execute. rewrite execute_same by exact F6. reflexivity.
Qed.

(** ** What is given *)

Lemma run_same : forall V cmd given c, all_names (disk c) -> given_names given ->
  run_command_t V cmd given c = run_command V cmd given c.
Proof.
  intros V cmd given c A G. destruct cmd; try reflexivity.
  cbn [run_command_t run_command]. unfold pack_cmd_t, pack_cmd.
  destruct (pack_handler_cases V given c) as (p & pp & n & R & PO & _).
  rewrite !(bind_ok _ _ _ _ _ R). cbn [fst snd].
  unfold algorithm_of. rewrite !bind_assoc.
  apply bind_congr_ok. intros b c1 H1. rewrite contains_optional in H1 by reflexivity. injection H1 as <- <-.
  apply bind_congr_ok. intros al c2 H2. injection H2 as <- <-.
  apply bind_congr_ok. intros inputs c3 H3.
  assert (I : c_a c3 = c_a c /\ Forall is_name inputs).
  { unfold get_params, bind, get_many in H3. 
    change (find_arg (mkMatches (args_of CmdPack) given) "input") with (Some (mkArg "input" None true true [])) in H3.
    cbn in H3. destruct (given "input"%string) as [|x l] eqn:GI; [discriminate|].
    cbn in H3. injection H3 as <- <-. split; [reflexivity|]. rewrite <- GI. apply Forall_forall. intros y Y. exact (G _ _ Y). }
  destruct I as [C3 NI].
  apply bind_congr_ok. intros output c4 H4.
  assert (I : c_a c4 = c_a c3 /\ is_name output).
  { unfold get_param, bind, get_one in H4.
    change (find_arg (mkMatches (args_of CmdPack) given) "output") with (Some (required "output")) in H4.
    cbn in H4. destruct (given "output"%string) as [|x l] eqn:GI; [discriminate|].
    cbn in H4. injection H4 as <- <-. split; [reflexivity|]. apply (G "output"%string). rewrite GI. left. reflexivity. }
  destruct I as [C4 NO].
  apply pack_cli_same; [|exact NI|exact NO|].
  - rewrite (disk_a c c4); [exact A|congruence].
  - intros h E. rewrite (po_header _ _ _ _ PO) in E. destruct (given "header"%string) as [|x l] eqn:GI; [discriminate|].
    cbn in E. injection E as <-. apply (G "header"%string). rewrite GI. left. reflexivity.
Qed.

(** ** Names below a directory *)

Record later (s s' : sys) : Prop := {
  lt_in : forall e, In e (s_nodes s) -> In e (s_nodes s');
  lt_grown : grown (s_nodes s) (s_nodes s');
  lt_cwd : s_cwd s' = s_cwd s
}.
Lemma later_disk : forall s s1 s2, later s s1 -> same_disk s1 s2 -> later s s2.
Proof. intros s s1 s2 [A B C] (N & _ & _ & D & _). constructor; rewrite ?N, ?D; assumption. Qed.
Lemma later_refl : forall s, later s s.
Proof. intros s. constructor; [auto|apply grown_refl|reflexivity]. Qed.
Lemma later_made : forall s s1 p o s2, later s s1 -> create_or_write p s1 = (o, s2) -> later s s2.
Proof.
  intros s s1 p o s2 L H. pose proof L as [A B C].
  destruct (create_or_write_any _ _ _ _ H) as [(e & _ & D)|(h & _ & _ & _ & _ & D & _ & _ & _ & _ & NEW)];
    [exact (later_disk _ _ _ L D)|].
  destruct NEW as [(q & R & LQ & _ & _ & NN & _)|(_ & _ & NN & _)]; constructor; rewrite ?NN, ?D; try assumption.
  - intros e I. apply in_or_app. left. apply A, I.
  - eapply grown_trans; [exact B|apply grown_add, LQ].
Qed.

Lemma each_in : forall {X Y} (f : X -> M cli cli_error Y) (I : cli -> Prop) l c ys c',
  (forall x c o c', I c -> f x c = (o, c') -> I c') -> I c -> each f l c = (Ok ys, c') ->
  forall x, In x l -> exists c1 y c2, I c1 /\ f x c1 = (Ok y, c2) /\ In y ys.
Proof.
  intros X Y f I. induction l as [|z l IH]; intros c ys c' P IC H x J; [destruct J|]. cbn [each] in H.
  apply bind_inv in H. destruct H as [[y [c1 [H1 H]]]|[[e [_ E]]|[[_ E]|[_ E]]]]; [|discriminate..].
  apply bind_inv in H. destruct H as [[r [c2 [H2 H]]]|[[e [_ E]]|[[_ E]|[_ E]]]]; [|discriminate..].
  injection H as <- <-. destruct J as [<-|J].
  - exists c, y, c1. split; [exact IC|]. split; [exact H1|]. left. reflexivity.
  - destruct (IH c1 r c2 P (P _ _ _ _ IC H1) H2 x J) as (d1 & y' & d2 & ID & F & J').
    exists d1, y', d2. split; [exact ID|]. split; [exact F|]. right. exact J'.
Qed.

Lemma listing_below : forall s p q, resolve true s p = Some q -> Forall named (listing s p) -> names_below s q.
Proof.
  intros s p q R F r n I. unfold listing in F. rewrite R in F. inversion F as [|x l _ FL]; subst.
  destruct r as [|m r]; [constructor|]. rewrite Forall_forall in FL.
  assert (N : named (mkPath (p_abs p) (p_comps p ++ map Nm (m :: r)))).
  { apply FL. apply in_flat_map. exists (q ++ m :: r, n). split; [exact I|]. cbn [fst].
    rewrite strip_self. left. reflexivity. }
  apply Forall_forall. intros y Y. apply N. cbn [p_comps]. apply in_or_app. right. apply in_map, Y.
Qed.

Lemma pack_cli_ok : forall V inputs output p pp a c c', cp_header p = None ->
  pack_cli_t V inputs output p pp a c = (Ok tt, c') ->
  forall f q, In f inputs -> resolve true (disk c) (os_path f) = Some q ->
  lookup (s_nodes (disk c)) q = Some NDir -> names_below (disk c) q.
Proof.
  intros V inputs output p pp a c c' NH H f q IN R L. unfold pack_cli_t in H.
  destruct (existsb _ inputs) in H; [discriminate|].
  set (s := disk c) in *.
  apply bind_inv in H. destruct H as [[u0 [c0 [H0 H]]]|[[e [_ E]]|[[_ E]|[_ E]]]]; [|discriminate E..].
  assert (S0 : disk c0 = s).
  { destruct (existsb _ inputs) in H0; [discriminate|]. injection H0 as _ <-. reflexivity. }
  apply bind_inv in H. destruct H as [[u1 [c1 [H1 H]]]|[[e [_ E]]|[[_ E]|[_ E]]]]; [|discriminate E..].
  assert (L1 : later s (disk c1)).
  { destruct (check_or_exit_any _ _ _ _ _ H1) as (CA & _). rewrite (disk_a _ _ CA), S0. apply later_refl. }
  apply bind_inv in H. destruct H as [[fs [c2 [H2 H]]]|[[e [_ E]]|[[_ E]|[_ E]]]]; [|discriminate E..].
  assert (ST : forall s', later s s' -> resolve true s' (os_path f) = Some q /\ lookup (s_nodes s') q = Some NDir).
  { intros s' LT. split; [|apply (lt_grown _ _ LT), L].
    eapply resolve_grown_some; [exact (lt_grown _ _ LT)|exact (lt_cwd _ _ LT)|exact R|exact L]. }
  assert (IF : In (EDir (os_path f)) fs).
  { destruct (each_in _ (fun c => later s (disk c)) _ _ _ _
      (fun x c o c' I X => later_disk _ _ _ I (proj1 (read_step x c o c' X))) L1 H2 f IN) as (d1 & y & d2 & ID & F & J).
    destruct (storage_inv _ _ _ _ F) as (r & s1 & RF & E & _). destruct (ST _ ID) as [R' L'].
    assert (SD : stat (disk d1) (os_path f) = Some NDir) by (unfold stat; rewrite R'; exact L').
    destruct (CliRuns.read_file_any _ _ _ _ RF) as (_ & _ & [[-> _]|[(i & plan & -> & X)|[-> _]]]).
    - cbn in E. injection E as ->. exact J.
    - rewrite SD in X. destruct X as [X _]. discriminate X.
    - discriminate. }
  assert (L2 : later s (disk c2)).
  { eapply later_disk; [exact L1|]. eapply each_disk; [|exact H2]. intros x cx ox cx' _. apply read_step. }
  apply bind_inv in H. destruct H as [[raw [c3 [H3 H]]]|[[e [_ E]]|[[_ E]|[_ E]]]]; [|discriminate E..].
  assert (L3 : later s (disk c3)).
  { eapply later_disk; [exact L2|]. exact (proj1 (get_secret_any _ _ _ _ _ _ H3)). }
  apply bind_inv in H. destruct H as [[fo [c4 [H4 H]]]|[[e [_ E]]|[[_ E]|[_ E]]]]; [|discriminate E..].
  assert (L4 : later s (disk c4)).
  { destruct (storage_inv _ _ _ _ H4) as (r0 & s1 & CW & _ & ->). rewrite set_disk_disk. eapply later_made; eassumption. }
  unfold open_header in H. rewrite NH in H.
  apply bind_inv in H. destruct H as [[fh [c5 [H5 H]]]|[[e [_ E]]|[[_ E]|[_ E]]]]; [|discriminate E..].
  injection H5 as <- <-.
  apply bind_inv in H. destruct H as [[lists [c6 [H6 H]]]|[[e [_ E]]|[[_ E]|[_ E]]]]; [|discriminate E..].
  destruct (each_in _ (fun c => later s (disk c)) _ _ _ _
      (fun x c o c' I X => later_disk _ _ _ I (proj1 (list_step x c o c' X))) L4 H6 _ IF) as (d1 & y & d2 & ID & F & J).
  cbn [entry_is_dir] in F. destruct (storage_inv _ _ _ _ F) as (r & s1 & RD & E & _).
  destruct (read_dir_any _ _ _ _ RD) as (_ & P & _). destruct r as [l|x| |]; try discriminate.
  cbn in E. injection E as ->. specialize (P l eq_refl).
  apply bind_inv in H. destruct H as [[ho [c7 [H7 H]]]|[[e [_ E]]|[[_ E]|[_ E]]]]; [|discriminate E..].
  apply bind_inv in H. destruct H as [[u8 [c8 [H8 _]]]|[[e [_ E]]|[[_ E]|[_ E]]]]; [|discriminate E..].
  rewrite on_a_run in H8. cbn [ok_handle same_opt] in H8. rewrite map_err_run in H8. cbn [fst snd] in H8.
  match type of H8 with context [fst (?m ?st)] => destruct (m st) as [o9 a9] eqn:PE end.
  cbn [fst snd] in H8. destruct o9 as [[]|e| |]; try discriminate H8.
  apply execute_ok in PE. cbn [pr_files] in PE.
  destruct (ST _ ID) as [R' L'].
  assert (NB : names_below (disk d1) q).
  { eapply listing_below; [exact R'|]. rewrite Forall_forall in PE.
    assert (PL : Forall good l).
    { apply Forall_forall. intros z Z. apply PE. apply in_concat. exists l. auto. }
    clear - P PL. induction P as [|p e ps es [OP _] P IH]; [constructor|].
    apply Forall_cons_iff in PL. destruct PL as [N1 N2]. constructor; [rewrite <- OP; exact N1|apply IH, N2]. }
  intros r n I. eapply NB, (lt_in _ _ ID), I.
Qed.

Lemma pack_works_t : forall V g c output dirs T k raw t,
  env_ok (ce_E V) -> tree_ok (disk c) -> no_faults (disk c) -> inodes_ok (disk c) ->
  all_names (disk c) -> given_names g ->
  given g "output" output -> to_pack g (disk c) output dirs ->
  can_write g (disk c) (os_path output) ->
  (forall h, given g "header" h -> can_write g (disk c) (os_path h)) ->
  resolve false (disk c) (temp_path (ce_pick V) (disk c)) = Some T -> lookup (s_nodes (disk c)) T = None ->
  (forall x, In x (write_targets g output) -> resolve true (disk c) x <> Some T) ->
  key_source V CmdPack g k -> yields V c k Validate raw t -> hashes (ce_E V) (kdf_asked g) raw ->
  (forall zs, archive_of (disk c) dirs zs ->
     encryptable (ce_E V) (z_encode (ce_Z V) (match g "zstd"%string with [] => Stored | _ => Zstd end) zs)) ->
  not_given g "erase" ->
  exists c', run_command_t V CmdPack g c = (Ok tt, c').
Proof.
  intros V g c output dirs T k raw t H1 H2 H3 H4 AN GN. rewrite (run_same V CmdPack g c AN GN). revert H1 H2 H3 H4. apply pack_works.
Qed.

Lemma run_ok : forall V given c c', not_given given "header" ->
  run_command_t V CmdPack given c = (Ok tt, c') ->
  forall f q, In f (given "input"%string) -> resolve true (disk c) (os_path f) = Some q ->
  lookup (s_nodes (disk c)) q = Some NDir -> names_below (disk c) q.
Proof.
  intros V given c c' NG H f q IN R L. cbn [run_command_t] in H. unfold pack_cmd_t in H.
  destruct (pack_handler_cases V given c) as (p & pp & n & PR & PO & _).
  rewrite (bind_ok _ _ _ _ _ PR) in H. cbn [fst snd] in H.
  unfold algorithm_of in H. rewrite bind_assoc in H.
  erewrite bind_ok in H by (apply contains_optional; reflexivity).
  erewrite bind_ok in H by reflexivity.
  apply bind_inv in H. destruct H as [[inputs [c3 [H3 H]]]|[[e [_ E]]|[[_ E]|[_ E]]]]; [|discriminate E..].
  apply bind_inv in H. destruct H as [[output [c4 [H4 H]]]|[[e [_ E]]|[[_ E]|[_ E]]]]; [|discriminate E..].
  assert (X : c3 = printed n c /\ inputs = given "input"%string).
  { unfold get_params, bind, get_many in H3.
    change (find_arg (mkMatches (args_of CmdPack) given) "input") with (Some (mkArg "input" None true true [])) in H3.
    cbn in H3. destruct (given "input"%string) as [|x l]; [discriminate|]. cbn in H3. injection H3 as <- <-. auto. }
  destruct X as [-> ->].
  assert (X : c4 = printed n c).
  { unfold get_param, bind, get_one in H4.
    change (find_arg (mkMatches (args_of CmdPack) given) "output") with (Some (required "output")) in H4.
    cbn in H4. destruct (given "output"%string) as [|x l]; [discriminate|]. cbn in H4. injection H4 as _ <-. auto. }
  subst c4. assert (D : disk (printed n c) = disk c) by reflexivity. rewrite <- D in R, L |- *.
  eapply pack_cli_ok; [|exact H|exact IN|exact R|exact L].
  rewrite (po_header _ _ _ _ PO), NG. reflexivity.
Qed.
