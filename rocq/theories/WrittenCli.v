(** What a successful unpack by path has written. *)
From Coq Require Import List Arith NArith ZArith Ascii String Lia Bool.
From Verif Require Import Bytes Outcome IO Primitives Crypto Header Stream KeyModel EncDec Overwrite FS Erase Archive Cli CliTools.
From Verif Require Import FSSpec FSFacts ArchiveSpec UnpackProofs CliSpec CliRuns CliToolsSpec CliToolsUnpack WrittenSpec WrittenProofs.
Import ListNotations.
Local Open Scope nat_scope.
Local Open Scope list_scope.

Lemma forced_yes : forall s verbose ps c l c', zip_questions s Force verbose ps c = (Ok l, c') ->
  l = map (fun _ => true) ps.
Proof.
  intros s verbose ps. induction ps as [|p ps IH]; intros c l c' H; cbn [zip_questions] in H.
  - injection H as <- _. reflexivity.
  - destruct (file_name p) as [n|]; [|discriminate H]. unfold bind at 1 in H.
    assert (Y : forall o c1, (if exists_path s p then expect_answer (exists_prompt n) Force else ret true) c = (o, c1) ->
                o = Ok true \/ o = Panic \/ o = Diverge).
    { intros o c1 X. destruct (exists_path s p).
      - unfold expect_answer, get_answer, bind, say in X. injection X as <- _. left. reflexivity.
      - injection X as <- _. left. reflexivity. }
    destruct ((if exists_path s p then expect_answer (exists_prompt n) Force else ret true) c) as [o c1] eqn:X.
    destruct (Y _ _ eq_refl) as [->|[->| ->]]; try discriminate H. unfold bind at 1 in H.
    destruct ((if verbose then say NInfo else ret tt) c1) as [[u|e| |] c2]; try discriminate H.
    unfold bind in H. destruct (zip_questions s Force verbose ps c2) as [[bs|e| |] c3] eqn:Q; try discriminate H.
    unfold ret in H. injection H as <- _. cbn [map]. f_equal. exact (IH _ _ _ Q).
Qed.

Lemma archive_in_disk : forall E Z bs req s s' zs, same_disk s s' -> archive_in E Z bs req s' zs -> archive_in E Z bs req s zs.
Proof.
  intros E Z bs req s s' zs (_ & D & _) (plan & g & tr & w & H & K). exists plan, g, tr, w. split; [|exact K].
  rewrite <- H. f_equal. f_equal.
  - unfold handle_dev. rewrite D. reflexivity.
  - destruct (ur_hdr req) as [h|]; [|reflexivity]. cbn. unfold handle_dev. rewrite D. reflexivity.
Qed.

Lemma cli_written : forall V input output verbose p c c',
  inodes_ok (disk c) -> lookup (s_nodes (disk c)) (s_cwd (disk c)) = Some NDir ->
  unpack_cli V input output verbose p c = (Ok tt, c') ->
  exists req zs answers temp t, stat (disk c) (os_path input) = Some (NFile (h_ino (ur_in req)))
    /\ h_pos (ur_in req) = 0 /\ yields V c (cp_key p) Direct (ur_raw_key req) t
    /\ resolve false (disk c) (temp_path (ce_pick V) (disk c)) = Some temp
    /\ archive_in (ce_E V) (ce_Z V) BLOCK_SIZE req (disk c) zs
    /\ (cp_force p = Force -> answers = map (fun _ => true) (targets (parse_path output) zs))
    /\ stat (disk c') (parse_path output) = Some NDir
    /\ all_written (Some temp) (disk c') (chosen (parse_path output) zs answers).
Proof.
  intros V input output verbose p c c' IO CW H.
  destruct (unpack_cli_any _ _ _ _ _ _ _ _ H) as [(_ & _ & F & _)|(c1 & hi & hh & raw & r & a2 & RD & UX & SD & _ & NR & _)]; [contradiction|].
  assert (r = Ok tt).
  { destruct r as [[]|e| |]; [reflexivity| | |]; (destruct NR as [X _]; [discriminate|]; discriminate X). }
  subst r. clear NR.
  pose proof (rd_disk _ _ _ _ _ _ _ _ RD) as SD1. pose proof SD1 as (N1 & D1 & X1 & W1 & T1 & _).
  destruct (rd_input _ _ _ _ _ _ _ _ RD) as (i & plan & -> & SI & _).
  destruct (rd_key _ _ _ _ _ _ _ _ RD) as (t & YK).
  assert (LT : forall q i, stat (disk c) q = Some (NFile i) -> i < s_next (disk c)).
  { intros q j S. unfold stat in S. destruct (resolve true (disk c) q) as [y|]; [|discriminate S]. exact (IO _ _ S). }
  destruct (c_a c1) as [s1 tr] eqn:CA. assert (DC : disk c1 = s1) by (unfold disk; rewrite CA; reflexivity).
  rewrite DC in *. unfold unpack_execute in UX.
  set (req := mkUnpackReq _ hh raw _ _) in UX.
  assert (CW1 : lookup (s_nodes s1) (s_cwd s1) = Some NDir) by (rewrite N1, W1; exact CW).
  assert (LI : h_ino (ur_in req) < s_next s1) by (rewrite X1; exact (LT _ _ SI)).
  assert (LH : forall h, ur_hdr req = Some h -> h_ino h < s_next s1).
  { intros h E. change (hh = Some h) in E. subst hh. rewrite X1. pose proof (rd_header _ _ _ _ _ _ _ _ RD) as HD.
    destruct (cp_header p) as [hp|]; [|discriminate HD]. destruct HD as [HD|(j & pl & HD & SJ & _)]; [discriminate HD|].
    injection HD as ->. exact (LT _ _ SJ). }
  destruct (unpack_written _ _ _ _ _ req s1 tr a2 (inodes_disk _ _ SD1 IO) CW1 LI LH UX)
    as (zs & answers & temp & R & AI & ASK & SO & AW).
  change (ur_out req) with (parse_path output) in *. change (ur_ask req) with (ask_user V (cp_force p) verbose c1) in ASK.
  exists req, zs, answers, temp, t.
  split; [exact SI|]. split; [reflexivity|]. split; [exact YK|]. split.
  { pose proof (rd_rng _ _ _ _ _ _ _ _ RD) as RG. rewrite DC in RG. unfold temp_path in *. rewrite T1, RG in R.
    rewrite (resolve_disk false _ _ _ SD1) in R. exact R. }
  split; [exact (archive_in_disk _ _ _ _ _ _ _ SD1 AI)|]. split.
  { intros FP. unfold ask_user in ASK. rewrite FP in ASK.
    destruct (zip_questions _ Force verbose _ c1) as [[l|e| |] c2] eqn:ZQ; try discriminate ASK.
    injection ASK as <-. exact (forced_yes _ _ _ _ _ _ ZQ). }
  split; [rewrite (stat_disk _ _ _ SD); exact SO|].
  intros before q z later EQ. destruct (AW before q z later EQ) as [A1 A2]. split.
  - intros FD. rewrite (stat_disk _ _ _ SD). exact (A1 FD).
  - intros FD. destruct (A2 FD) as [OKz [X|(j & Sj & Dj)]]; (split; [exact OKz|]).
    + left. rewrite (resolve_disk true _ _ _ SD). exact X.
    + right. exists j. rewrite (stat_disk _ _ _ SD). split; [exact Sj|]. intros Q.
      destruct SD as (S1 & S2 & S3 & S4 & S5). rewrite S2. apply Dj. intros p2 z2 I2 F2.
      rewrite <- (stat_disk _ (disk c')) by (repeat split; assumption || apply S5). exact (Q p2 z2 I2 F2).
Qed.
