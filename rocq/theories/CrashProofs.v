(** Runs of encrypt and decrypt that are cut off. *)
From Coq Require Import List Arith NArith ZArith String Lia Bool.
From Verif Require Import Bytes Outcome IO Primitives Crypto EncDec FS Erase Archive Cli CliTools.
From Verif Require Import IOFacts FSSpec FSFacts ArchiveSpec EraseProofs CliSpec CliRuns CliCommands CliProofs FreshSpec.
From Verif Require Import CliToolsSpec CliToolsUnpack CrashSpec CrashLib CrashLog.
Import ListNotations.
Local Open Scope nat_scope.
Local Open Scope list_scope.

Lemma same_disk_files : forall s s', same_disk s s' -> same_files s s'.
Proof. intros s s' (A & B & C & D & E & F). repeat split; auto. intros j. rewrite B. reflexivity. Qed.

(** ** The log *)

Lemma unpack_told : forall V i o v p c o1 c', inodes_ok (disk c) ->
  unpack_cli V i o v p c = (o1, c') -> told (disk c) (disk c').
Proof.
  intros V i o v p c o1 c' IO H.
  destruct (unpack_cli_any _ _ _ _ _ _ _ _ H) as [(D & _)|(c1 & hi & hh & raw & r & a2 & RD & UX & D & _)].
  - apply told_same, same_disk_files, D.
  - eapply told_trans; [apply told_same, same_disk_files, (rd_disk _ _ _ _ _ _ _ _ RD)|].
    eapply told_trans; [|apply told_same, same_disk_files, D].
    eapply (a_unpack _ _ _ _ _ _ _ _ _) in UX; [exact UX|]. cbn [ur_hdr].
    intros h ->. pose proof (rd_header _ _ _ _ _ _ _ _ RD) as X.
    destruct (rd_disk _ _ _ _ _ _ _ _ RD) as (_ & _ & N & _). unfold disk in N |- *. rewrite N.
    destruct (cp_header p) as [hp|]; [|discriminate]. destruct X as [X|(j & plan & X & ST & _)]; [discriminate|].
    injection X as ->. cbn [h_ino]. unfold stat in ST. destruct (resolve true (disk c) (os_path hp)) as [q|]; [|discriminate].
    exact (IO _ _ ST).
Qed.

Lemma log_tells : forall V x c, alias_told V -> inodes_ok (disk c) -> told (disk c) (disk (path_run V x c)).
Proof.
  intros V x c VA IO. destruct x; cbn [path_run];
    match goal with |- told _ (disk (snd (?m c))) => destruct (m c) as [o1 c1] eqn:Y end; cbn [snd].
  - eapply c_command in Y; [exact Y|exact VA].
  - eapply c_tool in Y. exact Y.
  - eapply unpack_told; eauto.
  - apply c_details in Y. exact Y.
  - apply c_dump in Y. exact Y.
  - apply c_restore in Y. exact Y.
  - apply c_strip in Y. exact Y.
Qed.

(** ** Cut logs *)

(** The same files, whatever the log says. *)
Definition alike (s s' : sys) : Prop :=
  s_nodes s' = s_nodes s /\ (forall j, s_data s' j = s_data s j) /\ s_next s' = s_next s
  /\ s_cwd s' = s_cwd s /\ s_tmp s' = s_tmp s.
Lemma alike_refl : forall s, alike s s. Proof. intros s. repeat split. Qed.
Lemma alike_trans : forall a b c, alike a b -> alike b c -> alike a c.
Proof.
  intros a b c (A1 & A2 & A3 & A4 & A5) (B1 & B2 & B3 & B4 & B5). repeat split; congruence.
Qed.
Lemma alike_files : forall a b, same_files a b -> alike a b.
Proof. intros a b (A1 & A2 & A3 & A4 & A5 & _). repeat split; assumption. Qed.
Lemma redo1_alike : forall e a b, alike a b -> alike (redo1 a e) (redo1 b e).
Proof.
  intros e a b (A1 & A2 & A3 & A4 & A5). unfold alike, redo1. cbn. rewrite A1, A3, A4, A5. repeat split.
  intros j. unfold content_after. destruct e; rewrite ?A2; reflexivity.
Qed.
Lemma redo_alike : forall es a b, alike a b -> alike (redo es a) (redo es b).
Proof. induction es as [|e es IH]; intros a b H; [exact H|]. cbn. apply IH, redo1_alike, H. Qed.
Lemma alike_place : forall a b r, alike a b -> at_place b r = at_place a r.
Proof.
  intros a b r (A1 & A2 & _). unfold at_place. rewrite A1. destruct (lookup (s_nodes a) r) as [[|i|t]|]; auto.
  rewrite A2. reflexivity.
Qed.
Lemma alike_stat : forall a b p, alike a b -> stat b p = stat a p.
Proof.
  intros a b p (A1 & _ & _ & A4 & _). unfold stat. rewrite (resolve_nodes true a b p A1 A4), A1. reflexivity.
Qed.

Lemma swap_alike : forall i p l j q m s, i <> j ->
  alike (redo1 (redo1 s (FWrite i p l)) (FWrite j q m)) (redo1 (redo1 s (FWrite j q m)) (FWrite i p l)).
Proof.
  intros i p l j q m s N. repeat split. intros x. cbn.
  destruct (Nat.eqb_spec x i); destruct (Nat.eqb_spec x j); try congruence; reflexivity.
Qed.
Lemma shuffled_alike : forall es es', shuffled es es' -> forall s, alike (redo es s) (redo es' s).
Proof.
  intros es es' H. induction H as [es|a i p l j q m b es N H IH]; intros s; [apply alike_refl|].
  eapply alike_trans; [|apply IH]. rewrite !redo_app. cbn [redo fold_left].
  apply (redo_alike b), swap_alike, N.
Qed.

(** No writes in the second part. *)
Definition no_write (e : fsev) : Prop := match e with FWrite _ _ _ => False | _ => True end.
Lemma app_split : forall {A} (a b c d : list A), a ++ b = c ++ d ->
  (exists l, a = c ++ l /\ d = l ++ b) \/ (exists l, c = a ++ l /\ b = l ++ d).
Proof.
  intros A a. induction a as [|x a IH]; intros b c d H.
  - right. exists c. auto.
  - destruct c as [|y c].
    + left. exists (x :: a). auto.
    + injection H as -> H. destruct (IH _ _ _ H) as [(l & -> & ->)|(l & -> & ->)]; [left|right]; exists l; auto.
Qed.
Lemma shuffled_split : forall es es', shuffled es es' -> forall e1 e2, es = e1 ++ e2 -> Forall no_write e2 ->
  exists e1', es' = e1' ++ e2 /\ shuffled e1 e1'.
Proof.
  intros es es' H. induction H as [es|a i p l j q m b es N H IH]; intros e1 e2 E F.
  - exists e1. split; [exact E|constructor].
  - destruct (app_split _ _ _ _ E) as [(x & -> & ->)|(x & -> & X)].
    { exfalso. rewrite Forall_forall in F. apply (F (FWrite i p l)). apply in_or_app. right. left. reflexivity. }
    destruct x as [|w1 x].
    { exfalso. cbn in X. subst e2. inversion F as [|? ? F1 _]. exact F1. }
    injection X as <- X. destruct x as [|w2 x].
    { exfalso. cbn in X. subst e2. inversion F as [|? ? F1 _]. exact F1. }
    injection X as <- ->.
    destruct (IH (a ++ FWrite j q m :: FWrite i p l :: x) e2) as (e1' & E' & S').
    { rewrite <- app_assoc. reflexivity. }
    { exact F. }
    exists e1'. split; [exact E'|]. constructor; assumption.
Qed.
Lemma shuffled_forall : forall (P : fsev -> Prop) es es', shuffled es es' -> Forall P es -> Forall P es'.
Proof.
  intros P es es' H. induction H as [es|a i p l j q m b es N H IH]; intros F; [exact F|]. apply IH.
  rewrite Forall_forall in *. intros e I. apply F. apply in_app_or in I as [I|[I|[I|I]]]; apply in_or_app;
    [left|right; right; left|right; left|right; right; right]; assumption.
Qed.
Lemma cut_split : forall e1 e2 es, cut (e1 ++ e2) es -> Forall no_write e2 ->
  cut e1 es \/ exists x y, e2 = x ++ y /\ es = e1 ++ x.
Proof.
  intros e1 e2 es H F. inversion H as [a b E1|a i p l b n E1]; subst.
  - destruct (app_split _ _ _ _ E1) as [(x & -> & ->)|(x & -> & ->)].
    + right. exists x, b. auto.
    + left. constructor.
  - destruct (app_split _ _ _ _ E1) as [(x & -> & ->)|(x & -> & X)].
    + exfalso. rewrite Forall_forall in F. apply (F (FWrite i p l)). apply in_or_app. right. left. reflexivity.
    + destruct x as [|w x].
      * exfalso. cbn in X. subst e2. inversion F as [|? ? F1 _]. exact F1.
      * injection X as <- ->. left. constructor.
Qed.
Lemma cut_forall : forall s ts es es', cut es es' -> Forall (write_event s ts) es -> Forall (write_event s ts) es'.
Proof.
  intros s ts es es' H F. destruct H as [a b|a i p l b n].
  - apply Forall_app in F as [F _]. exact F.
  - apply Forall_app in F as [F G]. apply Forall_app. split; [exact F|]. inversion G as [|? ? G1 _]. constructor; [exact G1|constructor].
Qed.

(** ** While writing *)

Lemma ow_redo : forall s ts es, Forall (write_event s ts) es -> forall s1, only_writes s ts s1 ->
  only_writes s ts (redo es s1).
Proof.
  intros s ts es. induction es as [|e es IH]; intros F s1 W; [exact W|].
  inversion F as [|? ? F1 F2]; subst. cbn [redo fold_left]. apply IH; [exact F2|].
  destruct W as [W1 W2 W3 W4 W5 (es0 & A0 & F0)].
  assert (EV : exists es', added s (redo1 s1 e) es' /\ Forall (write_event s ts) es').
  { exists (es0 ++ [e]). split; [|apply Forall_app; auto]. unfold added in *. cbn. rewrite A0, app_assoc. reflexivity. }
  destruct e as [q j|q|j|j p l|q|q]; cbn [write_event] in F1; try contradiction; constructor; auto.
  - cbn. lia.
  - intros r. cbn. destruct (W4 r) as [E|(E & j' & E' & J)].
    + destruct (lookup (s_nodes s1) r) as [n|] eqn:L1.
      * left. rewrite <- E. destruct r as [|x r]; [exact L1|]. unfold lookup in *. rewrite find_app, L1. reflexivity.
      * destruct (cpath_eqb r q) eqn:Q.
        -- right. split; [congruence|]. exists j. split; [|lia]. apply cpath_eqb_eq in Q. subst r.
           rewrite lookup_add, cpath_eqb_refl by exact L1. reflexivity.
        -- left. rewrite <- E. destruct r as [|x r]; [discriminate|]. unfold lookup in *. rewrite find_app, L1. cbn [find_node].
           rewrite Q. reflexivity.
    + right. split; [exact E|]. exists j'. split; [|lia]. destruct r as [|x r]; [discriminate|]. unfold lookup in *.
      rewrite find_app, E'. reflexivity.
  - intros j' N. cbn. destruct (Nat.eqb_spec j' j) as [->|]; [|auto]. exfalso. apply N. left. exact F1.
  - intros j' N. cbn. destruct (Nat.eqb_spec j' j) as [->|]; [contradiction|auto].
  - intros j' N. cbn. destruct (Nat.eqb_spec j' j) as [->|]; [contradiction|auto].
Qed.

Lemma added_inj : forall s s' es es', added s s' es -> added s s' es' -> es = es'.
Proof. unfold added. intros s s' es es' A B. rewrite A in B. eapply app_inv_head, B. Qed.

(** While only the targets are written, the input is there. *)
Lemma writing_kept : forall s ts es es' es1 p i, Forall (write_event s ts) es -> shuffled es es' -> cut es' es1 ->
  stat s p = Some (NFile i) -> i < s_next s -> (forall t, In t ts -> stat s t <> Some (NFile i)) ->
  still_there s (redo es1 s) p i.
Proof.
  intros s ts es es' es1 p i F SH CU ST NI SEP.
  assert (W : only_writes s ts (redo es1 s)).
  { apply ow_redo; [|apply ow_refl]. eapply cut_forall; [exact CU|]. eapply shuffled_forall; eauto. }
  split; [exact (ow_stat_kept _ _ _ _ _ W ST)|]. exact (proj1 (ow_untouched _ _ _ _ W NI SEP)).
Qed.

(** ** While erasing *)

Lemma erase_places : forall s p i q s' x y, erase_stage s p i s' -> resolve false s p = Some q ->
  [FTrunc i; FTrunc i; FUnlink q] = x ++ y ->
  forall r j, r <> q -> j <> i -> lookup (s_nodes s) r = Some (NFile j) ->
  at_place (redo x s) r = Some (SFile j (s_data s j)) /\ at_place s' r = Some (SFile j (s_data s j)).
Proof.
  intros s p i q s' x y [SF OT _ NM] RQ E r j RN JN L.
  assert (QN : q <> []).
  { intros ->. pose proof (resolve_same s p [] NDir RQ eq_refl) as RT. unfold stat in SF.
    rewrite RT in SF by discriminate. discriminate. }
  split.
  - assert (G : lookup (s_nodes (redo x s)) r = Some (NFile j) /\ s_data (redo x s) j = s_data s j).
    { assert (JE : (j =? i) = false) by (apply Nat.eqb_neq; exact JN).
      destruct x as [|e1 [|e2 [|e3 [|e4 x]]]]; cbn in E; inversion E; subst;
        cbn [redo fold_left redo1 s_nodes s_data names_after content_after]; rewrite ?JE; try (split; [exact L|reflexivity]).
      split; [|reflexivity]. rewrite lookup_remove by exact QN. apply cpath_eqb_neq in RN. rewrite RN. exact L. }
    destruct G as [G1 G2]. unfold at_place. rewrite G1, G2. reflexivity.
  - assert (G : lookup (s_nodes s') r = Some (NFile j)).
    { destruct NM as [->|(q' & RQ' & ->)]; [exact L|]. assert (q' = q) by congruence. subst q'.
      rewrite lookup_remove by exact QN. apply cpath_eqb_neq in RN. rewrite RN. exact L. }
    unfold at_place. rewrite G, (OT j JN). reflexivity.
Qed.

Lemma killed_stages : forall s s1 s' ts p i k, only_writes s ts s1 -> told s s1 ->
  stat s p = Some (NFile i) -> i < s_next s -> (forall t, In t ts -> stat s t <> Some (NFile i)) ->
  killed s s' k ->
  (same_disk s1 s' -> still_there s k p i)
  /\ (erase_stage s1 p i s' -> still_there s k p i
       \/ forall t j, In t ts -> stat s1 t = Some (NFile j) -> as_finished s s' k t).
Proof.
  intros s s1 s' ts p i k W (e1 & SF) ST NI SEP (es & es1 & es2 & AD & SH & CU & ->).
  assert (A1 : added s s1 e1).
  { destruct SF as (_ & _ & _ & _ & _ & L). unfold added. rewrite L, redo_log. reflexivity. }
  assert (F1 : Forall (write_event s ts) e1).
  { destruct (ow_events _ _ _ W) as (ex & AX & FX). rewrite (added_inj _ _ _ _ A1 AX). exact FX. }
  split.
  - intros (_ & _ & _ & _ & _ & L). eapply writing_kept; [|exact SH|exact CU|exact ST|exact NI|exact SEP].
    replace es with e1; [exact F1|]. apply (added_inj s s'); [|exact AD]. unfold added in *. rewrite L. exact A1.
  - intros ER. destruct (es_events _ _ _ _ ER) as (q & ee & RQ & AE & IN).
    assert (ES : es = e1 ++ ee).
    { apply (added_inj s s'); [exact AD|]. unfold added in *. rewrite AE, A1, app_assoc. reflexivity. }
    assert (PRE : exists z, [FTrunc i; FTrunc i; FUnlink q] = ee ++ z).
    { destruct IN as [<-|[<-|[<-|[]]]]; eexists; reflexivity. }
    assert (NW : Forall no_write ee).
    { destruct IN as [<-|[<-|[<-|[]]]]; repeat constructor. }
    destruct (shuffled_split _ _ SH _ _ ES NW) as (e1' & -> & SH1).
    destruct (cut_split _ _ _ CU NW) as [C1|(x & y & -> & ->)].
    + left. eapply writing_kept; [exact F1|exact SH1|exact C1|exact ST|exact NI|exact SEP].
    + right. intros t j IT STJ. destruct PRE as (z & PRE). rewrite <- app_assoc in PRE.
      assert (JI : j <> i).
      { intros ->. destruct (ow_stat_new _ _ _ _ _ W STJ) as [X|(_ & j & X & L)]; [exact (SEP t IT X)|].
        injection X as <-. lia. }
      unfold stat in STJ. destruct (resolve true s1 t) as [r|] eqn:RT; [|discriminate].
      assert (RQN : r <> q).
      { intros ->. apply JI. pose proof (es_file _ _ _ _ ER) as SI. unfold stat in SI.
        rewrite (resolve_same _ _ _ _ RQ STJ) in SI by discriminate. congruence. }
      destruct (erase_places _ _ _ _ _ _ _ ER RQ PRE r j RQN JI STJ) as [P1 P2].
      exists r, j, (s_data s1 j). split; [rewrite <- (ow_resolve true _ _ _ t W); exact RT|]. split; [|exact P2].
      rewrite <- P1, redo_app. apply alike_place, redo_alike.
      (* the same files after the writes, in whatever order *)
      eapply alike_trans; [|apply shuffled_alike, SH1].
      apply alike_files in SF. destruct SF as (S1 & S2 & S3 & S4 & S5). repeat split; symmetry; auto.
Qed.

(** ** The commands *)

Lemma file_bound : forall s p i, inodes_ok s -> stat s p = Some (NFile i) -> i < s_next s.
Proof.
  intros s p i IO ST. unfold stat in ST. destruct (resolve true s p) as [q|]; [|discriminate]. exact (IO _ _ ST).
Qed.

Lemma erasing_killed : forall V input n force c1 o c' s ts i k, only_writes s ts (disk c1) -> told s (disk c1) ->
  stat s (os_path input) = Some (NFile i) -> i < s_next s ->
  (forall t, In t ts -> stat s t <> Some (NFile i)) ->
  (forall t, In t ts -> exists j, stat (disk c1) t = Some (NFile j)) ->
  secure_erase V input n force c1 = (o, c') -> killed s (disk c') k ->
  still_there s k (os_path input) i
  \/ ((o = Ok tt \/ exists e, o = Err (CErase e)) /\ forall t, In t ts -> as_finished s (disk c') k t).
Proof.
  intros V input n force c1 o c' s ts i k W TO ST NI SEP THERE SE K.
  destruct (two_stages_erase _ _ _ _ _ _ _ _ _ _ W ST SE) as (s1 & W1 & RES).
  pose proof (ow_stat_kept _ _ _ _ _ W ST) as ST1.
  destruct (killed_stages _ _ _ _ _ _ _ W TO ST NI SEP K) as [A B].
  destruct (secure_erase_file _ _ _ _ _ _ _ _ SE ST1) as [(-> & D & _)|(s2 & o1 & D & _ & ER & ->)].
  { left. exact (A D). }
  destruct (erase_stage_of _ _ _ _ _ _ _ D ST1 ER) as [(D' & ->)|(ES & _ & OUT)].
  { left. exact (A D'). }
  destruct (B ES) as [L|R]; [left; exact L|right].
  split.
  - destruct OUT as [(-> & _)|(e & ->)]; [left; reflexivity|right; cbn; eauto].
  - intros t IT. destruct (THERE t IT) as (j & STJ). exact (R t j IT STJ).
Qed.

Lemma encrypt_killed : forall V g c o c' input output i k, alias_told V -> inodes_ok (disk c) ->
  given g "input" input -> given g "output" output ->
  stat (disk c) (os_path input) = Some (NFile i) ->
  (forall t, In t (write_targets g output) -> stat (disk c) t <> Some (NFile i)) ->
  run_command V CmdEncrypt g c = (o, c') -> killed (disk c) (disk c') k ->
  still_there (disk c) k (os_path input) i
  \/ ((o = Ok tt \/ exists e, o = Err (CErase e))
      /\ forall t, In t (write_targets g output) -> as_finished (disk c) (disk c') k t).
Proof.
  intros V g c o c' input output i k VA IO GI GO ST SEP H K.
  pose proof (file_bound _ _ _ IO ST) as NI.
  assert (NE : input <> output).
  { intros ->. eapply SEP; [left; reflexivity|exact ST]. }
  destruct (encrypt_run _ _ _ _ _ _ _ GI GO NE H) as (p & n & o1 & c1 & PO & EM & RES).
  assert (TO : told (disk (printed n c)) (disk c1)) by exact (c_encrypt_main V VA _ _ _ _ _ _ _ EM).
  rewrite printed_disk in TO.
  destruct (encrypt_main_any _ _ _ _ _ _ _ _ EM) as (W & _ & OK).
  pose proof (header_targets_of _ _ _ _ output PO) as HT. rewrite HT, printed_disk in W.
  destruct RES as [(NO & -> & ->)|(-> & SE)].
  { left. destruct (killed_stages _ _ _ _ _ _ _ W TO ST NI SEP K) as [A _]. apply A, same_disk_refl. }
  eapply erasing_killed; [exact W|exact TO|exact ST|exact NI|exact SEP| |exact SE|exact K].
  destruct (OK eq_refl) as (i' & raw & hi & ho & hh & a1 & a2 & EN).
  intros t IT. rewrite <- HT in IT. destruct IT as [<-|IT].
  - exists (h_ino ho). apply (en_ho _ _ _ _ _ _ _ _ _ _ _ _ _ _ EN).
  - pose proof (en_hh _ _ _ _ _ _ _ _ _ _ _ _ _ _ EN) as EH. unfold header_targets in IT.
    destruct (cp_header p) as [hp|]; [|contradiction]. destruct IT as [<-|[]].
    destruct EH as (h & _ & STH & _). eauto.
Qed.

Lemma decrypt_killed : forall V g c o c' input output i k, alias_told V -> ce_debug V = false -> inodes_ok (disk c) ->
  given g "input" input -> given g "output" output ->
  stat (disk c) (os_path input) = Some (NFile i) -> stat (disk c) (os_path output) <> Some (NFile i) ->
  run_command V CmdDecrypt g c = (o, c') -> killed (disk c) (disk c') k ->
  still_there (disk c) k (os_path input) i
  \/ ((o = Ok tt \/ exists e, o = Err (CErase e)) /\ as_finished (disk c) (disk c') k (os_path output)).
Proof.
  intros V g c o c' input output i k VA DB IO GI GO ST SEP H K.
  pose proof (file_bound _ _ _ IO ST) as NI.
  assert (NE : input <> output) by (intros ->; contradiction).
  assert (SEP' : forall t, In t [os_path output] -> stat (disk c) t <> Some (NFile i)).
  { intros t [<-|[]]. exact SEP. }
  destruct (decrypt_run _ _ _ _ _ _ _ DB GI GO NE H) as (p & n & o1 & c1 & PO & EM & RES).
  assert (TO : told (disk (printed n c)) (disk c1)) by exact (c_decrypt_main V VA _ _ _ _ _ _ EM).
  rewrite printed_disk in TO.
  destruct (decrypt_main_any _ _ _ _ _ _ _ EM) as (W & _ & OK). rewrite printed_disk in W.
  destruct RES as [(NO & -> & ->)|(-> & SE)].
  { left. destruct (killed_stages _ _ _ _ _ _ _ W TO ST NI SEP' K) as [A _]. apply A, same_disk_refl. }
  assert (G : still_there (disk c) k (os_path input) i
    \/ ((o = Ok tt \/ exists e, o = Err (CErase e)) /\ forall t, In t [os_path output] -> as_finished (disk c) (disk c') k t)).
  { eapply erasing_killed; [exact W|exact TO|exact ST|exact NI|exact SEP'| |exact SE|exact K].
    destruct (OK eq_refl) as (i' & raw & hi & ho & hh & a1 & a2 & EN).
    intros t [<-|[]]. exists (h_ino ho). apply (de_ho _ _ _ _ _ _ _ _ _ _ _ _ _ EN). }
  destruct G as [G|[G1 G2]]; [left; exact G|right]. split; [exact G1|]. apply G2. left. reflexivity.
Qed.

(** Files as the finished run leaves them. *)
Lemma finished_kept : forall V g output s s' k raw pt, kept_encrypted V g output s s' raw pt ->
  (forall t, In t (write_targets g output) -> as_finished s s' k t) -> kept_encrypted V g output s k raw pt.
Proof.
  intros V g output s s' k raw pt (q & i & ct & R & P & G) F.
  destruct (F (os_path output) (or_introl eq_refl)) as (q1 & j1 & l1 & R1 & K1 & P1).
  assert (q1 = q) by congruence. subst q1. rewrite P in P1. injection P1 as <- <-.
  exists q, i, ct. split; [exact R|]. split; [exact K1|].
  destruct (g "header"%string) as [|h r] eqn:GH; [exact G|].
  destruct G as (qh & j & hdr & RH & PH & REC).
  assert (IT : In (os_path h) (write_targets g output)).
  { unfold write_targets. rewrite GH. right. left. reflexivity. }
  destruct (F _ IT) as (q2 & j2 & l2 & R2 & K2 & P2).
  assert (q2 = qh) by congruence. subst q2. rewrite PH in P2. injection P2 as <- <-.
  exists qh, j, hdr. split; [exact RH|]. split; [exact K2|exact REC].
Qed.

(** Without failures, erasing succeeds. *)
Lemma encrypt_erases : forall V g c e c' input output i, no_faults (disk c) ->
  given g "input" input -> given g "output" output -> input <> output ->
  stat (disk c) (os_path input) = Some (NFile i) ->
  run_command V CmdEncrypt g c <> (Err (CErase e), c').
Proof.
  intros V g c e c' input output i NF GI GO NE ST H.
  destruct (encrypt_run _ _ _ _ _ _ _ GI GO NE H) as (p & n & o1 & c1 & PO & EM & RES).
  destruct (encrypt_main_any _ _ _ _ _ _ _ _ EM) as (W & NER & OK). rewrite printed_disk in W.
  pose proof (ow_stat_kept _ _ _ _ _ W ST) as ST1.
  destruct RES as [(NO & <- & _)|(-> & SE)].
  { exact (proj1 (NER _ eq_refl e) eq_refl). }
  destruct (OK eq_refl) as (i' & raw & hi & ho & hh & a1 & a2 & EN).
  destruct (en_calm _ _ _ _ _ _ _ _ _ _ _ _ _ _ EN NF) as (NF1 & _).
  destruct (secure_erase_file _ _ _ _ _ _ _ _ SE ST1) as [(_ & _ & X)|(s1 & oe & D & C & ER & E)]; [contradiction|].
  rewrite (C NF1) in ER. destruct (erase_holds _ _ _ _ _ ER) as (_ & _ & _ & CALM & _).
  rewrite (CALM _ NF1 ST1) in E. discriminate.
Qed.

Lemma encrypt_killed_keeps : forall V g c o c' input output i k, alias_told V ->
  env_ok (ce_E V) -> no_faults (disk c) -> inodes_ok (disk c) ->
  given g "input" input -> given g "output" output ->
  stat (disk c) (os_path input) = Some (NFile i) ->
  (forall t, In t (write_targets g output) -> stat (disk c) t <> Some (NFile i)) ->
  (forall h, given g "header" h -> different (disk c) (os_path output) (os_path h)) ->
  run_command V CmdEncrypt g c = (o, c') -> killed (disk c) (disk c') k ->
  still_there (disk c) k (os_path input) i
  \/ exists raw, key_taken V CmdEncrypt g Validate c output raw
       /\ kept_encrypted V g output (disk c) k raw (s_data (disk c) i).
Proof.
  intros V g c o c' input output i k VA HE NF IO GI GO ST SEP DIF H K.
  destruct (encrypt_keeps _ _ _ _ _ _ _ _ HE NF IO GI GO ST SEP DIF H) as [A B].
  destruct (encrypt_killed _ _ _ _ _ _ _ _ _ VA IO GI GO ST SEP H K) as [L|[O F]]; [left; exact L|].
  destruct O as [->|(e & ->)].
  - destruct (B eq_refl) as (_ & raw & KT & KE). right. exists raw. split; [exact KT|]. eapply finished_kept; eauto.
  - exfalso. apply (encrypt_erases V g c e c' input output i NF GI GO); [|exact ST|exact H].
    intros ->. exact (SEP _ (or_introl eq_refl) ST).
Qed.
