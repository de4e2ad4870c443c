(** Proofs about the runs of encrypt and decrypt. *)
From Coq Require Import List Arith NArith ZArith String Bool Lia.
From Verif Require Import Bytes Outcome IO IOFacts Primitives Crypto Header Stream KeyModel EncDec.
From Verif Require Import Overwrite Hash FS FSSpec FSFacts Erase EraseProofs Archive ArchiveSpec
  ArchiveProofs UnpackProofs PackProofs RestoreProofs ToolSpec ToolProofs Cli CliSpec CliKeys.
Import ListNotations.
Local Open Scope nat_scope.
Local Open Scope list_scope.

(** ** [only_writes] *)

Lemma ow_disk : forall s ts s', same_disk s s' -> only_writes s ts s'.
Proof.
  intros s ts s' (N & D & X & C & T & L). constructor.
  - exact C.
  - exact T.
  - lia.
  - intros r. left. rewrite N. reflexivity.
  - intros j _. rewrite D. reflexivity.
  - exists []. split; [unfold added; rewrite L, app_nil_r; reflexivity|constructor].
Qed.
Lemma ow_refl : forall s ts, only_writes s ts s.
Proof. intros. apply ow_disk. apply same_disk_refl. Qed.

Lemma ow_lost : forall s ts s', only_writes s ts s' -> lost_files (s_nodes s') (s_nodes s).
Proof.
  intros s ts s' W r. destruct (ow_nodes _ _ _ W r) as [E|(N & j & E & _)].
  - left. congruence.
  - right. split; [exact N|]. exists j. exact E.
Qed.
Lemma ow_resolve : forall f s ts s' p, only_writes s ts s' -> resolve f s' p = resolve f s p.
Proof.
  intros f s ts s' p W. symmetry. apply resolve_lost_files; [eapply ow_lost; eauto|].
  symmetry. apply (ow_cwd _ _ _ W).
Qed.
Lemma ow_stat_kept : forall s ts s' p n, only_writes s ts s' -> stat s p = Some n -> stat s' p = Some n.
Proof.
  intros s ts s' p n W. unfold stat. rewrite (ow_resolve true s ts s' p W).
  destruct (resolve true s p) as [q|]; [|discriminate]. intros L.
  destruct (ow_nodes _ _ _ W q) as [E|(N & _)]; congruence.
Qed.
Lemma ow_stat_new : forall s ts s' p n, only_writes s ts s' -> stat s' p = Some n ->
  stat s p = Some n \/ (stat s p = None /\ exists j, n = NFile j /\ s_next s <= j < s_next s').
Proof.
  intros s ts s' p n W. unfold stat. rewrite (ow_resolve true s ts s' p W).
  destruct (resolve true s p) as [q|]; [|discriminate]. intros L.
  destruct (ow_nodes _ _ _ W q) as [E|(N & j & E & J)]; [left; congruence|].
  right. split; [exact N|]. exists j. split; [congruence|exact J].
Qed.

Lemma ow_more : forall s ts s1 s2, only_writes s ts s1 ->
  s_cwd s2 = s_cwd s1 -> s_tmp s2 = s_tmp s1 -> s_next s1 <= s_next s2 ->
  (forall r, lookup (s_nodes s2) r = lookup (s_nodes s1) r
    \/ (lookup (s_nodes s1) r = None
        /\ exists j, lookup (s_nodes s2) r = Some (NFile j) /\ s_next s1 <= j < s_next s2)) ->
  (forall j, ~ may_write s ts j -> s_data s2 j = s_data s1 j) ->
  (exists es, added s1 s2 es /\ Forall (write_event s ts) es) ->
  only_writes s ts s2.
Proof.
  intros s ts s1 s2 W C T X N D (es & A & F).
  constructor.
  - rewrite C. apply (ow_cwd _ _ _ W).
  - rewrite T. apply (ow_tmp _ _ _ W).
  - pose proof (ow_next _ _ _ W). lia.
  - intros r. destruct (ow_nodes _ _ _ W r) as [E1|(N1 & j & E1 & J1)].
    + destruct (N r) as [E2|(N2 & j & E2 & J2)]; [left; congruence|].
      right. split; [congruence|]. exists j. pose proof (ow_next _ _ _ W). split; [exact E2|lia].
    + right. split; [exact N1|]. destruct (N r) as [E2|(N2 & _)]; [|congruence].
      exists j. split; [congruence|lia].
  - intros j NJ. rewrite (D j NJ). apply (ow_data _ _ _ W j NJ).
  - destruct (ow_events _ _ _ W) as (es1 & A1 & F1). exists (es1 ++ es).
    split; [unfold added in *; rewrite A, A1, app_assoc; reflexivity|]. apply Forall_app. auto.
Qed.

Lemma ow_then_disk : forall s ts s1 s2, only_writes s ts s1 -> same_disk s1 s2 -> only_writes s ts s2.
Proof.
  intros s ts s1 s2 W (N & D & X & C & T & L). eapply ow_more; [exact W|exact C|exact T|lia| | |].
  - intros r. left. rewrite N. reflexivity.
  - intros j _. rewrite D. reflexivity.
  - exists []. split; [unfold added; rewrite L, app_nil_r; reflexivity|constructor].
Qed.

Lemma ow_then_tree : forall s ts s1 s2, only_writes s ts s1 -> same_tree s1 s2 ->
  (forall j, ~ may_write s ts j -> s_data s2 j = s_data s1 j) ->
  (exists es, added s1 s2 es /\ Forall (write_event s ts) es) ->
  only_writes s ts s2.
Proof.
  intros s ts s1 s2 W (N & C & T & X & _ & _) D A. eapply ow_more; eauto; try lia.
  intros r. left. rewrite N. reflexivity.
Qed.

(** ** Opening for writing *)

Lemma create_or_write_any : forall p s o s', create_or_write p s = (o, s') ->
  (exists e, o = Err e /\ same_disk s s')
  \/ exists h, o = Ok (EFile h) /\ h_path h = p /\ h_pos h = 0 /\ s_data s' (h_ino h) = []
     /\ s_cwd s' = s_cwd s /\ s_tmp s' = s_tmp s /\ s_rng s' = s_rng s
     /\ (forall j, j <> h_ino h -> s_data s' j = s_data s j)
     /\ (no_faults s -> no_faults s' /\ h_plan h = [])
     /\ ((exists q, resolve false s p = Some q /\ lookup (s_nodes s) q = None
            /\ h_ino h = s_next s /\ s_next s' = S (s_next s)
            /\ s_nodes s' = s_nodes s ++ [(q, NFile (s_next s))]
            /\ added s s' [FCreate q (s_next s)])
         \/ (stat s p = Some (NFile (h_ino h)) /\ s_next s' = s_next s
             /\ s_nodes s' = s_nodes s /\ added s s' [FTrunc (h_ino h)])).
Proof.
  intros p s o s' H. unfold create_or_write, or_else in H.
  destruct (create_file p s) as [r s1] eqn:CF.
  destruct (create_file_any _ _ _ _ CF) as [(-> & D & C)|(q & plan & R & L & -> & N & DT & X & CW & T & G & LG & C)].
  - destruct (write_file_any _ _ _ _ H) as [(-> & D2 & _)|(i & plan & sa & sb & ST & -> & D2 & -> & D3 & RG & C2)].
    + left. exists StOpenWrite. split; [reflexivity|]. eapply same_disk_trans; eauto.
    + right. exists (mkHandle p i 0 plan). cbn [h_ino h_path h_pos h_plan].
      assert (D4 : same_disk s sa) by (eapply same_disk_trans; eauto).
      destruct D3 as (E1 & E2 & E3 & E4 & E5 & E6), D4 as (F1 & F2 & F3 & F4 & F5 & F6).
      cbn [with_data s_nodes s_data s_next s_cwd s_tmp s_log] in *.
      split; [reflexivity|]. split; [reflexivity|]. split; [reflexivity|].
      split; [rewrite E2; apply set_data_eq|]. split; [congruence|]. split; [congruence|].
      split; [unfold create_file, call_or in CF; destruct (next_fault s) as [b sx] eqn:NF;
              destruct (next_fault_spec _ _ _ NF) as (_ & RR & _); clear - CF RR RG;
              rewrite RG, <- RR; destruct b;
              [injection CF as <-; reflexivity|];
              destruct (resolve false sx p) as [q|]; [|injection CF as <-; reflexivity];
              destruct (lookup (s_nodes sx) q); [injection CF as <-; reflexivity|];
              unfold new_handle in CF; destruct (next_plan _); discriminate|].
      split; [intros j NJ; rewrite E2, set_data_neq by exact NJ; rewrite F2; reflexivity|].
      split.
      { intros NF. destruct (C NF) as [-> _]. destruct (C2 NF) as (-> & -> & ->).
        split; [|reflexivity]. split; cbn; apply NF. }
      right. split; [rewrite <- (stat_disk s s1 p D); exact ST|]. split; [congruence|].
      split; [congruence|]. unfold added. congruence.
  - injection H as <- <-. right. exists (mkHandle p (s_next s) 0 plan). cbn [h_ino h_path h_pos h_plan].
    split; [reflexivity|]. split; [reflexivity|]. split; [reflexivity|].
    split; [rewrite DT; apply set_data_eq|]. split; [exact CW|]. split; [exact T|]. split; [exact G|].
    split; [intros j NJ; rewrite DT; apply set_data_neq; exact NJ|].
    split; [intros NF; destruct (C NF); auto|].
    left. exists q. repeat split; auto.
Qed.

Lemma ow_create_or_write : forall s ts s1 p o s2, only_writes s ts s1 -> In p ts ->
  create_or_write p s1 = (o, s2) ->
  only_writes s ts s2 /\ (forall h, o = Ok (EFile h) -> may_write s ts (h_ino h)).
Proof.
  intros s ts s1 p o s2 W I H.
  destruct (create_or_write_any _ _ _ _ H)
    as [(e & -> & D)|(h & -> & HP & PO & DE & CW & T & G & D & C & [(q & R & L & HI & X & N & A)|(ST & X & N & A)])].
  - split; [eapply ow_then_disk; eauto|discriminate].
  - assert (MW : may_write s ts (h_ino h)).
    { left. rewrite HI. apply (ow_next _ _ _ W). }
    split; [|intros h' E; injection E as <-; exact MW].
    eapply ow_more; [exact W|exact CW|exact T|lia| | |].
    + intros r. rewrite N, lookup_add by exact L. destruct (cpath_eqb r q) eqn:E; [|auto].
      apply cpath_eqb_eq in E. subst r. right. split; [exact L|]. exists (s_next s1). split; [reflexivity|lia].
    + intros j NJ. apply D. intros EJ. rewrite EJ in NJ. contradiction.
    + eexists. split; [exact A|]. constructor; [|constructor]. cbn. apply (ow_next _ _ _ W).
  - assert (MW : may_write s ts (h_ino h)).
    { destruct (ow_stat_new _ _ _ _ _ W ST) as [E|(_ & j & E & J)].
      - right. exists p. auto.
      - left. injection E as ->. lia. }
    split; [|intros h' E; injection E as <-; exact MW].
    eapply ow_more; [exact W|exact CW|exact T|lia| | |].
    + intros r. left. rewrite N. reflexivity.
    + intros j NJ. apply D. intros EJ. rewrite EJ in NJ. contradiction.
    + eexists. split; [exact A|]. constructor; [|constructor]. exact MW.
Qed.

(** ** Encrypting and decrypting open files *)

Lemma alias_frame : forall V ws a o a', alias V ws a = (o, a') ->
  same_tree (fst a) (fst a') /\ (forall j, ~ In j ws -> s_data (fst a') j = s_data (fst a) j)
  /\ (exists es, added (fst a) (fst a') es
        /\ Forall (fun e => match e with FWrite j _ _ => In j ws | _ => False end) es)
  /\ (forall e, o = Err e -> e = CAlias).
Proof.
  intros V ws a o a' H. unfold alias in H.
  injection H as <- <-. cbn [fst].
  assert (AM : forall j, existsb (Nat.eqb j) ws = true <-> In j ws).
  { intros j. rewrite existsb_exists. split.
    - intros (x & I & E). apply Nat.eqb_eq in E. subst. exact I.
    - intros I. exists j. split; [exact I|apply Nat.eqb_refl]. }
  split; [repeat split|]. split.
  - intros j NI. cbn [s_data]. destruct (existsb (Nat.eqb j) ws) eqn:E; [|reflexivity].
    apply AM in E. contradiction.
  - split.
    + eexists. split; [unfold added; cbn [s_log]; reflexivity|]. apply Forall_forall. intros e I.
      apply in_map_iff in I. destruct I as (w & <- & I). apply filter_In in I. destruct I as [_ I].
      apply AM. exact I.
    + intros e. destruct (al_outcome (ce_alias V a)); try discriminate. intros E. injection E as <-. reflexivity.
Qed.

Definition enc_error_of (e : cli_error) : Prop := e = CAlias \/ exists x, e = CEncrypt x.
Definition dec_error_of (e : cli_error) : Prop := e = CAlias \/ exists x, e = CDecrypt x.

Lemma encrypt_files_frame : forall V req hi ho hh a o a', encrypt_files V req hi ho hh a = (o, a') ->
  same_tree (fst a) (fst a')
  /\ (forall j, ~ In j (written ho hh) -> s_data (fst a') j = s_data (fst a) j)
  /\ (exists es, added (fst a) (fst a') es
        /\ Forall (fun e => match e with FWrite j _ _ => In j (written ho hh) | _ => False end) es)
  /\ (forall e, o = Err e -> enc_error_of e).
Proof.
  intros V req hi ho hh a o a' H. unfold encrypt_files in H.
  destruct (same_file ho hi || same_opt ho hh || same_opt hi hh)%bool eqn:AL.
  - destruct (alias_frame _ _ _ _ _ H) as (A & B & C & D). repeat (split; [assumption|]).
    intros e E. left. auto.
  - apply orb_false_iff in AL. destruct AL as [AL A3]. apply orb_false_iff in AL. destruct AL as [A1 A2].
    unfold same_file in A1. apply Nat.eqb_neq in A1.
    unfold map_err in H.
    destruct (run_world (encrypt_execute (ce_E V) req) hi ho hh a) as [[r [h1 h2]] a1] eqn:RW.
    assert (BS : 0 < BLOCK_SIZE) by (apply Nat.ltb_lt; reflexivity).
    destruct (encrypt_world _ _ _ _ _ _ _ _ _ _ _ BS RW) as (ST & _ & _ & _ & D & es & L & F).
    { exact A1. }
    { intros x ->. cbn in A3. unfold same_file in A3. apply Nat.eqb_neq in A3. auto. }
    assert (X : a' = a1 /\ forall e, o = Err e -> enc_error_of e).
    { destruct r; injection H as <- <-; split; try reflexivity; try discriminate.
      intros e' E. injection E as <-. right. eauto. }
    destruct X as [-> X]. split; [exact ST|]. split.
    { intros j NI. apply D.
      - intros ->. apply NI. left. reflexivity.
      - intros x -> ->. apply NI. right. left. reflexivity. }
    split; [|exact X]. exists es. split; [exact L|]. eapply Forall_impl; [|exact F].
    intros e. destruct e; auto. intros [->|(x & -> & ->)]; cbn; auto.
Qed.

Lemma decrypt_files_frame : forall V k hi ho hh a o a', decrypt_files V k hi ho hh a = (o, a') ->
  same_tree (fst a) (fst a')
  /\ (forall j, j <> h_ino ho -> s_data (fst a') j = s_data (fst a) j)
  /\ (exists es, added (fst a) (fst a') es
        /\ Forall (fun e => match e with FWrite j _ _ => j = h_ino ho | _ => False end) es)
  /\ (forall e, o = Err e -> dec_error_of e).
Proof.
  intros V k hi ho hh a o a' H. unfold decrypt_files in H.
  destruct (same_file ho hi || same_opt ho hh)%bool eqn:AL.
  - destruct (alias_frame _ _ _ _ _ H) as (A & B & (es & C & F) & D). split; [exact A|].
    split; [intros j NJ; apply B; intros [X|[]]; auto|].
    split; [|intros e E; left; auto].
    exists es. split; [exact C|]. eapply Forall_impl; [|exact F].
    intros e. destruct e; auto. intros [X|[]]. auto.
  - unfold map_err in H.
    destruct (run_world (decrypt_execute (ce_E V) (is_some hh) k) hi ho hh a) as [[r [h1 h2]] a1] eqn:RW.
    destruct (decrypt_world _ _ _ _ _ _ _ _ _ _ _ _ RW) as (ST & _ & _ & _ & D & ws & L & _).
    assert (X : a' = a1 /\ forall e, o = Err e -> dec_error_of e).
    { destruct r; injection H as <- <-; split; try reflexivity; try discriminate.
      intros e' E. injection E as <-. right. eauto. }
    destruct X as [-> X]. split; [exact ST|]. split; [exact D|]. split; [|exact X].
    eexists. split; [exact L|]. apply Forall_forall. intros e I. apply in_map_iff in I.
    destruct I as (w & <- & _). reflexivity.
Qed.

(** ** Stages *)

Definition set_disk (s : sys) (c : cli) : cli :=
  mkCli (s, snd (c_a c)) (c_stdin c) (c_tty c) (c_out c).
Definition set_a (a : asys) (c : cli) : cli := mkCli a (c_stdin c) (c_tty c) (c_out c).

Definition omap {E E' A} (f : E -> E') (o : outcome E A) : outcome E' A :=
  match o with Ok a => Ok a | Err e => Err (f e) | Panic => Panic | Diverge => Diverge end.

Lemma map_err_run : forall {S E E' A} (f : E -> E') (m : M S E A) s,
  map_err f m s = (omap f (fst (m s)), snd (m s)).
Proof. intros. unfold map_err. destruct (m s) as [[| | |] s1]; reflexivity. Qed.

Lemma on_fs_run : forall {E A} (m : M sys E A) c,
  on_fs m c = (fst (m (disk c)), set_disk (snd (m (disk c))) c).
Proof.
  intros. unfold on_fs, on_a, zoom, on_sys, zoom, disk. destruct (m (fst (c_a c))) as [o s]. reflexivity.
Qed.
Lemma on_a_run : forall {E A} (m : M asys E A) c,
  on_a m c = (fst (m (c_a c)), set_a (snd (m (c_a c))) c).
Proof. intros. unfold on_a, zoom. destruct (m (c_a c)) as [o s]. reflexivity. Qed.

Lemma storage_run : forall {A} (m : M sys st_error A) c,
  storage m c = (omap CStorage (fst (m (disk c))), set_disk (snd (m (disk c))) c).
Proof. intros. unfold storage. rewrite on_fs_run, map_err_run. reflexivity. Qed.

Lemma storage_inv : forall {A} (m : M sys st_error A) c o c', storage m c = (o, c') ->
  exists r s', m (disk c) = (r, s') /\ o = omap CStorage r /\ c' = set_disk s' c.
Proof.
  intros A m c o c' H. rewrite storage_run in H. destruct (m (disk c)) as [r s'] eqn:E.
  injection H as <- <-. eauto.
Qed.

Lemma bind_assoc : forall {S E A B C} (m : M S E A) (f : A -> M S E B) (g : B -> M S E C) s,
  bind (bind m f) g s = bind m (fun x => bind (f x) g) s.
Proof. intros. unfold bind. destruct (m s) as [[| | |] s1]; reflexivity. Qed.
Lemma bind_congr : forall {S E A B} (m : M S E A) (f g : A -> M S E B) s,
  (forall x s', f x s' = g x s') -> bind m f s = bind m g s.
Proof. intros S E A B m f g s H. unfold bind. destruct (m s) as [[| | |] s1]; auto. Qed.

(** The parts of encrypting and decrypting before the input is erased. *)
Definition encrypt_main (V : cenv) (input output : string) (p : crypto_params) (a : algorithm)
  : M cli cli_error unit :=
  check_or_exit output (cp_force p) ;;
  fi <- storage (read_file (os_path input)) ;;
  raw_key <- get_secret V (cp_key p) Validate ;;
  fo <- storage (create_or_write (os_path output)) ;;
  fh <- open_header p ;;
  hi <- try_handle fi ;;
  ho <- try_handle fo ;;
  on_a (encrypt_files V (mkEncReq (is_some (ok_handle fh)) raw_key (mkHT V5 a StreamMode) (cp_hashing p))
                      hi ho (ok_handle fh)) ;;
  flush_opt fh ;;
  storage (flush_file fo) ;;
  (if cp_hash p then hash_files V [output] else ret tt).
Definition decrypt_main (V : cenv) (input output : string) (p : crypto_params)
  : M cli cli_error unit :=
  check_or_exit output (cp_force p) ;;
  fi <- storage (read_file (os_path input)) ;;
  fh <- read_header p ;;
  raw_key <- get_secret V (cp_key p) Direct ;;
  fo <- storage (create_or_write (os_path output)) ;;
  hi <- try_handle fi ;;
  ho <- try_handle fo ;;
  on_a (decrypt_files V raw_key hi ho (ok_handle fh)) ;;
  storage (flush_file fo) ;;
  (if cp_hash p then hash_files V [input] else ret tt).
Definition finish (V : cenv) (input : string) (p : crypto_params) : M cli cli_error unit :=
  match cp_erase p with
  | Some passes => secure_erase V input passes (cp_force p)
  | None => ret tt
  end.

Ltac regroup := repeat (rewrite bind_assoc; apply bind_congr; intros); reflexivity.

Lemma encrypt_stream_eq : forall V input output p a c, input <> output ->
  encrypt_stream V input output p a c
  = bind (encrypt_main V input output p a) (fun _ => finish V input p) c.
Proof.
  intros V input output p a c NE. unfold encrypt_stream, encrypt_main.
  apply String.eqb_neq in NE. rewrite NE. symmetry. regroup.
Qed.
Lemma decrypt_stream_eq : forall V input output p c, input <> output ->
  decrypt_stream V input output p c
  = bind (decrypt_main V input output p) (fun _ => finish V input p) c.
Proof.
  intros V input output p c NE. unfold decrypt_stream, decrypt_main.
  apply String.eqb_neq in NE. rewrite NE. symmetry. regroup.
Qed.

(** ** Reading *)

Lemma read_file_any : forall p s o s', read_file p s = (o, s') ->
  same_disk s s' /\ (no_faults s -> s' = s)
  /\ ((o = Ok (EDir p) /\ stat s p = Some NDir)
      \/ (exists i plan, o = Ok (EFile (mkHandle p i 0 plan)) /\ stat s p = Some (NFile i)
            /\ (no_faults s -> plan = []))
      \/ (o = Err StOpenRead /\ (no_faults s -> forall n, stat s p = Some n ->
            exists t, n = NLink t))).
Proof.
  intros p s o s' H. unfold read_file, is_dir in H.
  destruct (stat s p) as [n|] eqn:ST.
  - destruct n as [|i|t].
    + injection H as <- <-. split; [apply same_disk_refl|]. auto.
    + destruct (call_or_inv _ _ _ _ _ H) as (s1 & D & _ & PL & C & [(-> & -> & NF)|HM]).
      * split; [exact D|]. split; [intros [F _]; contradiction|]. right. right. split; [reflexivity|].
        intros [F _]. contradiction.
      * rewrite (stat_disk s s1 p D), ST in HM. unfold new_handle in HM.
        destruct (next_plan s1) as [plan s2] eqn:NP. injection HM as <- <-.
        destruct (next_plan_spec _ _ _ NP) as (D2 & _ & _ & C2).
        split; [eapply same_disk_trans; eauto|].
        split; [intros [F P]; rewrite (C F) in *; apply C2; exact P|].
        right. left. exists i, plan. split; [reflexivity|]. split; [reflexivity|].
        intros [F P]. rewrite (C F) in *. apply C2. exact P.
    + destruct (call_or_inv _ _ _ _ _ H) as (s1 & D & _ & PL & C & [(-> & -> & NF)|HM]).
      * split; [exact D|]. split; [intros [F _]; contradiction|]. right. right. split; [reflexivity|].
        intros [F _]. contradiction.
      * rewrite (stat_disk s s1 p D), ST in HM. injection HM as <- <-.
        split; [exact D|]. split; [intros [F _]; apply C; exact F|]. right. right. split; [reflexivity|].
        intros _ n E. injection E as <-. eauto.
  - destruct (call_or_inv _ _ _ _ _ H) as (s1 & D & _ & PL & C & [(-> & -> & NF)|HM]).
    + split; [exact D|]. split; [intros [F _]; contradiction|]. right. right. split; [reflexivity|].
      intros [F _]. contradiction.
    + rewrite (stat_disk s s1 p D), ST in HM. injection HM as <- <-.
      split; [exact D|]. split; [intros [F _]; apply C; exact F|]. right. right. split; [reflexivity|].
      discriminate.
Qed.

Lemma flush_file_any : forall e s o s', flush_file e s = (o, s') ->
  same_disk s s' /\ o <> Panic /\ o <> Diverge
  /\ (no_faults s -> s' = s /\ forall h, e = EFile h -> o = Ok tt).
Proof.
  intros e s o s' H. unfold flush_file in H. destruct e as [h|p].
  - destruct (call_or_inv _ _ _ _ _ H) as (s1 & D & _ & PL & C & [(-> & -> & NF)|HM]).
    + split; [exact D|]. repeat (split; [discriminate|]). intros [F _]. contradiction.
    + injection HM as <- <-. split; [exact D|]. repeat (split; [discriminate|]).
      intros [F _]. split; [apply C; exact F|auto].
  - injection H as <- <-. split; [apply same_disk_refl|]. repeat (split; [discriminate|]).
    intros _. split; [reflexivity|discriminate].
Qed.

Definition hash_error_of (e : cli_error) : Prop := e = CHashOpen \/ exists x, e = CHash x.

Lemma hash_file_any : forall V p s o s', hash_file V p s = (o, s') ->
  same_disk s s' /\ (forall e, o = Err e -> hash_error_of e) /\ o <> Panic /\ o <> Diverge
  /\ (no_faults s -> s' = s /\ forall i, stat s p = Some (NFile i) ->
        o = Ok (hex_encode (ce_blake3 V (s_data s i)))).
Proof.
  intros V p s o s' H. unfold hash_file in H.
  destruct (call_or_inv _ _ _ _ _ H) as (s1 & D & _ & PL & C & [(-> & -> & NF)|HM]).
  { split; [exact D|]. split; [intros e E; injection E as <-; left; reflexivity|].
    repeat (split; [discriminate|]). intros [F _]. contradiction. }
  rewrite (stat_disk s s1 p D) in HM.
  assert (BAD : forall e, (forall i, stat s p <> Some (NFile i)) -> hash_error_of e ->
     (Err e, s1) = (o, s') ->
     same_disk s s' /\ (forall e, o = Err e -> hash_error_of e) /\ o <> Panic /\ o <> Diverge
     /\ (no_faults s -> s' = s /\ forall i, stat s p = Some (NFile i) ->
        o = Ok (hex_encode (ce_blake3 V (s_data s i))))).
  { intros e NS HE E. injection E as <- <-. split; [exact D|].
    split; [intros x X; injection X as <-; exact HE|]. repeat (split; [discriminate|]).
    intros [F _]. split; [apply C; exact F|]. intros i SI. destruct (NS i SI). }
  destruct (stat s p) as [[|i|t]|] eqn:ST.
  - eapply BAD; [discriminate|right; eauto|exact HM].
  - clear BAD. destruct (next_plan s1) as [plan s2] eqn:NP.
    destruct (next_plan_spec _ _ _ NP) as (D2 & _ & _ & C2).
    assert (DD : s_data s1 i = s_data s i) by (destruct D as (_ & -> & _); reflexivity).
    rewrite DD in HM.
    destruct (hash_execute (Blake3Hasher (ce_blake3 V)) [] (mkDev (s_data s i) 0 plan [])) as [r d] eqn:HX.
    destruct (hash_short_holds _ _ _ _ _ (blake3_incremental _) HX) as (_ & _ & NP1 & ND1 & _).
    assert (X : s' = s2 /\ (forall e, o = Err e -> hash_error_of e) /\ o <> Panic /\ o <> Diverge
                /\ (forall h, r = Ok h -> o = Ok h)).
    { destruct r as [h|e| |]; try congruence; injection HM as <- <-; (split; [reflexivity|]).
      - repeat (split; [discriminate|]). intros x X. injection X as <-. reflexivity.
      - split; [intros x X; injection X as <-; right; eauto|]. repeat split; discriminate. }
    destruct X as (-> & X1 & X2 & X3 & X4).
    split; [eapply same_disk_trans; eauto|]. split; [exact X1|]. split; [exact X2|]. split; [exact X3|].
    intros [F P]. rewrite (C F) in *. destruct (C2 P) as [-> ->]. split; [reflexivity|].
    intros j E. injection E as <-. apply X4.
    destruct (hash_blake3_holds (ce_blake3 V) (mkDev (s_data s i) 0 [] []) eq_refl) as (d' & HB & _).
    rewrite HX in HB. injection HB as -> _. reflexivity.
  - eapply BAD; [discriminate|left; eauto|exact HM].
  - eapply BAD; [discriminate|left; eauto|exact HM].
Qed.

Lemma say_run : forall n c, say n c = (Ok tt, mkCli (c_a c) (c_stdin c) (c_tty c) (c_out c ++ [n])).
Proof. reflexivity. Qed.

Lemma hash_files_any : forall V fs c o c', hash_files V fs c = (o, c') ->
  same_disk (disk c) (disk c') /\ snd (c_a c') = snd (c_a c) /\ c_tty c' = c_tty c
  /\ c_stdin c' = c_stdin c
  /\ (forall e, o = Err e -> hash_error_of e) /\ o <> Panic /\ o <> Diverge
  /\ (no_faults (disk c) -> c_a c' = c_a c
       /\ forall is, Forall2 (fun f i => stat (disk c) (os_path f) = Some (NFile i)) fs is ->
            o = Ok tt
            /\ c_out c' = c_out c ++ map (fun fi => NHash (fst fi) (hex_encode (ce_blake3 V (s_data (disk c) (snd fi)))))
                                       (combine fs is)).
Proof.
  intros V. induction fs as [|f fs IH]; intros c o c' H.
  - cbn in H. unfold ret in H. injection H as <- <-. split; [apply same_disk_refl|].
    do 6 (split; [reflexivity||discriminate|]). intros _. split; [reflexivity|].
    intros is F. inversion F. split; [reflexivity|]. cbn. rewrite app_nil_r. reflexivity.
  - cbn [hash_files] in H. unfold bind in H. rewrite on_fs_run in H.
    destruct (hash_file V (os_path f) (disk c)) as [r s1] eqn:HF. cbn [fst snd] in H.
    destruct (hash_file_any _ _ _ _ _ HF) as (D & ER & NP & ND & CALM).
    destruct r as [h|e| |]; try congruence.
    + rewrite say_run in H. apply IH in H. cbn [set_disk c_a c_stdin c_tty c_out disk fst snd] in H.
      change (disk (mkCli (s1, snd (c_a c)) (c_stdin c) (c_tty c) (c_out c ++ [NHash f h]))) with s1 in H.
      destruct H as (D2 & TR & TT & SI & ER2 & NP2 & ND2 & CALM2).
      split; [eapply same_disk_trans; eauto|]. do 6 (split; [assumption|]).
      intros NF. destruct (CALM NF) as [-> HX]. destruct (CALM2 NF) as [CA OK].
      split; [rewrite CA; unfold disk; destruct (c_a c); reflexivity|].
      intros is F. inversion F as [|? i ? is' FI F']; subst.
      specialize (HX i FI). injection HX as ->. destruct (OK is' F') as [-> CO]. split; [reflexivity|].
      rewrite CO, <- app_assoc. reflexivity.
    + injection H as <- <-. split; [exact D|]. do 3 (split; [reflexivity|]).
      split; [intros x X; injection X as <-; auto|]. do 2 (split; [discriminate|]).
      intros NF. destruct (CALM NF) as [-> HX].
      split; [unfold set_disk, disk; cbn; destruct (c_a c); reflexivity|].
      intros is F. inversion F as [|? i ? is' FI F']; subst. specialize (HX i FI). discriminate.
Qed.

Lemma open_header_frame : forall s ts p c o c', only_writes s ts (disk c) ->
  (forall h, cp_header p = Some h -> In (os_path h) ts) ->
  open_header p c = (o, c') ->
  only_writes s ts (disk c') /\ o <> Panic /\ o <> Diverge
  /\ (forall e, o = Ok (Some e) -> exists h, e = EFile h /\ may_write s ts (h_ino h)
        /\ s_data (disk c') (h_ino h) = [] /\ h_pos h = 0)
  /\ (o = Ok None -> cp_header p = None /\ c' = c)
  /\ (forall e, o = Err e -> In e [CAnswer; CExit] \/ exists x, e = CStorage x).
Proof.
  intros s ts p c o c' W I H. unfold open_header in H. destruct (cp_header p) as [hp|].
  2:{ unfold ret in H. injection H as <- <-. split; [exact W|]. repeat (split; [discriminate|]).
      split; [auto|discriminate]. }
  unfold bind in H. destruct (check_or_exit hp (cp_force p) c) as [r c1] eqn:CK.
  destruct (check_or_exit_any _ _ _ _ _ CK) as (CA & _ & RES & _).
  assert (W1 : only_writes s ts (disk c1)) by (unfold disk; rewrite CA; exact W).
  destruct RES as [<-|[<-|[<-|[]]]].
  - destruct (storage (create_or_write (os_path hp)) c1) as [r2 c2] eqn:SC.
    destruct (storage_inv _ _ _ _ SC) as (r & s2 & CW & -> & ->).
    destruct (ow_create_or_write _ _ _ _ _ _ W1 (I hp eq_refl) CW) as [W2 MW].
    destruct (create_or_write_any _ _ _ _ CW) as [(e & -> & _)|(h & -> & _ & PO & DE & _)]; cbn [omap] in H.
    + injection H as <- <-. split; [exact W2|]. repeat (split; [discriminate|]).
      intros x X. injection X as <-. right. eauto.
    + unfold ret in H. injection H as <- <-. split; [exact W2|]. repeat (split; [discriminate|]).
      split; [|split; discriminate]. intros x X. injection X as <-. exists h. repeat split; auto.
  - injection H as <- <-. split; [exact W1|]. repeat (split; [discriminate|]).
    intros x X. injection X as <-. left. cbn. auto.
  - injection H as <- <-. split; [exact W1|]. repeat (split; [discriminate|]).
    intros x X. injection X as <-. left. cbn. auto.
Qed.

Definition header_targets (p : crypto_params) : list path :=
  match cp_header p with Some h => [os_path h] | None => [] end.

(** Errors that are not of the erasing step. *)
Definition not_erase (e : cli_error) : Prop := forall x, e <> CErase x /\ e <> CEraseDir (EdEraseFile x).

Lemma ow_files : forall s ts s1 s2 (ws : list nat), only_writes s ts s1 -> same_tree s1 s2 ->
  (forall j, In j ws -> may_write s ts j) ->
  (forall j, ~ In j ws -> s_data s2 j = s_data s1 j) ->
  (exists es, added s1 s2 es
     /\ Forall (fun e => match e with FWrite j _ _ => In j ws | _ => False end) es) ->
  only_writes s ts s2.
Proof.
  intros s ts s1 s2 ws W T MW D (es & A & F). eapply ow_then_tree; [exact W|exact T| |].
  - intros j NJ. apply D. intros I. apply NJ. apply MW. exact I.
  - exists es. split; [exact A|]. eapply Forall_impl; [|exact F].
    intros e. destruct e; try contradiction. intros I. apply MW. exact I.
Qed.

Lemma cow_stat : forall p s h s', create_or_write p s = (Ok (EFile h), s') ->
  stat s' p = Some (NFile (h_ino h)).
Proof.
  intros p s h s' H.
  destruct (create_or_write_any _ _ _ _ H)
    as [(e & X & D)|(h' & X & HP & PO & DE & CW & T & G & D & C & [(q & R & L & HI & NX & N & A)|(ST & NX & N & A)])];
    [discriminate| |]; injection X as ->.
  - assert (LU : lookup (s_nodes s') q = Some (NFile (h_ino h'))).
    { rewrite N, lookup_add, cpath_eqb_refl, HI by exact L. reflexivity. }
    assert (R' : resolve false s' p = Some q).
    { rewrite <- R. symmetry. apply resolve_lost_files; [|congruence].
      intros r. rewrite N, lookup_add by exact L. destruct (cpath_eqb r q) eqn:E; [|auto].
      apply cpath_eqb_eq in E. subst r. right. split; [exact L|eauto]. }
    unfold stat. rewrite (resolve_same _ _ _ _ R' LU) by discriminate. exact LU.
  - unfold stat in *. rewrite N, (resolve_nodes true s s' p) by congruence. exact ST.
Qed.

Lemma set_disk_disk : forall s c, disk (set_disk s c) = s.
Proof. reflexivity. Qed.
Lemma set_a_disk : forall a c, disk (set_a a c) = fst a.
Proof. reflexivity. Qed.

Lemma flush_opt_any : forall e c o c', flush_opt e c = (o, c') ->
  same_disk (disk c) (disk c') /\ snd (c_a c') = snd (c_a c) /\ c_tty c' = c_tty c /\ c_stdin c' = c_stdin c
  /\ o <> Panic /\ o <> Diverge /\ (forall x, o = Err x -> exists y, x = CStorage y)
  /\ (no_faults (disk c) -> disk c' = disk c
       /\ ((forall x, e = Some x -> exists h, x = EFile h) -> o = Ok tt)).
Proof.
  intros e c o c' H. unfold flush_opt in H. destruct e as [e|].
  - destruct (storage_inv _ _ _ _ H) as (r & s' & FF & -> & ->).
    destruct (flush_file_any _ _ _ _ FF) as (D & NP & ND & CALM). rewrite set_disk_disk.
    split; [exact D|]. do 3 (split; [reflexivity|]).
    split; [destruct r; try discriminate; congruence|].
    split; [destruct r; try discriminate; congruence|].
    split; [intros x X; destruct r; try discriminate; injection X as <-; eauto|].
    intros NF. destruct (CALM NF) as [-> OK]. split; [reflexivity|]. intros A. destruct (A e eq_refl) as [h ->].
    rewrite (OK h eq_refl). reflexivity.
  - unfold ret in H. injection H as <- <-. split; [apply same_disk_refl|]. do 3 (split; [reflexivity|]).
    do 3 (split; [discriminate|]). auto.
Qed.

(** What happened when encrypting succeeded. *)
Record encrypted (V : cenv) (input output : string) (p : crypto_params) (a : algorithm)
  (c c' : cli) (i : nat) (raw : bytes) (hi ho : handle) (hh : option handle) (a1 a2 : asys) : Prop := {
  en_input : stat (disk c) (os_path input) = Some (NFile i);
  en_key : exists c0 t, c_a c0 = c_a c /\ c_tty c0 = c_tty c
    /\ (cp_force p = Force \/ exists_path (disk c) (os_path output) = false -> c_stdin c0 = c_stdin c)
    /\ yields V c0 (cp_key p) Validate raw t;
  en_hi : h_ino hi = i /\ h_pos hi = 0;
  en_ho : stat (disk c') (os_path output) = Some (NFile (h_ino ho)) /\ h_pos ho = 0;
  en_hh : match cp_header p with
          | None => hh = None
          | Some hp => exists h, hh = Some h /\ stat (disk c') (os_path hp) = Some (NFile (h_ino h))
                       /\ h_pos h = 0 /\ s_data (fst a1) (h_ino h) = []
          end;
  en_empty : s_data (fst a1) (h_ino ho) = [];
  en_before : only_writes (disk c) (os_path output :: header_targets p) (fst a1);
  en_run : encrypt_files V (mkEncReq (is_some hh) raw (mkHT V5 a StreamMode) (cp_hashing p)) hi ho hh a1
           = (Ok tt, a2);
  en_after : same_disk (fst a2) (disk c');
  en_apart : inodes_ok (disk c) -> forall hp h, cp_header p = Some hp -> hh = Some h ->
    different (disk c) (os_path output) (os_path hp) -> h_ino ho <> h_ino h;
  en_calm : no_faults (disk c) -> no_faults (disk c') /\ h_plan hi = [] /\ h_plan ho = []
            /\ (forall h, hh = Some h -> h_plan h = [])
}.

Lemma check_or_exit_stdin : forall name force c c', check_or_exit name force c = (Ok tt, c') ->
  force = Force \/ exists_path (disk c) (os_path name) = false -> c_stdin c' = c_stdin c.
Proof.
  intros name force c c' H A. unfold check_or_exit, bind, overwrite_check in H. fold (disk c) in H.
  destruct (exists_path (disk c) (os_path name)) eqn:X.
  - destruct A as [->|A]; [|discriminate]. cbn in H. unfold ret in H. injection H as <-. reflexivity.
  - unfold ret in H. injection H as <-. reflexivity.
Qed.

Lemma yields_disk : forall V c c1 k st l t, same_disk (disk c) (disk c1) ->
  c_stdin c1 = c_stdin c -> c_tty c1 = c_tty c -> yields V c1 k st l t -> yields V c k st l t.
Proof.
  intros V c c1 k st l t D SI TT Y. destruct Y; rewrite ?SI, ?TT in *.
  - constructor; assumption.
  - rewrite (stat_disk _ _ _ D) in *. destruct D as (_ & DD & _). rewrite DD in *. econstructor; eassumption.
  - constructor; assumption.
  - constructor; assumption.
  - econstructor; eassumption.
  - econstructor; eassumption.
Qed.

Lemma encrypt_main_any : forall V input output p a c o c',
  encrypt_main V input output p a c = (o, c') ->
  only_writes (disk c) (os_path output :: header_targets p) (disk c')
  /\ (forall e, o = Err e -> not_erase e)
  /\ (o = Ok tt -> exists i raw hi ho hh a1 a2, encrypted V input output p a c c' i raw hi ho hh a1 a2).
Proof.
  intros V input output p a c o c' H. unfold encrypt_main in H.
  set (ts := os_path output :: header_targets p). set (s := disk c).
  (* check *)
  unfold bind at 1 in H. destruct (check_or_exit output (cp_force p) c) as [r c0] eqn:CK.
  destruct (check_or_exit_any _ _ _ _ _ CK) as (CA & CT & RES & _).
  assert (S0 : disk c0 = s) by (unfold disk; rewrite CA; reflexivity).
  assert (W0 : only_writes s ts (disk c0)) by (rewrite S0; apply ow_refl).
  destruct RES as [<-|[<-|[<-|[]]]];
    [|injection H as <- <-; split; [exact W0|]; split; [intros e X; injection X as <-; split; discriminate|discriminate]
     |injection H as <- <-; split; [exact W0|]; split; [intros e X; injection X as <-; split; discriminate|discriminate]].
  pose proof (check_or_exit_stdin _ _ _ _ CK) as CS.
  (* input *)
  unfold bind at 1 in H. destruct (storage (read_file (os_path input)) c0) as [r1 c1] eqn:RF.
  destruct (storage_inv _ _ _ _ RF) as (r & s1 & RF' & -> & ->). clear RF. rewrite S0 in RF'.
  destruct (read_file_any _ _ _ _ RF') as (D1 & C1 & RES1).
  assert (W1 : only_writes s ts s1) by (apply ow_disk; exact D1).
  assert (RES1' : (exists fi, r = Ok fi /\ ((fi = EDir (os_path input)) \/ exists i plan, fi = EFile (mkHandle (os_path input) i 0 plan)
             /\ stat s (os_path input) = Some (NFile i) /\ (no_faults s -> plan = [])))
          \/ r = Err StOpenRead).
  { destruct RES1 as [[-> _]|[(i & plan & -> & X)|[-> _]]]; [left|left|right]; eauto 8. }
  clear RES1. destruct RES1' as [(fi & -> & FI)| ->]; cbn [omap] in H.
  2:{ injection H as <- <-. split; [exact W1|]. split; [intros e X; injection X as <-; split; discriminate|discriminate]. }
  (* key *)
  unfold bind at 1 in H.
  destruct (get_secret V (cp_key p) Validate (set_disk s1 c0)) as [r2 c2] eqn:GS.
  destruct (get_secret_any _ _ _ _ _ _ GS) as (D2 & T2 & C2 & ND2 & PN2 & OK2 & ER2).
  rewrite set_disk_disk in D2, C2.
  assert (W2 : only_writes s ts (disk c2)) by (eapply ow_then_disk; eauto).
  destruct r2 as [raw|e| |]; [| | |congruence].
  2:{ injection H as <- <-. split; [exact W2|]. split; [|discriminate]. intros x X. injection X as <-.
      destruct (ER2 e eq_refl) as [SE _]. intros y. cbn in SE. 
      destruct SE as [<-|[<-|[<-|[<-|[<-|[<-|[]]]]]]]; split; discriminate. }
  2:{ injection H as <- <-. split; [exact W2|]. split; discriminate. }
  (* output *)
  unfold bind at 1 in H. destruct (storage (create_or_write (os_path output)) c2) as [r3 c3] eqn:SC.
  destruct (storage_inv _ _ _ _ SC) as (r & s3 & CW & -> & ->). clear SC.
  assert (I3 : In (os_path output) ts) by (left; reflexivity).
  destruct (ow_create_or_write _ _ _ _ _ _ W2 I3 CW) as [W3 MW3].
  assert (RES3 : (exists e, r = Err e) \/ exists ho, r = Ok (EFile ho) /\ s_data s3 (h_ino ho) = [] /\ h_pos ho = 0
             /\ (no_faults (disk c2) -> no_faults s3 /\ h_plan ho = [])).
  { destruct (create_or_write_any _ _ _ _ CW) as [(e & -> & _)|(h & -> & _ & A1 & A2 & _ & _ & _ & _ & A3 & _)]; eauto 8. }
  destruct RES3 as [[e ->]|(ho & -> & DE3 & PO3 & C3)]; cbn [omap] in H.
  { injection H as <- <-. split; [exact W3|]. split; [intros x X; injection X as <-; split; discriminate|discriminate]. }
  pose proof (cow_stat _ _ _ _ CW) as ST3.
  (* header *)
  unfold bind at 1 in H. destruct (open_header p (set_disk s3 c2)) as [r4 c4] eqn:OH.
  assert (IH : forall h, cp_header p = Some h -> In (os_path h) ts).
  { intros h E. right. unfold header_targets. rewrite E. left. reflexivity. }
  assert (W3' : only_writes s ts (disk (set_disk s3 c2))) by exact W3.
  destruct (open_header_frame s ts _ _ _ _ W3' IH OH) as (W4 & NP4 & ND4 & SOME4 & NONE4 & ER4).
  destruct r4 as [fh|e| |]; try congruence.
  2:{ injection H as <- <-. split; [exact W4|]. split; [|discriminate]. intros x X. injection X as <-.
      destruct (ER4 e eq_refl) as [[<-|[<-|[]]]|[y ->]]; split; discriminate. }
  (* handles *)
  unfold bind at 1 in H. destruct FI as [->|(i & plan & -> & STI & PLI)]; cbn [try_handle] in H.
  { unfold err in H. injection H as <- <-. split; [exact W4|]. split; [intros x X; injection X as <-; split; discriminate|discriminate]. }
  unfold ret in H. unfold bind at 1 in H. cbn [try_handle] in H. unfold ret in H.
  (* encrypt *)
  unfold bind at 1 in H. rewrite on_a_run in H.
  set (hi := mkHandle (os_path input) i 0 plan) in *.
  set (req := mkEncReq (is_some (ok_handle fh)) raw (mkHT V5 a StreamMode) (cp_hashing p)) in *.
  destruct (encrypt_files V req hi ho (ok_handle fh) (c_a c4)) as [r5 a5] eqn:EF. cbn [fst snd] in H.
  destruct (encrypt_files_frame _ _ _ _ _ _ _ _ EF) as (T5 & D5 & E5 & ER5). fold (disk c4) in T5, D5, E5.
  assert (MW : forall j, In j (written ho (ok_handle fh)) -> may_write s ts j).
  { intros j [<-|I]; [apply MW3; reflexivity|].
    destruct fh as [fh|]; cbn in I; [|destruct I].
    destruct (SOME4 fh eq_refl) as (h & -> & MH & _). cbn in I. destruct I as [<-|[]]. exact MH. }
  assert (W5 : only_writes s ts (fst a5)) by (eapply ow_files; eauto).
  destruct r5 as [u|e| |].
  2:{ injection H as <- <-. split; [exact W5|]. split; [|discriminate]. intros x X. injection X as <-.
      destruct (ER5 e eq_refl) as [->|[y ->]]; split; discriminate. }
  2,3: injection H as <- <-; split; [exact W5|]; split; discriminate.
  destruct u.
  (* flush *)
  unfold bind at 1 in H. destruct (flush_opt fh (set_a a5 c4)) as [r6 c6] eqn:F6.
  destruct (flush_opt_any _ _ _ _ F6) as (D6 & T6 & _ & _ & NP6 & ND6 & ER6 & C6). rewrite set_a_disk in D6, C6.
  assert (W6 : only_writes s ts (disk c6)) by (eapply ow_then_disk; eauto).
  destruct r6 as [u|e| |]; try congruence.
  2:{ injection H as <- <-. split; [exact W6|]. split; [|discriminate]. intros x X. injection X as <-.
      destruct (ER6 e eq_refl) as [y ->]; split; discriminate. }
  unfold bind at 1 in H. destruct (storage (flush_file (EFile ho)) c6) as [r7 c7] eqn:F7.
  destruct (storage_inv _ _ _ _ F7) as (r & s7 & FF & -> & ->).
  destruct (flush_file_any _ _ _ _ FF) as (D7 & NP7 & ND7 & C7).
  assert (W7 : only_writes s ts s7) by (eapply ow_then_disk; eauto).
  destruct r as [u7|e| |]; cbn [omap] in H; try congruence.
  2:{ injection H as <- <-. split; [exact W7|]. split; [intros x X; injection X as <-; split; discriminate|discriminate]. }
  (* hash *)
  assert (HX : same_disk s7 (disk c') /\ (forall e, o = Err e -> not_erase e) /\ (no_faults s7 -> disk c' = s7)).
  { destruct (cp_hash p).
    - destruct (hash_files_any _ _ _ _ _ H) as (D8 & _ & _ & _ & ER8 & _ & _ & C8).
      rewrite set_disk_disk in D8. split; [exact D8|]. split.
      + intros e E. destruct (ER8 e E) as [->|[y ->]]; split; discriminate.
      + intros NF. destruct (C8 NF) as [CA8 _]. unfold disk at 1. rewrite CA8. reflexivity.
    - unfold ret in H. injection H as <- <-. split; [apply same_disk_refl|]. split; [discriminate|reflexivity]. }
  destruct HX as (D8 & ER8 & C8).
  split; [eapply ow_then_disk; eauto|]. split; [exact ER8|]. intros _.
  assert (D58 : same_disk (fst a5) (disk c')).
  { eapply same_disk_trans; [exact D6|]. eapply same_disk_trans; eauto. }
  assert (ALL : forall q n, stat (disk c4) q = Some n -> stat (disk c') q = Some n).
  { intros q n X. rewrite (stat_disk _ _ q D58). unfold stat in *.
    destruct T5 as (TN & TC & _). rewrite TN, (resolve_nodes true (disk c4) (fst a5)) by congruence. exact X. }
  exists i, raw, hi, ho, (ok_handle fh), (c_a c4), a5.
  (* the header opening seen as a writing step *)
  assert (H34 : only_writes s3 (header_targets p) (disk c4)
                /\ (no_faults s3 -> no_faults (disk c4))
                /\ match cp_header p with
                   | None => fh = None
                   | Some hp => exists h, fh = Some (EFile h) /\ stat (disk c4) (os_path hp) = Some (NFile (h_ino h))
                                /\ h_pos h = 0 /\ s_data (disk c4) (h_ino h) = []
                                /\ (no_faults s3 -> h_plan h = [])
                                /\ (h_ino h = s_next s3 \/ stat s3 (os_path hp) = Some (NFile (h_ino h)))
                   end
                /\ s_data (disk c4) (h_ino ho) = []).
  { unfold header_targets, open_header in *. destruct (cp_header p) as [hp|].
    - unfold bind in OH. destruct (check_or_exit hp (cp_force p) (set_disk s3 c2)) as [r cx] eqn:CKX.
      destruct (check_or_exit_any _ _ _ _ _ CKX) as (CAX & _ & RX & _).
      destruct RX as [<-|[<-|[<-|[]]]]; try discriminate OH.
      assert (DX : disk cx = s3) by (unfold disk; rewrite CAX; reflexivity).
      destruct (storage (create_or_write (os_path hp)) cx) as [ry cy] eqn:SY.
      destruct (storage_inv _ _ _ _ SY) as (r & sy & CWY & -> & ->). rewrite DX in CWY.
      destruct (ow_create_or_write s3 [os_path hp] s3 (os_path hp) r sy (ow_refl _ _) (or_introl eq_refl) CWY) as [WY _].
      destruct (create_or_write_any _ _ _ _ CWY) as [(e & -> & _)|(h & -> & _ & PY & EY & _ & _ & _ & DY & CY & WHY)];
        cbn [omap] in OH; [discriminate|]. unfold ret in OH. injection OH as <- <-. rewrite set_disk_disk.
      split; [exact WY|]. split; [intros NF; apply (CY NF)|]. split.
      + exists h. split; [reflexivity|]. split; [eapply cow_stat; eauto|]. split; [exact PY|]. split; [exact EY|].
        split; [intros NF; apply (CY NF)|].
        destruct WHY as [(q & _ & _ & X & _)|(X & _)]; auto.
      + destruct (Nat.eq_dec (h_ino ho) (h_ino h)) as [E|NE]; [rewrite E; exact EY|].
        rewrite (DY _ NE). exact DE3.
    - unfold ret in OH. injection OH as <- <-. rewrite set_disk_disk. split; [apply ow_refl|]. auto. }
  destruct H34 as (W34 & C34 & HH & DE4).
  assert (CALM : no_faults s -> no_faults (disk c') /\ plan = [] /\ no_faults s3 /\ h_plan ho = []).
  { intros NF. assert (NF1 : no_faults s1) by (rewrite (C1 NF); exact NF).
    destruct (C3 (C2 NF1)) as [NF3 P3].
    assert (NF5 : no_faults (fst a5)).
    { destruct (C34 NF3) as [X Y]. destruct T5 as (_ & _ & _ & _ & X' & Y'). split; congruence. }
    assert (NF6 : no_faults (disk c6)).
    { unfold flush_opt in F6. destruct fh as [fh|].
      - destruct (storage_inv _ _ _ _ F6) as (rz & sz & FZ & _ & ->). rewrite set_disk_disk.
        destruct (flush_file_any _ _ _ _ FZ) as (_ & _ & _ & CZ). rewrite set_a_disk in CZ.
        destruct (CZ NF5) as [-> _]. exact NF5.
      - unfold ret in F6. injection F6 as _ <-. exact NF5. }
    destruct (C7 NF6) as [-> _]. split; [rewrite (C8 NF6); exact NF6|]. auto. }
  constructor.
  - exact STI.
  - exists c0, (c_tty c2). split; [exact CA|]. split; [exact CT|]. split; [exact CS|].
    apply (yields_disk V c0 (set_disk s1 c0)); [rewrite S0; exact D1|reflexivity|reflexivity|].
    apply OK2. reflexivity.
  - split; reflexivity.
  - split; [|exact PO3]. apply ALL. eapply ow_stat_kept; eauto.
  - destruct (cp_header p) as [hp|].
    + destruct HH as (h & -> & STH & PH & EH & _). exists h. split; [reflexivity|]. split; [apply ALL; exact STH|].
      split; assumption.
    + subst fh. reflexivity.
  - exact DE4.
  - exact W4.
  - exact EF.
  - exact D58.
  - intros IO hp h E1 E2 [DF1 DF2] EQ. rewrite E1 in HH. destruct HH as (h' & -> & _ & _ & _ & _ & WHY).
    cbn in E2. injection E2 as ->.
    destruct (create_or_write_any _ _ _ _ CW)
      as [(e & X & _)|(h0 & X & _ & _ & _ & _ & _ & _ & _ & _ & NEW)]; [discriminate|].
    injection X as <-.
    destruct WHY as [X|STH].
    + rewrite X in EQ. destruct NEW as [(q & _ & _ & HI & NX & _)|(STO & NX & _)]; [lia|].
      assert (L : h_ino ho < s_next s).
      { rewrite (stat_disk s (disk c2)) in STO.
        - unfold stat in STO. destruct (resolve true s (os_path output)) as [r1|]; [|discriminate].
          exact (IO _ _ STO).
        - eapply same_disk_trans; eauto. }
      pose proof (ow_next _ _ _ W3). lia.
    + assert (D02 : same_disk s (disk c2)) by (eapply same_disk_trans; eauto).
      destruct NEW as [(q & RQ & LQ & HI & NX & N & _)|(STO & NX & N & _)].
      * pose proof (ow_resolve true _ _ _ (os_path hp) W3) as RH.
        unfold stat in STH. rewrite RH in STH.
        destruct (resolve true s (os_path hp)) as [r2|] eqn:R2; [|discriminate].
        rewrite N, lookup_add in STH by exact LQ.
        destruct (cpath_eqb r2 q) eqn:EQ2.
        -- apply cpath_eqb_eq in EQ2. subst r2. apply DF1. fold s. rewrite R2.
           rewrite <- (ow_resolve true _ _ _ (os_path output) W3).
           unfold stat in ST3. destruct (resolve true s3 (os_path output)) as [r1|] eqn:R1; [|discriminate].
           assert (X : r1 = q); [|congruence].
           apply (resolve_missing (disk c2) (os_path output) r1 q RQ LQ).
           rewrite (ow_resolve true _ _ _ _ W3) in R1. rewrite (resolve_disk true s (disk c2)) by exact D02. exact R1.
        -- assert (DN : s_nodes (disk c2) = s_nodes s) by apply D02.
           rewrite DN in STH. specialize (IO _ _ STH).
           assert (DX : s_next (disk c2) = s_next s) by apply D02. fold s in IO. lia.
      * apply (DF2 (h_ino ho)).
        -- fold s. rewrite <- (stat_disk s (disk c2)) by exact D02. exact STO.
        -- fold s. rewrite EQ, <- STH. rewrite <- (stat_disk s (disk c2)) by exact D02.
           unfold stat. rewrite N, (resolve_nodes true (disk c2) s3); [reflexivity|exact N|].
           rewrite (ow_cwd _ _ _ W3), (ow_cwd _ _ _ W2). reflexivity.
  - intros NF. destruct (CALM NF) as (NF' & PL & NF3 & P3). split; [exact NF'|]. split; [exact PL|].
    split; [exact P3|]. intros h E. destruct (cp_header p) as [hp|].
    + destruct HH as (h' & -> & _ & _ & _ & PH & _). cbn in E. injection E as <-. apply PH, NF3.
    + subst fh. discriminate E.
Qed.

Lemma read_header_any : forall p c o c', read_header p c = (o, c') ->
  same_disk (disk c) (disk c') /\ snd (c_a c') = snd (c_a c) /\ c_tty c' = c_tty c /\ c_stdin c' = c_stdin c
  /\ o <> Panic /\ o <> Diverge /\ (forall x, o = Err x -> exists y, x = CStorage y)
  /\ (no_faults (disk c) -> disk c' = disk c)
  /\ (forall e, o = Ok e ->
      match cp_header p with
      | None => e = None
      | Some hp => e = Some (EDir (os_path hp))
          \/ exists j plan, e = Some (EFile (mkHandle (os_path hp) j 0 plan))
             /\ stat (disk c) (os_path hp) = Some (NFile j) /\ (no_faults (disk c) -> plan = [])
      end).
Proof.
  intros p c o c' H. unfold read_header in H. destruct (cp_header p) as [hp|].
  2:{ unfold ret in H. injection H as <- <-. split; [apply same_disk_refl|]. do 3 (split; [reflexivity|]).
      do 3 (split; [discriminate|]). split; [reflexivity|]. intros e X. injection X as <-. reflexivity. }
  unfold bind in H. destruct (storage (read_file (os_path hp)) c) as [r c1] eqn:RF.
  destruct (storage_inv _ _ _ _ RF) as (r1 & s1 & RF' & -> & ->). clear RF.
  destruct (read_file_any _ _ _ _ RF') as (D1 & C1 & [[-> ST]|[(j & plan & -> & ST & PL)|[-> _]]]);
    cbn [omap] in H; unfold ret in H; injection H as <- <-; rewrite set_disk_disk;
    (split; [exact D1|]); do 3 (split; [reflexivity|]); do 2 (split; [discriminate|]).
  - split; [discriminate|]. split; [exact C1|]. intros e X. injection X as <-. left. reflexivity.
  - split; [discriminate|]. split; [exact C1|]. intros e X. injection X as <-. right. eauto 6.
  - split; [intros x X; injection X as <-; eauto|]. split; [exact C1|]. discriminate.
Qed.

(** What happened when decrypting succeeded. *)
Record decrypted (V : cenv) (input output : string) (p : crypto_params)
  (c c' : cli) (i : nat) (raw : bytes) (hi ho : handle) (hh : option handle) (a1 a2 : asys) : Prop := {
  de_input : stat (disk c) (os_path input) = Some (NFile i);
  de_key : exists c0 t, c_a c0 = c_a c /\ c_tty c0 = c_tty c
    /\ (cp_force p = Force \/ exists_path (disk c) (os_path output) = false -> c_stdin c0 = c_stdin c)
    /\ yields V c0 (cp_key p) Direct raw t;
  de_hi : h_ino hi = i /\ h_pos hi = 0;
  de_ho : stat (disk c') (os_path output) = Some (NFile (h_ino ho)) /\ h_pos ho = 0;
  de_hh : match cp_header p with
          | None => hh = None
          | Some hp => hh = None \/ exists h, hh = Some h /\ h_pos h = 0
                       /\ stat (disk c) (os_path hp) = Some (NFile (h_ino h))
          end;
  de_empty : s_data (fst a1) (h_ino ho) = [];
  de_before : only_writes (disk c) [os_path output] (fst a1);
  de_run : decrypt_files V raw hi ho hh a1 = (Ok tt, a2);
  de_after : same_disk (fst a2) (disk c');
  de_calm : no_faults (disk c) -> no_faults (disk c') /\ h_plan hi = [] /\ h_plan ho = []
            /\ (forall h, hh = Some h -> h_plan h = [])
}.

Lemma decrypt_main_any : forall V input output p c o c',
  decrypt_main V input output p c = (o, c') ->
  only_writes (disk c) [os_path output] (disk c')
  /\ (forall e, o = Err e -> not_erase e)
  /\ (o = Ok tt -> exists i raw hi ho hh a1 a2, decrypted V input output p c c' i raw hi ho hh a1 a2).
Proof.
  intros V input output p c o c' H. unfold decrypt_main in H.
  set (ts := [os_path output]). set (s := disk c).
  (* check *)
  unfold bind at 1 in H. destruct (check_or_exit output (cp_force p) c) as [r c0] eqn:CK.
  destruct (check_or_exit_any _ _ _ _ _ CK) as (CA & CT & RES & _).
  assert (S0 : disk c0 = s) by (unfold disk; rewrite CA; reflexivity).
  assert (W0 : only_writes s ts (disk c0)) by (rewrite S0; apply ow_refl).
  destruct RES as [<-|[<-|[<-|[]]]];
    [|injection H as <- <-; split; [exact W0|]; split; [intros e X; injection X as <-; split; discriminate|discriminate]
     |injection H as <- <-; split; [exact W0|]; split; [intros e X; injection X as <-; split; discriminate|discriminate]].
  pose proof (check_or_exit_stdin _ _ _ _ CK) as CS.
  (* input *)
  unfold bind at 1 in H. destruct (storage (read_file (os_path input)) c0) as [r1 c1] eqn:RF.
  destruct (storage_inv _ _ _ _ RF) as (r & s1 & RF' & -> & ->). clear RF. rewrite S0 in RF'.
  destruct (read_file_any _ _ _ _ RF') as (D1 & C1 & RES1).
  assert (W1 : only_writes s ts s1) by (apply ow_disk; exact D1).
  assert (RES1' : (exists fi, r = Ok fi /\ ((fi = EDir (os_path input)) \/ exists i plan, fi = EFile (mkHandle (os_path input) i 0 plan)
             /\ stat s (os_path input) = Some (NFile i) /\ (no_faults s -> plan = [])))
          \/ r = Err StOpenRead).
  { destruct RES1 as [[-> _]|[(i & plan & -> & X)|[-> _]]]; [left|left|right]; eauto 8. }
  clear RES1. destruct RES1' as [(fi & -> & FI)| ->]; cbn [omap] in H.
  2:{ injection H as <- <-. split; [exact W1|]. split; [intros e X; injection X as <-; split; discriminate|discriminate]. }
  (* header *)
  unfold bind at 1 in H. destruct (read_header p (set_disk s1 c0)) as [rh ch] eqn:RH.
  destruct (read_header_any _ _ _ _ RH) as (DH & TH & TTH & SIH & NPH & NDH & ERH & CH & OKH).
  rewrite set_disk_disk in DH, CH, OKH.
  assert (WH : only_writes s ts (disk ch)) by (eapply ow_then_disk; eauto).
  destruct rh as [fh|e| |]; try congruence.
  2:{ injection H as <- <-. split; [exact WH|]. split; [|discriminate]. intros x X. injection X as <-.
      destruct (ERH e eq_refl) as [y ->]; split; discriminate. }
  specialize (OKH fh eq_refl).
  (* key *)
  unfold bind at 1 in H.
  destruct (get_secret V (cp_key p) Direct ch) as [r2 c2] eqn:GS.
  destruct (get_secret_any _ _ _ _ _ _ GS) as (D2 & T2 & C2 & ND2 & PN2 & OK2 & ER2).
  assert (W2 : only_writes s ts (disk c2)) by (eapply ow_then_disk; eauto).
  destruct r2 as [raw|e| |]; [| | |congruence].
  2:{ injection H as <- <-. split; [exact W2|]. split; [|discriminate]. intros x X. injection X as <-.
      destruct (ER2 e eq_refl) as [SE _]. intros y. cbn in SE. 
      destruct SE as [<-|[<-|[<-|[<-|[<-|[<-|[]]]]]]]; split; discriminate. }
  2:{ injection H as <- <-. split; [exact W2|]. split; discriminate. }
  (* output *)
  unfold bind at 1 in H. destruct (storage (create_or_write (os_path output)) c2) as [r3 c3] eqn:SC.
  destruct (storage_inv _ _ _ _ SC) as (r & s3 & CW & -> & ->). clear SC.
  assert (I3 : In (os_path output) ts) by (left; reflexivity).
  destruct (ow_create_or_write _ _ _ _ _ _ W2 I3 CW) as [W3 MW3].
  assert (RES3 : (exists e, r = Err e) \/ exists ho, r = Ok (EFile ho) /\ s_data s3 (h_ino ho) = [] /\ h_pos ho = 0
             /\ (no_faults (disk c2) -> no_faults s3 /\ h_plan ho = [])).
  { destruct (create_or_write_any _ _ _ _ CW) as [(e & -> & _)|(h & -> & _ & A1 & A2 & _ & _ & _ & _ & A3 & _)]; eauto 8. }
  destruct RES3 as [[e ->]|(ho & -> & DE3 & PO3 & C3)]; cbn [omap] in H.
  { injection H as <- <-. split; [exact W3|]. split; [intros x X; injection X as <-; split; discriminate|discriminate]. }
  pose proof (cow_stat _ _ _ _ CW) as ST3.
  (* handles *)
  unfold bind at 1 in H. destruct FI as [->|(i & plan & -> & STI & PLI)]; cbn [try_handle] in H.
  { unfold err in H. injection H as <- <-. split; [exact W3|]. split; [intros x X; injection X as <-; split; discriminate|discriminate]. }
  unfold ret in H. unfold bind at 1 in H. cbn [try_handle] in H. unfold ret in H.
  (* decrypt *)
  unfold bind at 1 in H. rewrite on_a_run in H.
  set (hi := mkHandle (os_path input) i 0 plan) in *.
  destruct (decrypt_files V raw hi ho (ok_handle fh) (c_a (set_disk s3 c2))) as [r5 a5] eqn:EF. cbn [fst snd] in H.
  destruct (decrypt_files_frame _ _ _ _ _ _ _ _ EF) as (T5 & D5 & E5 & ER5).
  change (fst (c_a (set_disk s3 c2))) with s3 in T5, D5, E5.
  assert (W5 : only_writes s ts (fst a5)).
  { apply (ow_files s ts s3 (fst a5) [h_ino ho]); [exact W3|exact T5| | |].
    - intros j [<-|[]]. apply MW3. reflexivity.
    - intros j N. apply D5. intros ->. apply N. left. reflexivity.
    - destruct E5 as (es & AD & F). exists es. split; [exact AD|].
      eapply Forall_impl; [|exact F]. intros [] X; try exact X. left. auto. }
  destruct r5 as [u|e| |].
  2:{ injection H as <- <-. split; [exact W5|]. split; [|discriminate]. intros x X. injection X as <-.
      destruct (ER5 e eq_refl) as [->|[y ->]]; split; discriminate. }
  2,3: injection H as <- <-; split; [exact W5|]; split; discriminate.
  destruct u.
  (* flush *)
  unfold bind at 1 in H. destruct (storage (flush_file (EFile ho)) (set_a a5 (set_disk s3 c2))) as [r7 c7] eqn:F7.
  destruct (storage_inv _ _ _ _ F7) as (r & s7 & FF & -> & ->). rewrite set_a_disk in FF.
  destruct (flush_file_any _ _ _ _ FF) as (D7 & NP7 & ND7 & C7).
  assert (W7 : only_writes s ts s7) by (eapply ow_then_disk; eauto).
  destruct r as [u7|e| |]; cbn [omap] in H; try congruence.
  2:{ injection H as <- <-. split; [exact W7|]. split; [intros x X; injection X as <-; split; discriminate|discriminate]. }
  (* hash *)
  assert (HX : same_disk s7 (disk c') /\ (forall e, o = Err e -> not_erase e) /\ (no_faults s7 -> disk c' = s7)).
  { destruct (cp_hash p).
    - destruct (hash_files_any _ _ _ _ _ H) as (D8 & _ & _ & _ & ER8 & _ & _ & C8).
      rewrite set_disk_disk in D8. split; [exact D8|]. split.
      + intros e E. destruct (ER8 e E) as [->|[y ->]]; split; discriminate.
      + intros NF. destruct (C8 NF) as [CA8 _]. unfold disk at 1. rewrite CA8. reflexivity.
    - unfold ret in H. injection H as <- <-. split; [apply same_disk_refl|]. split; [discriminate|reflexivity]. }
  destruct HX as (D8 & ER8 & C8).
  split; [eapply ow_then_disk; eauto|]. split; [exact ER8|]. intros _.
  assert (D58 : same_disk (fst a5) (disk c')) by (eapply same_disk_trans; eauto).
  assert (ALL : forall q n, stat s3 q = Some n -> stat (disk c') q = Some n).
  { intros q n X. rewrite (stat_disk _ _ q D58). unfold stat in *.
    destruct T5 as (TN & TC & _). rewrite TN, (resolve_nodes true s3 (fst a5)) by congruence. exact X. }
  exists i, raw, hi, ho, (ok_handle fh), (c_a (set_disk s3 c2)), a5.
  assert (DC : same_disk s (disk ch)) by (eapply same_disk_trans; eauto).
  constructor.
  - exact STI.
  - exists c0, (c_tty c2). split; [exact CA|]. split; [exact CT|]. split; [exact CS|].
    apply (yields_disk V c0 ch); [rewrite S0; exact DC|exact SIH|exact TTH|].
    apply OK2. reflexivity.
  - split; reflexivity.
  - split; [|exact PO3]. apply ALL. exact ST3.
  - destruct (cp_header p) as [hp|]; [|subst fh; reflexivity].
    destruct OKH as [->|(j & pl & -> & STJ & _)]; [left; reflexivity|right]. eexists. split; [reflexivity|].
    split; [reflexivity|]. cbn. fold s. rewrite <- STJ. symmetry. apply stat_disk. exact D1.
  - exact DE3.
  - exact W3.
  - exact EF.
  - exact D58.
  - intros NF. fold s in NF. assert (NF1 : no_faults s1) by (rewrite (C1 NF); exact NF).
    assert (NFH : no_faults (disk ch)) by (rewrite (CH NF1); exact NF1).
    destruct (C3 (C2 NFH)) as [NF3 P3].
    assert (NF5 : no_faults (fst a5)).
    { destruct NF3 as [X Y]. destruct T5 as (_ & _ & _ & _ & X' & Y'). split; congruence. }
    destruct (C7 NF5) as [-> _].
    split; [rewrite (C8 NF5); exact NF5|]. split; [exact (PLI NF)|]. split; [exact P3|].
    intros h E. destruct (cp_header p) as [hp|]; [|subst fh; discriminate E].
    destruct OKH as [->|(j & pl & -> & _ & PL)]; [discriminate E|].
    cbn in E. injection E as <-. exact (PL NF1).
Qed.
