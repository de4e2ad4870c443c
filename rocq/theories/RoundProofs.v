(** Encrypting and decrypting, one command after the other. *)
From Coq Require Import List Arith NArith ZArith Ascii String Bool Lia.
From Verif Require Import Bytes Outcome IO Primitives Crypto Header Stream KeyModel EncDec.
From Verif Require Import Overwrite Hash FS Erase Archive Cli.
From Verif Require Import FileSpec FSSpec ArchiveSpec CliSpec ChoiceSpec WorksSpec RoundSpec.
From Verif Require Import WorldFrames FSFacts EraseProofs UnpackProofs CliKeys CliRuns CliCommands CliProofs CliPack CliSafety WorksProofs.
From Verif Require Import Clap ClapSpec ClapProofs ClapResults.
Import ListNotations.
Local Open Scope nat_scope.
Local Open Scope list_scope.

(** ** Failures that were not to come do not come *)
Definition kp (s s' : sys) : Prop := no_faults s -> no_faults s'.
Lemma kp_refl : forall s, kp s s. Proof. intros s H. exact H. Qed.
Lemma kp_trans : forall a b c, kp a b -> kp b c -> kp a c.
Proof. unfold kp. auto. Qed.
Fixpoint steps_kp {E A} (r : R E A) : Prop :=
  match r with
  | Done _ => True
  | Step X m k => (forall s, kp s (snd (m s))) /\ forall x, steps_kp (k x)
  end.
Lemma kp_bind : forall {E A B} (r : R E A) (k : A -> R E B),
  steps_kp r -> (forall a, steps_kp (k a)) -> steps_kp (rbind r k).
Proof.
  intros E A B r k. induction r as [o|X m c IH]; intros H K; cbn.
  - destruct o; cbn; auto.
  - destruct H as [H1 H2]. split; [exact H1|]. intros x. apply IH; auto.
Qed.
Lemma kp_map_err : forall {E E' A} (f : E -> E') (r : R E A), steps_kp r -> steps_kp (rmap_err f r).
Proof.
  intros E E' A f r. induction r as [o|X m c IH]; intros H; cbn.
  - destruct o; exact I.
  - destruct H as [H1 H2]. split; [exact H1|]. intros x. apply IH; auto.
Qed.
Lemma kp_atom : forall {E A} (m : M sys E A), (forall s, kp s (snd (m s))) -> steps_kp (atom m).
Proof. intros E A m H. split; [|intros x; exact I]. exact H. Qed.
Lemma kp_run : forall {E A} (r : R E A) s, steps_kp r -> kp s (snd (run r s)).
Proof.
  intros E A r. induction r as [o1|X m c IH]; intros s H; cbn; [apply kp_refl|].
  destruct H as [H1 H2]. specialize (H1 s). destruct (m s) as [x s1].
  eapply kp_trans; [exact H1|]. apply IH, H2.
Qed.
Lemma kp_call : forall {E A} (e : E) (m : M sys E A) s, (forall s, kp s (snd (m s))) -> kp s (snd (call_or e m s)).
Proof.
  intros E A e m s H. unfold call_or.
  assert (R : kp s (snd (next_fault s))).
  { intros [A1 A2]. unfold next_fault. rewrite A1. split; assumption. }
  destruct (next_fault s) as [b s1]. destruct b; [exact R|]. eapply kp_trans; [exact R|apply H].
Qed.
Lemma kp_handle : forall p i s, kp s (snd (new_handle p i s)).
Proof.
  intros p i s [A1 A2]. unfold new_handle, next_plan. rewrite A2. split; assumption.
Qed.
Lemma kp_write_file : forall p s, kp s (snd (write_file p s)).
Proof.
  intros p s. apply kp_call. clear s. intros s. destruct (stat s p) as [[|i|t]|]; try apply kp_refl.
  intros NF. apply kp_handle. exact NF.
Qed.
Lemma kp_len : forall e s, kp s (snd (file_len e s)).
Proof. intros [h|p] s; [apply kp_call; intros; apply kp_refl|apply kp_refl]. Qed.
Lemma kp_truncate : forall h s, kp s (snd (truncate h s)).
Proof. intros h s. apply kp_call. clear s. intros s NF. exact NF. Qed.
Lemma kp_unlink : forall p s, kp s (snd (unlink p s)).
Proof.
  intros p s. apply kp_call. clear s. intros s. destruct (resolve false s p); [|apply kp_refl].
  destruct (lookup _ _) as [[|i|t]|]; intros NF; exact NF.
Qed.
Lemma kp_flush : forall s, kp s (snd (flush s)).
Proof. intros s. apply kp_call. intros; apply kp_refl. Qed.
Lemma kp_erase : forall p passes, steps_kp (erase_execute p passes).
Proof.
  intros p passes. unfold erase_execute.
  apply kp_bind; [apply kp_map_err, kp_atom, kp_write_file|intros e].
  apply kp_bind; [apply kp_map_err, kp_atom, kp_len|intros cap].
  apply kp_bind.
  - destruct e as [h|q]; [|exact I]. apply kp_bind.
    + split; [|intros x; exact I]. intros s NF. unfold run_handle.
      destruct (overwrite_execute cap passes (handle_dev s h, s_rng s)) as [o [d g]]. exact NF.
    + intros [[] h']; exact I.
  - intros e'. apply kp_map_err. apply kp_bind; [|intros _; apply kp_atom, kp_unlink]. destruct e'; [|exact I].
    apply kp_bind; [apply kp_atom, kp_truncate|intros _; apply kp_atom, kp_flush].
Qed.

(** ** What encrypting leaves *)
Lemma remove_lookup : forall ns q r, q <> [] -> lookup (remove_node ns q) r = if cpath_eqb r q then None else lookup ns r.
Proof. intros. apply lookup_remove. assumption. Qed.

Record left_by (s s' : sys) (q : cpath) (i : nat) (output : string) : Prop := {
  lb_calm : no_faults s';
  lb_inodes : inodes_ok s';
  lb_resolve : forall f p, resolve f s' p = resolve f s p;
  lb_gone : lookup (s_nodes s') q = None;
  lb_names : forall r n, r <> q -> lookup (s_nodes s) r = Some n -> lookup (s_nodes s') r = Some n;
  lb_new : forall r j, lookup (s_nodes s') r = Some (NFile j) -> lookup (s_nodes s) r = Some (NFile j) \/ s_next s <= j;
  lb_data : forall j, j < s_next s -> j <> i -> stat s (os_path output) <> Some (NFile j) -> s_data s' j = s_data s j
}.

Lemma encrypt_leaves : forall V g c c' input output q i,
  no_faults (disk c) -> inodes_ok (disk c) ->
  given g "input" input -> given g "output" output -> not_given g "header" ->
  resolve false (disk c) (os_path input) = Some q -> lookup (s_nodes (disk c)) q = Some (NFile i) -> q <> [] ->
  stat (disk c) (os_path output) <> Some (NFile i) ->
  run_command V CmdEncrypt g c = (Ok tt, c') ->
  left_by (disk c) (disk c') q i output.
Proof.
  intros V g c c' input output q i NF IO GI GO NH RQ LQ QN SEP H.
  assert (RT : resolve true (disk c) (os_path input) = Some q) by (eapply resolve_same; eauto; discriminate).
  assert (ST : stat (disk c) (os_path input) = Some (NFile i)) by (unfold stat; rewrite RT; exact LQ).
  assert (NE : input <> output) by congruence.
  destruct (encrypt_run _ _ _ _ _ _ _ GI GO NE H) as (p & n & o1 & c1 & PO & EM & RES).
  destruct RES as [(NO & <- & _)|(-> & SE)]; [congruence|].
  destruct (encrypt_main_any _ _ _ _ _ _ _ _ EM) as (W & _ & OK).
  rewrite (header_targets_of _ _ _ _ _ PO), printed_disk in W.
  assert (WT : write_targets g output = [os_path output]).
  { unfold write_targets. unfold not_given in NH. rewrite NH. reflexivity. }
  rewrite WT in W.
  destruct (OK eq_refl) as (i' & raw & hi & ho & hh & a1 & a2 & EN).
  destruct (en_calm _ _ _ _ _ _ _ _ _ _ _ _ _ _ EN NF) as (NF1 & _).
  pose proof (ow_stat_kept _ _ _ _ _ W ST) as ST1.
  destruct (secure_erase_file _ _ _ _ _ _ _ _ SE ST1) as [(X & _)|(s1 & oe & D & C & ER & OE)]; [discriminate|].
  rewrite (C NF1) in ER. clear s1 D C.
  assert (NF2 : no_faults (disk c')).
  { pose proof (kp_run _ (disk c1) (kp_erase (os_path input) (passes_of (g "erase"%string)))) as K.
    rewrite ER in K. exact (K NF1). }
  destruct oe as [[]|e| |]; try discriminate.
  destruct (erase_any _ _ _ _ _ ER) as [(X & _)|(j & q0 & STJ & RQ0 & CW & TM & NX & DO & DE & _ & NO)]; [discriminate|].
  assert (j = i) by congruence. subst j.
  assert (q0 = q). { rewrite (ow_resolve false _ _ _ _ W) in RQ0. congruence. } subst q0.
  destruct NO as [(_ & NN & _)|(_ & X & _)]; [|contradiction].
  pose proof (ow_inodes _ _ _ IO W) as IO1.
  assert (LQ1 : lookup (s_nodes (disk c1)) q = Some (NFile i)).
  { destruct (ow_nodes _ _ _ W q) as [E|(E & _)]; congruence. }
  constructor.
  - exact NF2.
  - intros r j L. rewrite NN, lookup_remove in L by exact QN. destruct (cpath_eqb r q); [discriminate|].
    rewrite NX. exact (IO1 _ _ L).
  - intros f x. rewrite <- (ow_resolve f _ _ _ x W). apply resolve_lost_files; [|exact CW].
    intros r. rewrite NN, lookup_remove by exact QN. destruct (cpath_eqb r q) eqn:X; [|left; reflexivity].
    apply cpath_eqb_eq in X. subst r. right. split; [reflexivity|]. exists i. exact LQ1.
  - rewrite NN, lookup_remove by exact QN. rewrite cpath_eqb_refl. reflexivity.
  - intros r x RN L. rewrite NN, lookup_remove by exact QN. destruct (cpath_eqb r q) eqn:X; [apply cpath_eqb_eq in X; contradiction|].
    destruct (ow_nodes _ _ _ W r) as [E|(E & _)]; congruence.
  - intros r j L. rewrite NN, lookup_remove in L by exact QN. destruct (cpath_eqb r q); [discriminate|].
    destruct (ow_nodes _ _ _ W r) as [E|(_ & j' & E & B)]; [left; congruence|right]. rewrite L in E. injection E as ->. lia.
  - intros j JN JI JO. rewrite (DO j JI). apply (ow_data _ _ _ W). intros [A|(t & [<-|[]] & S)]; [lia|congruence].
Qed.

(** ** Nothing is typed while encrypting *)
Definition nt (c c' : cli) : Prop := c_tty c' = c_tty c.
Lemma nt_refl : forall c, nt c c. Proof. reflexivity. Qed.
Lemma nt_trans : forall a b c, nt a b -> nt b c -> nt a c.
Proof. unfold nt. congruence. Qed.
Ltac nts := repeat lazymatch goal with
    | |- always nt (bind _ _) => apply (always_bind nt nt_trans); [|intros ?]
    | |- always nt (ret _) => apply (always_ret nt nt_refl)
    | |- always nt (err _) => apply (always_err nt nt_refl)
    | |- always nt (lift _) => apply (always_lift nt nt_refl)
    | |- always nt (map_err _ _) => apply (always_map_err nt)
    | |- always nt (if ?b then _ else _) => destruct b
    | |- always nt (match ?x with _ => _ end) => destruct x
    end.
Lemma nt_on_a : forall {X A} (m : M asys X A), always nt (on_a m).
Proof. intros X A m c o c' H. unfold on_a, zoom in H. destruct (m (c_a c)). inversion H. reflexivity. Qed.
Lemma nt_check : forall n f, always nt (check_or_exit n f).
Proof. intros n f c o c' H. destruct (check_or_exit_any _ _ _ _ _ H) as (_ & T & _). exact T. Qed.
Lemma nt_answer : forall p d f, always nt (get_answer p d f).
Proof. intros p d f c o c' H. destruct (get_answer_any _ _ _ _ _ _ H) as (_ & T & _). exact T. Qed.
Lemma nt_say : forall n, always nt (say n).
Proof. intros n c o c' H. inversion H. reflexivity. Qed.
Lemma nt_secret : forall V k st, k <> User -> always nt (get_secret V k st).
Proof.
  intros V k st K. unfold get_secret. destruct k; try contradiction; nts;
    try apply nt_on_a; try apply nt_say; try (intros c o c' H; inversion H; reflexivity).
  unfold lift_opt. nts.
Qed.
Lemma nt_header : forall p, always nt (open_header p).
Proof. intros p. unfold open_header. nts; [apply nt_check|apply nt_on_a]. Qed.
Lemma nt_hash : forall V l, always nt (hash_files V l).
Proof. intros V l. induction l as [|f l IH]; cbn [hash_files]; nts; [apply nt_on_a|apply nt_say|exact IH]. Qed.
Lemma nt_erase : forall V i p f, always nt (secure_erase V i p f).
Proof. intros V i p f. unfold secure_erase. nts; try apply nt_on_a. apply nt_answer. Qed.
Lemma encrypt_tty : forall V g c o c' input output,
  given g "input" input -> given g "output" output -> input <> output ->
  run_command V CmdEncrypt g c = (o, c') -> c_tty c' = c_tty c.
Proof.
  intros V g c o c' input output GI GO NE H.
  destruct (encrypt_run _ _ _ _ _ _ _ GI GO NE H) as (p & n & o1 & c1 & PO & EM & RES).
  assert (K : cp_key p <> User).
  { pose proof (po_key _ _ _ _ PO) as KS. intros E. rewrite E in KS. inversion KS as [| | | | |? ? I].
    destruct I as [I|[I|[]]]; discriminate I. }
  assert (T : c_tty c1 = c_tty c).
  { change (c_tty c) with (c_tty (printed n c)). revert EM. generalize (printed n c). intros c0 EM. revert c0 o1 c1 EM RES.
    assert (AL : always nt (encrypt_main V input output p (algorithm_asked g))).
    { unfold encrypt_main. nts; first [apply nt_check|apply nt_on_a|apply nt_secret, K|apply nt_header|apply nt_hash|idtac].
      all: unfold flush_opt, try_handle; nts; apply nt_on_a. }
    intros c0 o1 c1 EM _. exact (AL _ _ _ EM). }
  destruct RES as [(_ & _ & ->)|(_ & SE)]; [exact T|]. rewrite <- T. exact (nt_erase _ _ _ _ _ _ _ SE).
Qed.

Lemma key_was : forall V g1 g2 c i output raw raw', same_key V g1 g2 (disk c) (c_tty c) i output raw ->
  key_taken V CmdEncrypt g1 Validate c output raw' -> raw' = raw.
Proof.
  intros V g1 g2 c i output raw raw' SK (k & c0 & t & KS & CA & _ & _ & Y).
  assert (D : disk c0 = disk c) by (unfold disk; rewrite CA; reflexivity).
  destruct SK as [key j K1 _ KN SJ _ _ DJ _|K1 _ EV _|n ph rest K1 _ GP _ RW _].
  - destruct K1 as [l K1]. inversion KS as [v [l' G]|NG|? ? NG|? NG|NG|NG]; subst; try (unfold not_given in NG; congruence).
    assert (v = key) by congruence. subst v. inversion Y; subst; [congruence|]. rewrite D in *. congruence.
  - unfold not_given in K1. inversion KS as [v [l' G]|NG EN|? ? ? EN|? ? EN|? EN|? EN]; subst; try congruence.
    inversion Y; subst; congruence.
  - rewrite (key_source_unique _ _ _ _ _ KS K1) in Y. inversion Y; subst; congruence.
Qed.

Lemma round_trip : forall V g1 g2 c input output q i pt raw,
  env_ok (ce_E V) -> ce_debug V = false -> no_faults (disk c) -> inodes_ok (disk c) ->
  given g1 "input" input -> given g1 "output" output -> not_given g1 "header" ->
  given g2 "input" output -> given g2 "output" input -> not_given g2 "header" ->
  resolve false (disk c) (os_path input) = Some q -> at_place (disk c) q = Some (SFile i pt) -> q <> [] ->
  (N.of_nat (List.length pt / BLOCK_SIZE) <= counter_max (ce_E V))%N ->
  stat (disk c) (os_path output) <> Some (NFile i) -> can_write g1 (disk c) (os_path output) ->
  same_key V g1 g2 (disk c) (c_tty c) i output raw -> hashes (ce_E V) (kdf_asked g1) raw ->
  exists c1 c2 j, run_command V CmdEncrypt g1 c = (Ok tt, c1) /\ run_command V CmdDecrypt g2 c1 = (Ok tt, c2)
    /\ at_place (disk c1) q = None
    /\ at_place (disk c2) q = Some (SFile j pt) /\ stat (disk c2) (os_path output) = None
    /\ spared (disk c) (disk c2) q i (os_path output).
Proof.
  intros V g1 g2 c input output q i pt raw HE DB NF IO GI GO NH GI2 GO2 NH2 RQ PQ QN LEN SEP CW SK HS.
  assert (LQ : lookup (s_nodes (disk c)) q = Some (NFile i) /\ s_data (disk c) i = pt).
  { unfold at_place in PQ. destruct (lookup (s_nodes (disk c)) q) as [[|x|]|]; try discriminate. injection PQ as -> ->. auto. }
  destruct LQ as [LQ DI].
  assert (RT : resolve true (disk c) (os_path input) = Some q) by (eapply resolve_same; eauto; discriminate).
  assert (ST : stat (disk c) (os_path input) = Some (NFile i)) by (unfold stat; rewrite RT; exact LQ).
  assert (WT : write_targets g1 output = [os_path output]).
  { unfold write_targets. unfold not_given in NH. rewrite NH. reflexivity. }
  assert (SEP' : forall t, In t (write_targets g1 output) -> stat (disk c) t <> Some (NFile i)).
  { rewrite WT. intros t [<-|[]]. exact SEP. }
  assert (NHG : forall h, given g1 "header" h -> False).
  { intros h [l G]. unfold not_given in NH. congruence. }
  assert (KY : exists k t, key_source V CmdEncrypt g1 k /\ yields V c k Validate raw t).
  { destruct SK as [key j K1 _ KN SJ _ _ DJ NZ|K1 _ EV NZ|n ph rest K1 _ GP PN RW _].
    - exists (Keyfile key), (c_tty c). split; [constructor; exact K1|]. rewrite <- DJ in *. constructor; assumption.
    - exists Env, (c_tty c). split; [constructor; [exact K1|congruence]|constructor; assumption].
    - exists (Generate n), (c_tty c). split; [exact K1|]. rewrite RW. constructor; assumption. }
  destruct KY as (k & t & KS & Y).
  destruct (encrypt_works V g1 c input output i k raw t HE NF IO GI GO ST) as [c1 E1];
    [rewrite DI; exact LEN|exact SEP'|exact CW|intros h G; destruct (NHG h G)|exact KS|exact Y|exact HS|].
  pose proof (encrypt_leaves V g1 c c1 input output q i NF IO GI GO NH RQ LQ QN SEP E1) as LB.
  destruct (encrypt_keeps V g1 c (Ok tt) c1 input output i HE NF IO GI GO ST SEP') as [_ KEEP]; [|exact E1|].
  { intros h G. destruct (NHG h G). }
  destruct (KEEP eq_refl) as (GONE & raw' & KT & qo & io & ct & RO & PO & REC). clear KEEP.
  assert (raw' = raw) by (eapply key_was; eauto). subst raw'.
  unfold not_given in NH. rewrite NH in REC. rewrite DI in REC.
  assert (LO : lookup (s_nodes (disk c1)) qo = Some (NFile io) /\ s_data (disk c1) io = ct).
  { unfold at_place in PO. destruct (lookup (s_nodes (disk c1)) qo) as [[|x|]|]; try discriminate. injection PO as -> ->. auto. }
  destruct LO as [LO DO].
  assert (SO : stat (disk c1) (os_path output) = Some (NFile io)).
  { unfold stat. rewrite (lb_resolve _ _ _ _ _ LB), RO. exact LO. }
  assert (KY2 : exists k t, key_source V CmdDecrypt g2 k /\ yields V c1 k Direct raw t).
  { destruct SK as [key j _ K2 KN SJ JI JO DJ NZ|_ K2 EV NZ|n ph rest _ K2 GP PN RW TY].
    - exists (Keyfile key), (c_tty c1). split; [constructor; exact K2|].
      pose proof SJ as SJ0. unfold stat in SJ. destruct (resolve true (disk c) (os_path key)) as [qk|] eqn:RK; [|discriminate].
      assert (SJ1 : stat (disk c1) (os_path key) = Some (NFile j)).
      { unfold stat. rewrite (lb_resolve _ _ _ _ _ LB), RK. apply (lb_names _ _ _ _ _ LB); [|exact SJ]. congruence. }
      assert (DJ1 : s_data (disk c1) j = raw).
      { rewrite (lb_data _ _ _ _ _ LB j); auto. exact (IO _ _ SJ). }
      rewrite <- DJ1 in *. constructor; assumption.
    - exists Env, (c_tty c1). split; [constructor; [exact K2|congruence]|constructor; assumption].
    - exists User, rest. split; [exact K2|]. constructor.
      + rewrite (encrypt_tty V g1 c (Ok tt) c1 input output GI GO); [exact TY|congruence|exact E1].
      + rewrite RW. destruct ph; [contradiction|discriminate]. }
  destruct KY2 as (k2 & t2 & KS2 & Y2).
  assert (RQ1 : resolve false (disk c1) (os_path input) = Some q).
  { rewrite (lb_resolve _ _ _ _ _ LB). exact RQ. }
  destruct (REC V g2 c1 output input io q k2 t2 eq_refl DB GI2 GO2 (lb_calm _ _ _ _ _ LB) (lb_inodes _ _ _ _ _ LB) SO DO NH2
              RQ1 (lb_gone _ _ _ _ _ LB) KS2 Y2) as (c2 & j & E2 & PL).
  exists c1, c2, j. split; [exact E1|]. split; [exact E2|].
  split; [unfold at_place; rewrite (lb_gone _ _ _ _ _ LB); reflexivity|]. split; [exact PL|].
  assert (SEP2 : stat (disk c1) (os_path input) <> Some (NFile io)) by congruence.
  destruct (decrypt_keeps V g2 c1 (Ok tt) c2 output input io HE DB (lb_calm _ _ _ _ _ LB) (lb_inodes _ _ _ _ _ LB) GI2 GO2 SO SEP2)
    as [_ KEEP]; [|exact E2|].
  { intros h x [l G]. unfold not_given in NH2. rewrite NH2 in G. discriminate G. }
  destruct (KEEP eq_refl) as [GONE2 _]. split; [exact GONE2|].
  assert (NE : output <> input) by congruence.
  destruct (decrypt_stages V g2 c1 (Ok tt) c2 output input DB GI2 GO2 NE E2) as (sm & W & [(X & _)|(io' & S1 & S2 & ES & _)]); [congruence|].
  assert (io' = io) by congruence. subst io'.
  intros r x PR RNQ RNO FILES.
  assert (P1 : exists n, lookup (s_nodes (disk c)) r = Some n /\ lookup (s_nodes (disk c1)) r = Some n
    /\ (forall j, n = NFile j -> j <> io /\ s_data (disk c1) j = s_data (disk c) j /\ j < s_next (disk c1))).
  { unfold at_place in PR. destruct (lookup (s_nodes (disk c)) r) as [n|] eqn:L; [|discriminate]. exists n. split; [reflexivity|].
    pose proof (lb_names _ _ _ _ _ LB r n RNQ L) as L1. split; [exact L1|]. intros j0 ->.
    destruct (FILES j0 eq_refl) as [F1 F2]. pose proof (IO _ _ L) as JN. rewrite (lb_data _ _ _ _ _ LB j0 JN F1 F2).
    split; [|split; [reflexivity|exact (lb_inodes _ _ _ _ _ LB _ _ L1)]].
    intros ->. destruct (lb_new _ _ _ _ _ LB qo io LO) as [A|A]; [|lia].
    apply F2. unfold stat. rewrite RO. exact A. }
  destruct P1 as (n & L & L1 & JO).
  assert (L2 : lookup (s_nodes sm) r = Some n).
  { destruct (ow_nodes _ _ _ W r) as [A|(A & _)]; congruence. }
  assert (L3 : lookup (s_nodes (disk c2)) r = Some n).
  { destruct (es_names _ _ _ _ ES) as [->|(q2 & R2 & ->)]; [exact L2|].
    assert (Q2 : q2 <> []).
    { intros ->. rewrite (ow_resolve false _ _ _ _ W) in R2.
      assert (R3 : resolve true (disk c1) (os_path output) = Some []) by (eapply resolve_same; [exact R2|reflexivity|discriminate]).
      rewrite (lb_resolve _ _ _ _ _ LB), RO in R3. injection R3 as ->. discriminate LO. }
    rewrite lookup_remove by exact Q2. destruct (cpath_eqb r q2) eqn:X; [|exact L2].
    apply cpath_eqb_eq in X. subst q2. rewrite (ow_resolve false _ _ _ _ W), (lb_resolve _ _ _ _ _ LB) in R2. congruence. }
  unfold at_place in PR |- *. rewrite L3. rewrite L in PR. destruct n as [|j0|tg]; [exact PR| |exact PR].
  destruct (JO j0 eq_refl) as (N1 & N2 & N3). rewrite (es_others _ _ _ _ ES j0 N1).
  rewrite (ow_data _ _ _ W j0); [rewrite N2; exact PR|]. intros [A|(tg & [<-|[]] & S)]; [lia|congruence].
Qed.

Lemma round_trip_lines : forall V w1 ws1 g1 w2 ws2 g2 c input output q i pt raw,
  called CmdEncrypt w1 -> says CmdEncrypt ws1 g1 -> called CmdDecrypt w2 -> says CmdDecrypt ws2 g2 ->
  env_ok (ce_E V) -> ce_debug V = false -> no_faults (disk c) -> inodes_ok (disk c) ->
  given g1 "input" input -> given g1 "output" output -> not_given g1 "header" ->
  given g2 "input" output -> given g2 "output" input -> not_given g2 "header" ->
  resolve false (disk c) (os_path input) = Some q -> at_place (disk c) q = Some (SFile i pt) ->
  (N.of_nat (List.length pt / BLOCK_SIZE) <= counter_max (ce_E V))%N ->
  stat (disk c) (os_path output) <> Some (NFile i) -> can_write g1 (disk c) (os_path output) ->
  same_key V g1 g2 (disk c) (c_tty c) i output raw -> hashes (ce_E V) (kdf_asked g1) raw ->
  exists c1 c2 j, program V (w1 :: ws1) c = (FStatus 0, c1) /\ program V (w2 :: ws2) c1 = (FStatus 0, c2)
    /\ at_place (disk c1) q = None
    /\ at_place (disk c2) q = Some (SFile j pt) /\ stat (disk c2) (os_path output) = None
    /\ spared (disk c) (disk c2) q i (os_path output).
Proof.
  intros V w1 ws1 g1 w2 ws2 g2 c input output q i pt raw C1 S1 C2 S2 HE DB NF IO GI GO NH GI2 GO2 NH2 RQ PQ LEN SEP CW SK HS.
  assert (QN : q <> []) by (intros ->; discriminate PQ).
  destruct (round_trip V g1 g2 c input output q i pt raw HE DB NF IO GI GO NH GI2 GO2 NH2 RQ PQ QN LEN SEP CW SK HS)
    as (c1 & c2 & j & E1 & E2 & REST).
  exists c1, c2, j. rewrite (program_said V _ _ _ _ _ C1 S1), (program_said V _ _ _ _ _ C2 S2), E1, E2. auto.
Qed.
