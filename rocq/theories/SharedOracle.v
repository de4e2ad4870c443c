(** The open result of Cli.v can be what happens here. *)
From Coq Require Import List Arith NArith ZArith Lia Bool String.
From Verif Require Import Bytes Outcome IO Primitives Crypto Header Stream KeyModel EncDec.
From Verif Require Import FS Archive Cli Shared SharedSpec HeaderSpec BytesFacts IOFacts HeaderFacts FileFacts.
From Verif Require Import WorldFrames SharedSim SharedDecrypt SharedEncrypt SharedExact.
Import ListNotations.
Local Open Scope nat_scope.

Definition fwrites (l : list (nat * (nat * bytes))) : list fsev :=
  map (fun w => FWrite (fst w) (fst (snd w)) (snd (snd w))) l.
Record confined (ws : list nat) (s s' : sys) : Prop := {
  cf_beside : beside s' s;
  cf_data : forall j, ~ In j ws -> s_data s' j = s_data s j;
  cf_log : exists l, s_log s' = s_log s ++ fwrites l /\ Forall (fun w => In (fst w) ws) l
}.
Lemma confined_refl : forall ws s, confined ws s s.
Proof.
  intros ws s. constructor; [repeat split|reflexivity|].
  exists []. split; [cbn; symmetry; apply app_nil_r|constructor].
Qed.
Lemma confined_trans : forall ws a b c, confined ws a b -> confined ws b c -> confined ws a c.
Proof.
  intros ws a b c [A1 A2 (l & A3 & A4)] [B1 B2 (m & B3 & B4)]. constructor.
  - unfold beside in *. intuition congruence.
  - intros j J. rewrite B2, A2; auto.
  - exists (l ++ m). unfold fwrites in *. rewrite map_app, app_assoc, <- A3. split; [exact B3|apply Forall_app; auto].
Qed.
Lemma confined_put : forall ws s h d, In (h_ino h) ws -> confined ws s (put_handle d h s).
Proof.
  intros ws s h d I. constructor.
  - repeat split.
  - intros j J. unfold put_handle, with_data, set_data. cbn [s_data].
    destruct (Nat.eqb_spec j (h_ino h)); [congruence|reflexivity].
  - exists (map (fun w => (h_ino h, w)) (d_log d)). split.
    + unfold put_handle, with_data, fwrites. cbn [s_log]. rewrite map_map. reflexivity.
    + apply Forall_map, Forall_forall. auto.
Qed.
Lemma confined_still : forall ws s h d, d_data d = s_data s (h_ino h) -> d_log d = [] ->
  confined ws s (put_handle d h s).
Proof.
  intros ws s h d D L. destruct (put_still _ _ _ D L) as (A1 & A2 & A3 & A4 & A5 & A6 & A7 & A8 & A9).
  constructor; [repeat split; auto|auto|]. exists []. rewrite A9. split; [cbn; symmetry; apply app_nil_r|constructor].
Qed.

Definition inos (x : shared) : nat * option nat := (h_ino (sh_out x), option_map h_ino (sh_hdr x)).
Definition within (ws : list nat) (x x' : shared) : Prop :=
  inos x' = inos x
  /\ (In (h_ino (sh_out x)) ws -> (forall n, option_map h_ino (sh_hdr x) = Some n -> In n ws) ->
      confined ws (sh_sys x) (sh_sys x')).
Lemma within_refl : forall ws x, within ws x x.
Proof. intros ws x. split; [reflexivity|intros; apply confined_refl]. Qed.
Lemma within_trans : forall ws x y z, within ws x y -> within ws y z -> within ws x z.
Proof.
  intros ws x y z (I1 & C1) (I2 & C2). split; [congruence|]. intros A B.
  eapply confined_trans; [apply C1; auto|]. unfold inos in I1. injection I1 as O1 H1.
  apply C2; [rewrite O1; exact A|rewrite H1; exact B].
Qed.

Section Within.
Context (ws : list nat).
Lemma w_at_in : forall {E A} (m : M dev E A), always still m -> always (within ws) (p_in shared_ports m).
Proof.
  intros E A m S x o x' H. cbn [p_in shared_ports] in H. unfold at_in in H. destruct (m _) as [o1 d] eqn:M.
  inversion H; subst. destruct (S _ _ _ M) as (D & L & _). split; [reflexivity|]. intros _ _.
  cbn [sh_sys]. apply confined_still; auto.
Qed.
Lemma w_at_out : forall {E A} (m : M dev E A), always (within ws) (p_out shared_ports m).
Proof.
  intros E A m x o x' H. cbn [p_out shared_ports] in H. unfold at_out in H. destruct (m _) as [o1 d] eqn:M.
  inversion H; subst. split; [reflexivity|]. intros I _. cbn [sh_sys]. apply confined_put; auto.
Qed.
Lemma w_at_hdr : forall {E A} (m : M dev E A), always (within ws) (p_hdr shared_ports m).
Proof.
  intros E A m x o x' H. cbn [p_hdr shared_ports] in H. unfold at_hdr in H. destruct (sh_hdr x) as [g|] eqn:G.
  - destruct (m _) as [o1 d] eqn:M. inversion H; subst. split.
    + unfold inos. cbn [sh_out sh_hdr option_map move_handle h_ino]. rewrite G. reflexivity.
    + intros _ I. cbn [sh_sys]. apply confined_put. apply I. rewrite G. reflexivity.
  - inversion H; subst. apply within_refl.
Qed.
Lemma w_at_tr : forall {E A} (m : M trace E A), always (within ws) (p_tr shared_ports m).
Proof.
  intros E A m x o x' H. cbn [p_tr shared_ports] in H. unfold zoom in H. destruct (m _).
  inversion H; subst. split; [reflexivity|]. intros _ _. apply confined_refl.
Qed.
Lemma w_at_rng : forall {E A} (m : M rng E A), always (within ws) (p_rng shared_ports m).
Proof.
  intros E A m x o x' H. cbn [p_rng shared_ports] in H. unfold zoom in H. destruct (m _).
  inversion H; subst. split; [reflexivity|]. intros _ _. constructor; [repeat split|reflexivity|].
  exists []. split; [cbn; symmetry; apply app_nil_r|constructor].
Qed.

Let WT := within_trans ws.
Let WR := within_refl ws.
Lemma w_loop : forall E bs aad fuel s, always (within ws) (encrypt_loop_p shared_ports E bs fuel s aad).
Proof.
  intros E bs aad. induction fuel as [|fuel IH]; intros s.
  - intros x o x' H. inversion H; subst. apply WR.
  - cbn [encrypt_loop_p]. apply (always_bind _ WT); [apply always_map_err, w_at_in, still_read|intros buf].
    destruct (List.length buf =? bs).
    + apply (always_bind _ WT); [apply always_map_err, w_at_tr|intros cs].
      apply (always_bind _ WT); [apply always_map_err, w_at_out|intros _]. apply IH.
    + apply (always_bind _ WT); [apply always_map_err, w_at_tr|intros cs]. apply always_map_err, w_at_out.
Qed.
Lemma w_encrypt : forall E req, always (within ws) (encrypt_shared E req).
Proof.
  intros E req. unfold encrypt_shared, encrypt_execute_p.
  apply (always_bind _ WT).
  { unfold encrypt_keys_p. cbv zeta.
    repeat (apply (always_bind _ WT);
            [first [apply w_at_rng|apply always_map_err, (always_lift _ WR)|apply always_map_err, w_at_tr]|intros ?]).
    apply (always_ret _ WR). }
  intros sh. apply (always_bind _ WT).
  { unfold put_header_p. apply (always_bind _ WT); [apply always_map_err, w_at_out|intros _].
    destruct (er_detached req); [|apply w_at_out].
    apply (always_bind _ WT); [apply always_map_err, w_at_hdr|intros _]. apply w_at_hdr. }
  intros _. apply (always_bind _ WT); [apply always_map_err, (always_lift _ WR)|intros aad].
  apply (always_bind _ WT); [apply always_map_err, w_at_in, still_rewind|intros _].
  apply always_map_err. intros x o x' H. unfold encrypt_file_p in H. revert H.
  apply (always_bind _ WT (encrypt_loop_p shared_ports E BLOCK_SIZE (S (p_size shared_ports x)) (fst sh) aad));
    [apply w_loop|intros _]. apply always_map_err, w_at_out.
Qed.
End Within.

Lemma among_in : forall j ws, existsb (Nat.eqb j) ws = true <-> In j ws.
Proof.
  intros j ws. rewrite existsb_exists. split.
  - intros (x & I & E). apply Nat.eqb_eq in E. subst. exact I.
  - intros I. exists j. split; [exact I|apply Nat.eqb_refl].
Qed.
Lemma filter_all : forall {A} (f : A -> bool) l, Forall (fun x => f x = true) l -> filter f l = l.
Proof. intros A f l H. induction H; cbn; [reflexivity|]. rewrite H, IHForall. reflexivity. Qed.

(** An oracle's answer for a confined run. *)
Lemma answer : forall ws (a : asys) (o : outcome unit unit) (a' : asys), confined ws (fst a) (fst a') ->
  exists r, al_outcome r = o /\ forall V, ce_alias V a = r ->
    fst (alias V ws a) = as_alias o /\ same_state (snd (alias V ws a)) a'.
Proof.
  intros ws a o a' [CB CD (l & CL & CF)].
  exists (mkAlias o (s_data (fst a')) l (s_rng (fst a')) (snd a')). split; [reflexivity|].
  intros V AV. unfold alias. rewrite AV. cbn [al_outcome al_data al_writes al_rng al_trace fst snd].
  split; [reflexivity|]. destruct CB as (B1 & B2 & B3 & B4 & B5 & B6).
  unfold same_state. cbn [fst snd s_nodes s_data s_next s_cwd s_tmp s_faults s_plans s_rng s_log].
  assert (DD : forall i, (if existsb (Nat.eqb i) ws then s_data (fst a') i else s_data (fst a) i) = s_data (fst a') i).
  { intros i. destruct (existsb (Nat.eqb i) ws) eqn:AM; [reflexivity|].
    symmetry. apply CD. intros I. apply among_in in I. congruence. }
  assert (LL : s_log (fst a) ++ map (fun w => FWrite (fst w) (fst (snd w)) (snd (snd w)))
                 (filter (fun w => existsb (Nat.eqb (fst w)) ws) l) = s_log (fst a')).
  { rewrite CL. unfold fwrites. rewrite filter_all; [reflexivity|].
    eapply Forall_impl; [|exact CF]. intros w I. apply among_in. exact I. }
  rewrite LL. repeat split; auto.
Qed.

Definition class {E} (o : outcome E unit) : outcome unit unit :=
  match o with Ok u => Ok u | Err _ => Err tt | Panic => Panic | Diverge => Diverge end.
Lemma class_alias : forall E (o : outcome E unit), as_alias (class o) = as_alias o.
Proof. intros E []; reflexivity. Qed.
Lemma class_calm : forall E (o : outcome E unit), o <> Panic -> o <> Diverge -> class o <> Panic /\ class o <> Diverge.
Proof. intros E []; cbn; split; congruence. Qed.

Lemma encrypt_oracle : forall E req hi ho hh (a : asys), v5_request req -> emptied (fst a) ho hh ->
  (same_file ho hi || same_opt ho hh || same_opt hi hh)%bool = true ->
  exists r, al_outcome r <> Panic /\ al_outcome r <> Diverge
  /\ forall V, ce_E V = E -> ce_alias V a = r ->
     fst (encrypt_files V req hi ho hh a) = as_alias (fst (fst (run_shared (encrypt_shared E req) hi ho hh a)))
     /\ same_state (snd (encrypt_files V req hi ho hh a)) (snd (run_shared (encrypt_shared E req) hi ho hh a)).
Proof.
  intros E req hi ho hh a HV (EO & EH) AL.
  destruct (run_shared (encrypt_shared E req) hi ho hh a) as [[o hs] a'] eqn:R. cbn [fst snd].
  unfold run_shared in R. destruct (encrypt_shared E req _) as [o1 x] eqn:RX.
  assert (o1 = o) by congruence. subst o1. assert (XA : a' = (sh_sys x, sh_tr x)) by congruence. clear R.
  assert (G : o <> Panic /\ o <> Diverge).
  { pose proof (encrypt_goes E req (mkShared hi ho hh (fst a) (snd a)) HV) as G. unfold goes in G.
    rewrite RX in G. cbn [fst sh_in sh_out sh_sys] in G. apply G.
    destruct (Nat.eq_dec (h_ino hi) (h_ino ho)) as [EQ|NE]; [right; rewrite EQ; exact EO|left; exact NE]. }
  assert (C : confined (written ho hh) (fst a) (fst a')).
  { destruct (w_encrypt (written ho hh) E req _ _ _ RX) as (_ & C). cbn [sh_sys sh_out sh_hdr] in C. rewrite XA.
    apply C; [left; reflexivity|]. intros n N. unfold written. destruct hh as [g|]; [|discriminate].
    injection N as <-. right. left. reflexivity. }
  destruct (answer (written ho hh) a (class o) a' C) as (r & AO & A). exists r. rewrite AO.
  destruct (class_calm _ o (proj1 G) (proj2 G)) as (P & Q). split; [exact P|]. split; [exact Q|].
  intros V VE VA. unfold encrypt_files. rewrite AL. destruct (A V VA) as (A1 & A2). rewrite class_alias in A1. auto.
Qed.

Lemma decrypt_oracle : forall E raw hi ho hh (a : asys), env_ok E -> s_data (fst a) (h_ino ho) = [] ->
  (same_file ho hi || same_opt ho hh)%bool = true ->
  exists r, al_outcome r <> Panic /\ al_outcome r <> Diverge
  /\ forall V, ce_E V = E -> ce_alias V a = r ->
     fst (decrypt_files V raw hi ho hh a)
     = as_alias (fst (fst (run_shared (decrypt_shared E (is_some hh) raw) hi ho hh a)))
     /\ same_state (snd (decrypt_files V raw hi ho hh a))
                   (snd (run_shared (decrypt_shared E (is_some hh) raw) hi ho hh a)).
Proof.
  intros E raw hi ho hh a HE EO AL.
  destruct (run_shared (decrypt_shared E (is_some hh) raw) hi ho hh a) as [[o hs] a'] eqn:R. cbn [fst snd].
  unfold run_shared in R. destruct (decrypt_shared E (is_some hh) raw _) as [o1 x] eqn:RX.
  assert (o1 = o) by congruence. subst o1. assert (XA : a' = (sh_sys x, sh_tr x)) by congruence. clear R.
  assert (B : bad (decrypt_shared E (is_some hh) raw) (mkShared hi ho hh (fst a) (snd a))).
  { apply decrypt_nothing; auto.
    - cbn [sh_hdr]. destruct hh; [eauto|discriminate].
    - cbn [sh_in sh_out sh_hdr]. apply orb_true_iff in AL as [AL|AL].
      + left. unfold same_file in AL. apply Nat.eqb_eq in AL. auto.
      + right. unfold same_opt in AL. destruct hh as [g|]; [|discriminate]. split; [reflexivity|].
        exists g. unfold same_file in AL. apply Nat.eqb_eq in AL. auto. }
  destruct B as (e & x1 & RB & K & _). rewrite RX in RB. injection RB as -> ->. cbn [sh_sys] in K.
  assert (C : confined [h_ino ho] (fst a) (fst a')).
  { rewrite XA. destruct K as (K1 & K2 & K3 & K4 & K5 & K6 & K7 & K8 & K9).
    constructor; [repeat split; auto|auto|]. exists []. cbn [fst]. rewrite K9.
    split; [cbn; symmetry; apply app_nil_r|constructor]. }
  destruct (answer [h_ino ho] a (class (@Err dec_error unit e)) a' C) as (r & AO & A). exists r. rewrite AO.
  split; [discriminate|]. split; [discriminate|].
  intros V VE VA. unfold decrypt_files. rewrite AL. destruct (A V VA) as (A1 & A2). rewrite class_alias in A1. auto.
Qed.
