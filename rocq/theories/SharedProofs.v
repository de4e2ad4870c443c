(** One file under two handles. *)
From Coq Require Import List Arith NArith ZArith Lia Bool.
From Verif Require Import Bytes Outcome IO Primitives Crypto Header Stream KeyModel EncDec.
From Verif Require Import FS Archive Shared SharedSpec IOFacts WorldFrames DecSim SharedSim.
Import ListNotations.
Local Open Scope nat_scope.

(** ** Different files *)

Lemma rel_start : forall hi ho hh i o h (a : asys),
  rel hi ho hh (fst a) i o h (mkShared hi ho hh (fst a) (snd a))
    (mkWorld (handle_dev (fst a) hi) (handle_dev (fst a) ho) (opt_dev (fst a) hh) (s_rng (fst a)) (snd a)).
Proof.
  intros hi ho hh i o h a.
  assert (T : forall g, tied (fst a) (fst a) g (handle_dev (fst a) g)).
  { intros g. unfold tied, handle_dev. cbn [d_data d_pos d_plan d_log map]. rewrite app_nil_r. auto. }
  constructor; cbn [sh_in sh_out sh_hdr sh_sys sh_tr w_in w_out w_hdr w_rng w_tr]; auto.
  - split; reflexivity.
  - split; reflexivity.
  - destruct hh; [split; reflexivity|exact I].
  - intros _ y ->. apply T.
  - intros j _. split; reflexivity.
  - repeat split.
Qed.

Lemma log_own : forall n k (l : list (nat * bytes)),
  filter (on_file n) (map (fun w => FWrite k (fst w) (snd w)) l)
  = if k =? n then map (fun w => FWrite k (fst w) (snd w)) l else [].
Proof.
  intros n k l. destruct (Nat.eqb_spec k n) as [->|N]; [apply filter_own|apply filter_alien; auto].
Qed.

Lemma rel_end : forall hi ho hh (a : asys) x w, apart hi ho hh ->
  rel hi ho hh (fst a) true true true x w ->
  (sh_in x = move_handle (w_in w) hi) /\ (sh_out x = move_handle (w_out w) ho)
  /\ same_state (sh_sys x, sh_tr x)
       (with_rng (w_rng w) (put_opt (w_hdr w) hh (put_handle (w_out w) ho (put_handle (w_in w) hi (fst a)))), w_tr w).
Proof.
  intros hi ho hh a x w (N1 & N2) R. destruct R.
  assert (MV : forall g b d s, moved g b -> tied (fst a) s b d -> b = move_handle d g).
  { intros g b d s (A & B) (_ & C & D & _). unfold move_handle. destruct b. cbn in *. congruence. }
  split; [eapply MV; eauto|]. split; [eapply MV; eauto|].
  specialize (r_in eq_refl). specialize (r_out eq_refl). specialize (r_hdr eq_refl).
  destruct r_in as (I1 & _ & _ & I2), r_out as (O1 & _ & _ & O2).
  rewrite <- (proj2 r_mi) in I1, I2. rewrite <- (proj2 r_mo) in O1, O2.
  destruct r_beside as (B1 & B2 & B3 & B4 & B5 & B6).
  destruct hh as [g|].
  - destruct (sh_hdr x) as [y|] eqn:Y; [|contradiction]. destruct (r_hdr y eq_refl) as (H1 & _ & _ & H2).
    cbn [moved_opt] in r_mh. rewrite <- (proj2 r_mh) in H1, H2. destruct (N2 g eq_refl) as (N3 & N4).
    unfold same_state, put_opt, put_handle, with_rng, with_data, set_data.
    cbn [fst snd s_nodes s_data s_next s_cwd s_tmp s_faults s_plans s_rng s_log].
    repeat split; auto.
    + intros j. destruct (Nat.eqb_spec j (h_ino g)) as [->|J1]; [exact H1|].
      destruct (Nat.eqb_spec j (h_ino ho)) as [->|J2]; [exact O1|].
      destruct (Nat.eqb_spec j (h_ino hi)) as [->|J3]; [exact I1|].
      apply r_rest. intros [(_ & ->)|[(_ & ->)|(_ & z & Z & ->)]]; try congruence.
    + intros j. rewrite !filter_app, !log_own.
      destruct (Nat.eqb_spec (h_ino hi) j) as [<-|J3].
      { destruct (Nat.eqb_spec (h_ino ho) (h_ino hi)); [congruence|].
        destruct (Nat.eqb_spec (h_ino g) (h_ino hi)); [congruence|]. rewrite !app_nil_r. exact I2. }
      destruct (Nat.eqb_spec (h_ino ho) j) as [<-|J2].
      { destruct (Nat.eqb_spec (h_ino g) (h_ino ho)); [congruence|]. rewrite !app_nil_r. exact O2. }
      destruct (Nat.eqb_spec (h_ino g) j) as [<-|J1]; rewrite !app_nil_r; [exact H2|].
      apply r_rest. intros [(_ & ->)|[(_ & ->)|(_ & z & Z & ->)]]; congruence.
  - unfold same_state, put_opt, put_handle, with_rng, with_data, set_data.
    cbn [fst snd s_nodes s_data s_next s_cwd s_tmp s_faults s_plans s_rng s_log].
    repeat split; auto.
    + intros j. destruct (Nat.eqb_spec j (h_ino ho)) as [->|J2]; [exact O1|].
      destruct (Nat.eqb_spec j (h_ino hi)) as [->|J3]; [exact I1|].
      apply r_rest. intros [(_ & ->)|[(_ & ->)|(_ & z & Z & ->)]]; congruence.
    + intros j. rewrite !filter_app, !log_own.
      destruct (Nat.eqb_spec (h_ino hi) j) as [<-|J3].
      { destruct (Nat.eqb_spec (h_ino ho) (h_ino hi)); [congruence|]. rewrite !app_nil_r. exact I2. }
      destruct (Nat.eqb_spec (h_ino ho) j) as [<-|J2]; rewrite !app_nil_r; [exact O2|].
      apply r_rest. intros [(_ & ->)|[(_ & ->)|(_ & z & Z & ->)]]; congruence.
Qed.

Lemma apart_separate : forall hi ho hh, apart hi ho hh -> separate hi ho hh true true true.
Proof.
  intros hi ho hh (A & B). split; [auto|]. split; intros _ _ y Y; destruct (B y Y); auto.
Qed.

Lemma distinct_runs : forall {E A} (m : M shared E A) (m' : M world E A) hi ho hh a, apart hi ho hh ->
  sim (rel hi ho hh (fst a) true true true) m m' ->
  fst (run_shared m hi ho hh a) = fst (run_world m' hi ho hh a)
  /\ same_state (snd (run_shared m hi ho hh a)) (snd (run_world m' hi ho hh a)).
Proof.
  intros E A m m' hi ho hh a AP SM. unfold run_shared, run_world.
  destruct (SM _ _ (rel_start hi ho hh true true true a)) as (F & G).
  destruct (m _) as [o1 x]. destruct (m' _) as [o2 w]. cbn [fst snd] in *. subst o2.
  destruct (rel_end _ _ _ _ _ _ AP G) as (X & Y & Z). rewrite X, Y. auto.
Qed.

Lemma distinct_encrypt : forall E req hi ho hh a, apart hi ho hh ->
  er_detached req = match hh with Some _ => true | None => false end ->
  fst (run_shared (encrypt_shared E req) hi ho hh a) = fst (run_world (encrypt_execute E req) hi ho hh a)
  /\ same_state (snd (run_shared (encrypt_shared E req) hi ho hh a))
                (snd (run_world (encrypt_execute E req) hi ho hh a)).
Proof.
  intros E req hi ho hh a AP D. apply distinct_runs; auto. intros x w R.
  unfold encrypt_execute. rewrite <- same_encrypt. revert x w R.
  apply rel_encrypt; auto using apart_separate. intros D1. split; auto. rewrite D in D1. destruct hh; congruence.
Qed.
Lemma distinct_decrypt : forall E raw hi ho hh a, apart hi ho hh ->
  let detached := match hh with Some _ => true | None => false end in
  fst (run_shared (decrypt_shared E detached raw) hi ho hh a)
  = fst (run_world (decrypt_execute E detached raw) hi ho hh a)
  /\ same_state (snd (run_shared (decrypt_shared E detached raw) hi ho hh a))
                (snd (run_world (decrypt_execute E detached raw) hi ho hh a)).
Proof.
  intros E raw hi ho hh a AP detached. apply distinct_runs; auto. intros x w R.
  unfold decrypt_execute. rewrite <- same_decrypt. revert x w R.
  apply rel_decrypt; auto using apart_separate. intros D1. split; auto. subst detached. destruct hh; congruence.
Qed.
