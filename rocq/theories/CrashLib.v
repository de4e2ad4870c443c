(** The log tells what the library does to its files. *)
From Coq Require Import List Arith NArith ZArith Lia Bool.
From Verif Require Import Bytes Outcome IO Primitives Crypto Header Stream KeyModel EncDec KeyOps HeaderOps Overwrite.
From Verif Require Import BytesFacts IOSpec IOFacts KeySpec WorldFrames FreshLib.
Import ListNotations.
Local Open Scope nat_scope.
Local Open Scope list_scope.

Definition dl (d d' : dev) : Prop :=
  exists l, d_log d' = d_log d ++ l /\ d_data d' = replay (d_data d) l.
Lemma dl_same : forall d d', d_log d' = d_log d -> d_data d' = d_data d -> dl d d'.
Proof. intros d d' L D. exists []. rewrite app_nil_r. auto. Qed.
Lemma dl_refl : forall d, dl d d. Proof. intros d. apply dl_same; reflexivity. Qed.
Lemma dl_trans : forall a b c, dl a b -> dl b c -> dl a c.
Proof.
  intros a b c (l & L & D) (l' & L' & D'). exists (l ++ l'). rewrite L', L, app_assoc. split; [reflexivity|].
  rewrite D', D. unfold replay. rewrite fold_left_app. reflexivity.
Qed.
Lemma dl_still : forall {E A} (m : M dev E A), always still m -> always dl m.
Proof. intros E A m H d o d' X. apply H in X as (D & L & _). apply dl_same; assumption. Qed.

Lemma next_ev_same : forall d, d_log (snd (next_ev d)) = d_log d /\ d_data (snd (next_ev d)) = d_data d.
Proof. intros d. unfold next_ev. destruct (d_plan d); split; reflexivity. Qed.
Lemma dl_read : forall n, always dl (dev_read n).
Proof.
  intros n d o d' H. unfold dev_read in H. pose proof (next_ev_same d) as [L D].
  destruct (next_ev d) as [e d1]. cbn [snd] in *.
  assert (G : d_log d' = d_log d1 /\ d_data d' = d_data d1).
  { destruct e; inversion H; subst; split; reflexivity. }
  apply dl_same; destruct G; congruence.
Qed.
Lemma dl_put : forall l d, dl d (put_at l d).
Proof.
  intros [|b l] d.
  - apply dl_same; [reflexivity|]. cbn. rewrite ?write_at_nil. reflexivity.
  - exists [(d_pos d, b :: l)]. split; reflexivity.
Qed.
Lemma dl_write : forall l, always dl (dev_write l).
Proof.
  intros l d o d' H. unfold dev_write in H. pose proof (next_ev_same d) as [L D].
  destruct (next_ev d) as [e d1]. cbn [snd] in *.
  assert (G : dl d d1) by (apply dl_same; assumption).
  destruct e; inversion H; subst; try exact G; (eapply dl_trans; [exact G|apply dl_put]).
Qed.
Lemma dl_write_loop : forall fuel l, always dl (write_all_loop fuel l).
Proof.
  induction fuel as [|fuel IH]; intros l d o d' H.
  - destruct l; inversion H; subst; apply dl_refl.
  - destruct l as [|b l]; [inversion H; subst; apply dl_refl|]. cbn [write_all_loop] in H.
    destruct (dev_write (b :: l) d) as [o1 d1] eqn:W. apply dl_write in W.
    destruct o1 as [[|k]|[]| |]; try (inversion H; subst; exact W);
      (eapply dl_trans; [exact W|]; eapply IH; exact H).
Qed.
Lemma dl_write_all : forall l, always dl (dev_write_all l).
Proof. intros l d o d' H. unfold dev_write_all in H. eapply dl_write_loop; eauto. Qed.
Lemma dl_flush : always dl dev_flush.
Proof.
  intros d o d' H. unfold dev_flush in H. pose proof (next_ev_same d) as [L D].
  destruct (next_ev d) as [e d1]. cbn [snd] in *. destruct e; inversion H; subst; apply dl_same; assumption.
Qed.
Lemma dl_rewind : always dl dev_rewind.
Proof. apply dl_still, still_rewind. Qed.
Lemma dl_seek_back : forall n, always dl (dev_seek_back n).
Proof.
  intros n d o d' H. unfold dev_seek_back in H. pose proof (next_ev_same d) as [L D].
  destruct (next_ev d) as [e d1]. cbn [snd] in *.
  destruct e; try destruct (n <=? d_pos d1); inversion H; subst; apply dl_same; assumption.
Qed.
Lemma dl_header_write : forall h, always dl (header_write h).
Proof.
  intros h. unfold header_write. apply (always_bind dl dl_trans); [apply (always_lift dl dl_refl)|intros b].
  apply (always_bind dl dl_trans); [apply always_map_err, dl_write|intros k; apply (always_ret dl dl_refl)].
Qed.
Lemma dl_write_header : forall h, always dl (write_header_to h).
Proof.
  intros h. unfold write_header_to. apply (always_bind dl dl_trans).
  { apply always_map_err, (always_lift dl dl_refl). }
  intros b. apply (always_bind dl dl_trans); [apply always_map_err, dl_write|intros k; apply (always_ret dl dl_refl)].
Qed.

(** ** Overwriting *)

Definition ol (a b : ow_state) : Prop := dl (fst a) (fst b).
Lemma ol_refl : forall a, ol a a. Proof. intros a. apply dl_refl. Qed.
Lemma ol_trans : forall a b c, ol a b -> ol b c -> ol a c.
Proof. unfold ol. intros. eapply dl_trans; eauto. Qed.
Lemma ol_dev : forall {E A} (m : M dev E A), always dl m -> always ol (ow_dev m).
Proof.
  intros E A m Hm s o s' H. unfold ow_dev, zoom in H. destruct (m (fst s)) as [o1 d1] eqn:X. inversion H. subst.
  unfold ol. cbn. eapply Hm; eauto.
Qed.
Lemma ol_random : forall l, always ol (ow_random l).
Proof.
  induction l as [|n l IH]; cbn [ow_random]; [apply (always_ret ol ol_refl)|].
  apply (always_bind ol ol_trans).
  { intros s o s' H. unfold fill_slice in H. inversion H. apply dl_refl. }
  intros b. apply (always_bind ol ol_trans); [apply (always_map_err ol), ol_dev, dl_write_all|intros _; exact IH].
Qed.
Lemma ol_passes : forall n cap, always ol (ow_passes n cap).
Proof.
  induction n as [|n IH]; intros cap; cbn [ow_passes]; [apply (always_ret ol ol_refl)|].
  apply (always_bind ol ol_trans); [|intros _; apply IH]. unfold ow_pass.
  apply (always_bind ol ol_trans); [apply (always_map_err ol), ol_dev, dl_rewind|intros _].
  apply (always_bind ol ol_trans); [apply ol_random|intros _]. apply (always_map_err ol), ol_dev, dl_flush.
Qed.
Lemma ol_overwrite : forall cap passes, always ol (overwrite_execute cap passes).
Proof.
  intros cap passes. unfold overwrite_execute.
  apply (always_bind ol ol_trans); [apply ol_passes|intros _].
  apply (always_bind ol ol_trans); [apply (always_map_err ol), ol_dev, dl_rewind|intros _].
  apply (always_bind ol ol_trans); [apply (always_map_err ol), ol_dev, dl_write_all|intros _].
  apply (always_map_err ol), ol_dev, dl_flush.
Qed.

(** ** Three files *)

Definition wl (w w' : world) : Prop :=
  dl (w_in w) (w_in w') /\ dl (w_out w) (w_out w') /\ dl (w_hdr w) (w_hdr w').
Lemma wl_refl : forall w, wl w w. Proof. intros w. repeat split; apply dl_refl. Qed.
Lemma wl_trans : forall a b c, wl a b -> wl b c -> wl a c.
Proof. intros a b c (A & B & C) (A' & B' & C'). repeat split; eapply dl_trans; eauto. Qed.
Lemma wl_in : forall {E A} (m : M dev E A), always dl m -> always wl (on_in m).
Proof.
  intros E A m H w o w' X. apply zoom_inv in X as (t & X & ->).
  repeat split; try apply dl_refl. eapply H; eauto.
Qed.
Lemma wl_out : forall {E A} (m : M dev E A), always dl m -> always wl (on_out m).
Proof.
  intros E A m H w o w' X. apply zoom_inv in X as (t & X & ->).
  repeat split; try apply dl_refl. eapply H; eauto.
Qed.
Lemma wl_hdr : forall {E A} (m : M dev E A), always dl m -> always wl (on_hdr m).
Proof.
  intros E A m H w o w' X. apply zoom_inv in X as (t & X & ->).
  repeat split; try apply dl_refl. eapply H; eauto.
Qed.
Lemma wl_tr : forall {E A} (m : M trace E A), always wl (on_tr m).
Proof. intros E A m w o w' X. apply zoom_inv in X as (t & X & ->). repeat split; apply dl_refl. Qed.
Lemma wl_fill : forall {E} n, always wl (@fill_bytes E n).
Proof. intros E n w o w' X. injection X as _ X. subst. repeat split; apply dl_refl. Qed.

Ltac dev_step := first
  [ apply dl_write_all | apply dl_write_header | apply dl_header_write | apply dl_flush | apply dl_rewind
  | apply dl_read | apply dl_seek_back | apply dl_still, still_deserialize | apply dl_still, still_read_to_end
  | apply dl_still, still_skip | apply always_map_err ].
Ltac wl_step :=
  lazymatch goal with
  | |- always wl (bind _ _) => apply (always_bind wl wl_trans); [|intros ?]
  | |- always wl (map_err _ _) => apply (always_map_err wl)
  | |- always wl (ret _) => apply (always_ret wl wl_refl)
  | |- always wl (err _) => apply (always_err wl wl_refl)
  | |- always wl (lift _) => apply (always_lift wl wl_refl)
  | |- always wl panic => apply panic_always, wl_refl
  | |- always wl (on_in _) => apply wl_in; dev_step
  | |- always wl (on_out _) => apply wl_out; dev_step
  | |- always wl (on_hdr _) => apply wl_hdr; dev_step
  | |- always wl (on_tr _) => apply wl_tr
  | |- always wl (fill_bytes _) => apply wl_fill
  | |- always wl (if ?b then _ else _) => destruct b
  | |- always wl (match ?x with _ => _ end) => destruct x
  | |- always wl (let _ := _ in _) => cbv zeta
  end.

Lemma wl_encrypt_loop : forall E bs fuel s aad, always wl (encrypt_loop E bs fuel s aad).
Proof.
  intros E bs fuel. induction fuel as [|fuel IH]; intros s aad.
  { intros w o w' H. inversion H. apply wl_refl. }
  cbn [encrypt_loop]. repeat wl_step. apply IH.
Qed.
Lemma wl_encrypt_file : forall E bs s aad, always wl (encrypt_file_bs E bs s aad).
Proof.
  intros E bs s aad w o w' H. unfold encrypt_file_bs in H. revert H.
  apply (always_bind wl wl_trans); [apply wl_encrypt_loop|intros _]. repeat wl_step.
Qed.
Lemma wl_decrypt_loop : forall E bs fuel s aad, always wl (decrypt_loop E bs fuel s aad).
Proof.
  intros E bs fuel. induction fuel as [|fuel IH]; intros s aad.
  { intros w o w' H. inversion H. apply wl_refl. }
  cbn [decrypt_loop]. repeat wl_step. apply IH.
Qed.
Lemma wl_decrypt_file : forall E bs s aad, always wl (decrypt_file_bs E bs s aad).
Proof.
  intros E bs s aad w o w' H. unfold decrypt_file_bs in H. revert H.
  apply (always_bind wl wl_trans); [apply wl_decrypt_loop|intros _]. repeat wl_step.
Qed.

Lemma wl_encrypt : forall E bs req, always wl (encrypt_execute_bs E bs req).
Proof.
  intros E bs req. unfold encrypt_execute_bs, gen_salt, gen_master_key, gen_nonce. cbv zeta.
  repeat wl_step. apply wl_encrypt_file.
Qed.
Lemma wl_decrypt : forall E bs det raw, always wl (decrypt_execute_bs E bs det raw).
Proof.
  intros E bs det raw. unfold decrypt_execute_bs. repeat wl_step. apply wl_decrypt_file.
Qed.
Lemma wl_op : forall E op, always wl (run_op E op).
Proof.
  intros E [old new ha|old new ha|old|pw]; cbn [run_op];
    unfold key_add, key_change, key_delete, key_verify, open_header, rewrite_header, gen_salt, gen_nonce;
    repeat wl_step.
Qed.
Lemma wl_dump : always wl header_dump.
Proof. unfold header_dump. repeat wl_step. Qed.
Lemma wl_strip : always wl header_strip.
Proof. unfold header_strip. repeat wl_step. Qed.
Lemma wl_restore : always wl header_restore.
Proof. unfold header_restore. repeat wl_step. Qed.

(** The calls on two or three files do not write the first. *)
Definition kin (w w' : world) : Prop := d_data (w_in w') = d_data (w_in w) /\ d_log (w_in w') = d_log (w_in w).
Lemma kin_refl : forall w, kin w w. Proof. intros w. split; reflexivity. Qed.
Lemma kin_trans : forall a b c, kin a b -> kin b c -> kin a c.
Proof. intros a b c [A B] [C D]. split; congruence. Qed.
Lemma kin_in : forall {E A} (m : M dev E A), always still m -> always kin (on_in m).
Proof.
  intros E A m H w o w' X. apply zoom_inv in X as (t & X & ->). apply H in X as (D & L & _). split; assumption.
Qed.
Lemma kin_out : forall {E A} (m : M dev E A), always kin (on_out m).
Proof. intros E A m w o w' X. apply zoom_inv in X as (t & X & ->). split; reflexivity. Qed.
Lemma kin_encrypt : forall E bs req, 0 < bs -> always kin (encrypt_execute_bs E bs req).
Proof. intros E bs req L w o w' H. apply enc_execute_frame in H as ((D & G & _) & _); [split|]; assumption. Qed.
Lemma kin_decrypt : forall E bs det raw, always kin (decrypt_execute_bs E bs det raw).
Proof. intros E bs det raw w o w' H. apply dec_execute_frame in H as ((D & G & _) & _). split; assumption. Qed.
Lemma kin_dump : always kin header_dump.
Proof.
  unfold header_dump. apply (always_bind kin kin_trans); [apply (always_map_err kin), kin_in, still_deserialize|intros ha].
  apply (always_map_err kin), kin_out.
Qed.
Lemma kin_restore : always kin header_restore.
Proof.
  unfold header_restore.
  apply (always_bind kin kin_trans); [apply (always_map_err kin), kin_in, still_deserialize|intros ha].
  apply (always_bind kin kin_trans); [apply (always_map_err kin), kin_out|intros got].
  destruct (negb _); [apply (always_err kin kin_refl)|].
  apply (always_bind kin kin_trans); [apply (always_map_err kin), kin_out|intros _].
  apply (always_map_err kin), kin_out.
Qed.
Lemma hdr_decrypt : forall E bs det raw w o w', decrypt_execute_bs E bs det raw w = (o, w') ->
  d_log (w_hdr w') = d_log (w_hdr w).
Proof. intros E bs det raw w o w' H. apply dec_execute_frame in H as (_ & (_ & G & _) & _). exact G. Qed.
