(** Which devices encryption and decryption leave alone, whatever the outcome. *)
From Coq Require Import List Arith NArith ZArith Lia Bool.
From Verif Require Import Bytes Outcome IO Primitives Crypto Header Stream KeyModel EncDec.
From Verif Require Import BytesFacts IOSpec IOFacts HeaderFacts StreamFacts FileProofs KeyResults.
Import ListNotations.
Local Open Scope nat_scope.

Definition always {S E A} (R : S -> S -> Prop) (m : M S E A) : Prop :=
  forall s o s', m s = (o, s') -> R s s'.

Section Always.
Context {S : Type} (R : S -> S -> Prop) (RR : forall s, R s s)
  (RT : forall a b c, R a b -> R b c -> R a c).

Lemma always_bind : forall {E A B} (m : M S E A) (k : A -> M S E B),
  always R m -> (forall a, always R (k a)) -> always R (bind m k).
Proof.
  intros E A B m k H1 H2 s o s' H. apply bind_inv in H.
  destruct H as [[a [s1 [H3 H4]]]|[[e [H3 _]]|[[H3 _]|[H3 _]]]].
  - eapply RT; [eapply H1; eauto|eapply H2; eauto].
  - eapply H1; eauto.
  - eapply H1; eauto.
  - eapply H1; eauto.
Qed.

Lemma always_map_err : forall {E E' A} (f : E -> E') (m : M S E A),
  always R m -> always R (map_err f m).
Proof.
  intros E E' A f m H s o s' X. apply map_err_inv in X.
  destruct X as [[a [X _]]|[[e [X _]]|[[X _]|[X _]]]]; eapply H; eauto.
Qed.

Lemma always_or_else : forall {E E' A} (m : M S E A) (h : E -> M S E' A),
  always R m -> (forall e, always R (h e)) -> always R (or_else m h).
Proof.
  intros E E' A m h H1 H2 s o s' H. unfold or_else in H.
  destruct (m s) as [o1 s1] eqn:E1. apply H1 in E1.
  destruct o1; try (injection H as _ H; subst; exact E1).
  eapply RT; [exact E1|]. eapply H2; eauto.
Qed.

Lemma always_ret : forall {E A} (a : A), always R (@ret S E A a).
Proof. intros E A a s o s' H. injection H as _ H. subst. apply RR. Qed.
Lemma always_err : forall {E A} (e : E), always R (@err S E A e).
Proof. intros E A a s o s' H. injection H as _ H. subst. apply RR. Qed.
Lemma always_lift : forall {E A} (x : outcome E A), always R (@lift S E A x).
Proof. intros E A a s o s' H. injection H as _ H. subst. apply RR. Qed.
End Always.

Lemma always_weaken : forall {S E A} (R R' : S -> S -> Prop) (m : M S E A),
  (forall a b, R a b -> R' a b) -> always R m -> always R' m.
Proof. intros S E A R R' m H H1 s o s' X. apply H. eapply H1; eauto. Qed.

Definition meek (d d' : dev) : Prop := d_plan d = [] -> d_plan d' = [].
Definition still (d d' : dev) : Prop :=
  d_data d' = d_data d /\ d_log d' = d_log d /\ meek d d'.

Lemma meek_refl : forall d, meek d d. Proof. intros d H. exact H. Qed.
Lemma meek_trans : forall a b c, meek a b -> meek b c -> meek a c.
Proof. unfold meek. auto. Qed.
Lemma still_refl : forall d, still d d.
Proof. intros d. split; [reflexivity|split; [reflexivity|apply meek_refl]]. Qed.
Lemma still_trans : forall a b c, still a b -> still b c -> still a c.
Proof.
  intros a b c [H1 [H2 H3]] [H4 [H5 H6]]. split; [congruence|split; [congruence|]].
  eapply meek_trans; eauto.
Qed.

Lemma still_deserialize : always still deserialize.
Proof. intros d o d' H. apply deserialize_spec in H as (H1 & H2 & H3 & _). split; auto. Qed.
Lemma still_read_exact : forall n, always still (dev_read_exact n).
Proof. intros n d o d' H. apply dev_read_exact_spec in H as (H1 & H2 & H3 & _). split; auto. Qed.
Lemma still_rewind : always still dev_rewind.
Proof.
  intros d o d' H. apply dev_seek_start_spec in H as (H1 & H2 & H3 & _). split; [auto|split; [auto|]].
  intros P. eapply plan_step_nil; eauto.
Qed.
Lemma still_read_to_end : always still dev_read_to_end.
Proof.
  intros d o d' H. apply dev_read_to_end_spec in H. unfold still, meek. tauto.
Qed.
Lemma still_skip : forall size, always still (skip_empty_header size).
Proof.
  intros size. unfold skip_empty_header. apply always_bind; [exact still_trans| |].
  - apply always_or_else; [exact still_trans|apply still_read_exact|].
    intros [e b]. cbn [fst snd]. destruct e; try apply (always_err _ still_refl).
    apply (always_ret _ still_refl).
  - intros b. destruct (negb (all_zero b)).
    + apply always_map_err, still_rewind.
    + apply (always_ret _ still_refl).
Qed.
Lemma meek_write : forall l, always meek (dev_write l).
Proof. intros l d o d' H. apply dev_write_spec in H as (H & _). intros P. eapply plan_step_nil; eauto. Qed.
Lemma meek_write_all : forall l, always meek (dev_write_all l).
Proof. intros l d o d' H. apply dev_write_all_spec in H as (H & _). exact H. Qed.
Lemma meek_rewind : always meek dev_rewind.
Proof. apply (always_weaken still); [intros a b H; apply H|apply still_rewind]. Qed.

(** Logged writes lie within the data, which never shrinks. *)
Definition fits (n : nat) (w : nat * bytes) : Prop := fst w + length (snd w) <= n.
Definition grows (d d' : dev) : Prop :=
  meek d d' /\ length (d_data d) <= length (d_data d')
  /\ exists ws, d_log d' = d_log d ++ ws /\ Forall (fits (length (d_data d'))) ws.

Lemma grows_refl : forall d, grows d d.
Proof.
  intros d. split; [apply meek_refl|]. split; [apply le_n|]. exists []. rewrite app_nil_r. auto.
Qed.
Lemma grows_trans : forall a b c, grows a b -> grows b c -> grows a c.
Proof.
  intros a b c [H1 [H2 [ws [H3 F]]]] [H4 [H5 [ws2 [H6 F2]]]].
  split; [eapply meek_trans; eauto|]. split; [lia|]. exists (ws ++ ws2).
  split; [rewrite H6, H3, app_assoc; reflexivity|]. apply Forall_app. split; [|exact F2].
  eapply Forall_impl; [|exact F]. intros w Hw. unfold fits in *. lia.
Qed.
Lemma grows_wrote : forall d d' l, meek d d' -> wrote d d' l -> grows d d'.
Proof.
  intros d d' l M [D [_ [cs [C [NE L]]]]]. split; [exact M|].
  assert (LD : length (d_data d') = match l with [] => length (d_data d)
                 | _ => Nat.max (length (d_data d)) (d_pos d + length l) end).
  { rewrite D, write_at_length. destruct l; cbn [length]; lia. }
  split; [rewrite LD; destruct l; lia|].
  exists (chunk_log (d_pos d) cs). split; [exact L|]. apply Forall_forall. intros [p c] H.
  pose proof (chunk_log_inside _ _ _ _ H) as [_ H2]. rewrite C in H2.
  unfold fits. cbn [fst snd]. rewrite LD. destruct l; [|lia].
  destruct cs as [|c0 cs]; [contradiction|]. inversion NE. destruct c0; [congruence|discriminate].
Qed.
Lemma grows_write_all : forall l, always grows (dev_write_all l).
Proof.
  intros l d o d' H. apply dev_write_all_spec in H as (H & X). destruct o; try contradiction.
  - eapply grows_wrote; eauto.
  - destruct X as [[k [_ X]] _]. eapply grows_wrote; eauto.
Qed.

(** *** Decryption *)

Definition dec_frame (w w' : world) : Prop :=
  still (w_in w) (w_in w') /\ still (w_hdr w) (w_hdr w') /\ grows (w_out w) (w_out w').

Lemma dec_frame_refl : forall w, dec_frame w w.
Proof. intros w. split; [|split]; [apply still_refl|apply still_refl|apply grows_refl]. Qed.
Lemma dec_frame_trans : forall a b c, dec_frame a b -> dec_frame b c -> dec_frame a c.
Proof.
  intros a b c [H1 [H2 H3]] [H4 [H5 H6]].
  split; [|split]; [eapply still_trans|eapply still_trans|eapply grows_trans]; eauto.
Qed.
Lemma dec_in : forall {E A} (m : M dev E A), always still m -> always dec_frame (on_in m).
Proof.
  intros E A m H w o w' X. apply zoom_inv in X as (t & X & ->). cbn.
  split; [eapply H; eauto|split; [apply still_refl|apply grows_refl]].
Qed.
Lemma dec_hdr : forall {E A} (m : M dev E A), always still m -> always dec_frame (on_hdr m).
Proof.
  intros E A m H w o w' X. apply zoom_inv in X as (t & X & ->). cbn.
  split; [apply still_refl|split; [eapply H; eauto|apply grows_refl]].
Qed.
Lemma dec_out : forall {E A} (m : M dev E A), always grows m -> always dec_frame (on_out m).
Proof.
  intros E A m H w o w' X. apply zoom_inv in X as (t & X & ->). cbn.
  split; [apply still_refl|split; [apply still_refl|eapply H; eauto]].
Qed.
Lemma dec_tr : forall {E A} (m : M trace E A), always dec_frame (on_tr m).
Proof. intros E A m w o w' X. apply zoom_inv in X as (t & X & ->). exact (dec_frame_refl w). Qed.

Lemma dec_file : forall E bs s aad, always dec_frame (decrypt_file_bs E bs s aad).
Proof.
  intros E bs s aad w o w' H. apply decrypt_file_spec in H as ((H1 & H2 & H3 & H4 & H5 & H6) & bl & la & ca & wr & n & _ & _ & _ & _ & W & _).
  split; [split; [auto|split; auto]|split; [rewrite H3; apply still_refl|]].
  eapply grows_wrote; eauto.
Qed.

Lemma dec_execute_frame : forall E bs detached pw,
  always dec_frame (decrypt_execute_bs E bs detached pw).
Proof.
  intros E bs detached pw. unfold decrypt_execute_bs.
  apply always_bind; [exact dec_frame_trans| |].
  - destruct detached.
    + apply always_bind; [exact dec_frame_trans|apply always_map_err, dec_hdr, still_deserialize|].
      intros ha. apply always_bind; [exact dec_frame_trans|apply dec_in, still_skip|].
      intros u. apply (always_ret _ dec_frame_refl).
    + apply always_map_err, dec_in, still_deserialize.
  - intros [h aad]. destruct (ht_mode (h_type h)).
    all: repeat (apply always_bind; [exact dec_frame_trans| |intros ?]);
      try apply always_map_err; try apply dec_tr; try apply (always_lift _ dec_frame_refl);
      try apply dec_file; try (apply dec_in, still_read_to_end); try (apply dec_out, grows_write_all).
Qed.

(** *** Encryption *)

Definition enc_frame (w w' : world) : Prop :=
  still (w_in w) (w_in w') /\ meek (w_hdr w) (w_hdr w') /\ meek (w_out w) (w_out w').

Lemma enc_frame_refl : forall w, enc_frame w w.
Proof. intros w. split; [|split]; [apply still_refl|apply meek_refl|apply meek_refl]. Qed.
Lemma enc_frame_trans : forall a b c, enc_frame a b -> enc_frame b c -> enc_frame a c.
Proof.
  intros a b c [H1 [H2 H3]] [H4 [H5 H6]].
  split; [|split]; [eapply still_trans|eapply meek_trans|eapply meek_trans]; eauto.
Qed.
Lemma enc_in : forall {E A} (m : M dev E A), always still m -> always enc_frame (on_in m).
Proof.
  intros E A m H w o w' X. apply zoom_inv in X as (t & X & ->). cbn.
  split; [eapply H; eauto|split; apply meek_refl].
Qed.
Lemma enc_hdr : forall {E A} (m : M dev E A), always meek m -> always enc_frame (on_hdr m).
Proof.
  intros E A m H w o w' X. apply zoom_inv in X as (t & X & ->). cbn.
  split; [apply still_refl|split; [eapply H; eauto|apply meek_refl]].
Qed.
Lemma enc_out : forall {E A} (m : M dev E A), always meek m -> always enc_frame (on_out m).
Proof.
  intros E A m H w o w' X. apply zoom_inv in X as (t & X & ->). cbn.
  split; [apply still_refl|split; [apply meek_refl|eapply H; eauto]].
Qed.
Lemma enc_tr : forall {E A} (m : M trace E A), always enc_frame (on_tr m).
Proof. intros E A m w o w' X. apply zoom_inv in X as (t & X & ->). exact (enc_frame_refl w). Qed.
Lemma enc_fill : forall {E} n, always enc_frame (@fill_bytes E n).
Proof. intros E n w o w' X. injection X as _ X. subst. exact (enc_frame_refl w). Qed.

Lemma meek_header : forall h, always meek (write_header_to h).
Proof.
  intros h. unfold write_header_to. apply always_bind; [exact meek_trans| |intros b].
  - apply always_map_err, (always_lift _ meek_refl).
  - apply always_bind; [exact meek_trans|apply always_map_err, meek_write|].
    intros k. apply (always_ret _ meek_refl).
Qed.

Lemma enc_file : forall E bs s aad, 0 < bs -> always enc_frame (encrypt_file_bs E bs s aad).
Proof.
  intros E bs s aad B w o w' H. apply encrypt_file_spec in H as ((H1 & H2 & H3 & H4 & H5 & H6) & _); [|exact B].
  split; [split; [auto|split; auto]|split; [rewrite H3; apply meek_refl|exact H6]].
Qed.

Lemma enc_execute_frame : forall E bs req, 0 < bs ->
  always enc_frame (encrypt_execute_bs E bs req).
Proof.
  intros E bs req B. unfold encrypt_execute_bs, gen_salt, gen_master_key, gen_nonce.
  repeat (apply always_bind; [exact enc_frame_trans| |intros ?]);
    try (destruct (er_detached req); [apply always_bind; [exact enc_frame_trans| |intros ?]|]);
    try apply always_map_err; try apply enc_tr; try apply (always_lift _ enc_frame_refl);
    try apply enc_fill; try (apply enc_file, B); try (apply enc_in, still_rewind);
    try (apply enc_out, meek_rewind); try (apply enc_hdr, meek_rewind);
    try (apply enc_out, meek_header); try (apply enc_hdr, meek_header).
Qed.
