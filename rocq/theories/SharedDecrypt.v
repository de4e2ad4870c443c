(** Decrypting with the output open twice. *)
From Coq Require Import List Arith NArith ZArith Lia Bool.
From Verif Require Import Bytes Outcome IO Primitives Crypto Header Stream KeyModel EncDec.
From Verif Require Import FS Archive Shared SharedSpec HeaderSpec BytesFacts IOFacts HeaderFacts FileFacts WorldFrames SharedSim.
Import ListNotations.
Local Open Scope nat_scope.

Definition kept_as (x x' : shared) : Prop :=
  disk_kept (sh_sys x') (sh_sys x) /\ h_ino (sh_in x') = h_ino (sh_in x)
  /\ h_ino (sh_out x') = h_ino (sh_out x).
Lemma kept_refl : forall x, kept_as x x. Proof. intros x. repeat split. Qed.
Lemma kept_trans : forall x y z, kept_as x y -> kept_as y z -> kept_as x z.
Proof.
  intros x y z ((A1 & A2 & A3 & A4 & A5 & A6 & A7 & A8 & A9) & AI & AO)
    ((B1 & B2 & B3 & B4 & B5 & B6 & B7 & B8 & B9) & BI & BO).
  repeat split; try congruence; try (etransitivity; eauto).
Qed.

Lemma put_still : forall s h d, d_data d = s_data s (h_ino h) -> d_log d = [] -> disk_kept (put_handle d h s) s.
Proof.
  intros s h d A B. unfold put_handle, with_data, set_data. rewrite B. cbn [map]. repeat split.
  - cbn [s_data]. intros i. destruct (Nat.eqb_spec i (h_ino h)) as [->|]; auto.
  - cbn [s_log]. apply app_nil_r.
Qed.
Lemma kept_in : forall {E A} (m : M dev E A), always still m -> always kept_as (at_in m).
Proof.
  intros E A m S x o x' H. unfold at_in in H. destruct (m _) as [o1 d] eqn:M. inversion H; subst. clear H.
  destruct (S _ _ _ M) as (D & L & _). split; [apply put_still; auto|split; reflexivity].
Qed.
Lemma kept_hdr : forall {E A} (m : M dev E A), always still m -> always kept_as (at_hdr m).
Proof.
  intros E A m S x o x' H. unfold at_hdr in H. destruct (sh_hdr x) as [h|].
  - destruct (m _) as [o1 d] eqn:M. inversion H; subst. clear H.
    destruct (S _ _ _ M) as (D & L & _). split; [apply put_still; auto|split; reflexivity].
  - inversion H; subst. apply kept_refl.
Qed.

(** The run ends with an error, having written nothing. *)
Definition bad {E A} (m : M shared E A) (x : shared) : Prop :=
  exists e x', m x = (Err e, x') /\ kept_as x x'.

Lemma bad_first : forall {E A B} (m : M shared E A) (k : A -> M shared E B) x, bad m x -> bad (bind m k) x.
Proof. intros E A B m k x (e & x' & H & K). exists e, x'. split; [|exact K]. unfold bind. rewrite H. reflexivity. Qed.
Lemma bad_map : forall {E E' A} (f : E -> E') (m : M shared E A) x, bad m x -> bad (map_err f m) x.
Proof.
  intros E E' A f m x (e & x' & H & K). exists (f e), x'. split; [|exact K]. unfold map_err.
  rewrite H. reflexivity.
Qed.
Lemma bad_then : forall {E A B} (m : M shared E A) (k : A -> M shared E B) x,
  always kept_as m -> (fst (m x) <> Panic /\ fst (m x) <> Diverge) ->
  (forall a x', m x = (Ok a, x') -> bad (k a) x') -> bad (bind m k) x.
Proof.
  intros E A B m k x KP (N1 & N2) H. destruct (m x) as [o x'] eqn:M. pose proof (KP _ _ _ M) as K.
  cbn [fst] in *. destruct o as [a|e| |]; try congruence.
  - destruct (H a x' eq_refl) as (e & x2 & R & K2). exists e, x2. split.
    + unfold bind. rewrite M. exact R.
    + eapply kept_trans; eauto.
  - exists e, x'. split; [|exact K]. unfold bind. rewrite M. reflexivity.
Qed.

Lemma size_pos : forall v, 0 < get_size v.
Proof. intros []; cbn; lia. Qed.

Lemma deserialize_nothing : forall d, d_data d = [] -> exists e d', deserialize d = (Err e, d').
Proof.
  intros d D. destruct (deserialize d) as [o d'] eqn:H. pose proof (deserialize_spec _ _ _ H) as (_ & _ & _ & S).
  destruct o as [[h aad]|e| |]; try contradiction; eauto.
  destruct S as (L & _). rewrite D, skipn_nil, firstn_nil in L. cbn [length] in L.
  pose proof (size_pos (ht_version (h_type h))). lia.
Qed.

Lemma bad_in : forall {E A} (m : M dev E A) x, always still m ->
  (exists e d', m (handle_dev (sh_sys x) (sh_in x)) = (Err e, d')) -> bad (at_in m) x.
Proof.
  intros E A m x S (e & d & H). assert (R : exists x', at_in m x = (Err e, x')).
  { unfold at_in. rewrite H. eauto. }
  destruct R as (x' & R). exists e, x'. split; [exact R|]. eapply kept_in; eauto.
Qed.
Lemma bad_hdr : forall {E A} (m : M dev E A) x h, always still m -> sh_hdr x = Some h ->
  (exists e d', m (handle_dev (sh_sys x) h) = (Err e, d')) -> bad (at_hdr m) x.
Proof.
  intros E A m x h S HH (e & d & H). assert (R : exists x', at_hdr m x = (Err e, x')).
  { unfold at_hdr. rewrite HH, H. eauto. }
  destruct R as (x' & R). exists e, x'. split; [exact R|]. eapply kept_hdr; eauto.
Qed.

Lemma calm_in : forall {E A} (m : M dev E A) x,
  (forall d, fst (m d) <> Panic /\ fst (m d) <> Diverge) ->
  fst (at_in m x) <> Panic /\ fst (at_in m x) <> Diverge.
Proof.
  intros E A m x H. unfold at_in. specialize (H (handle_dev (sh_sys x) (sh_in x))). destruct (m _). exact H.
Qed.
Lemma calm_map : forall {S E E' A} (f : E -> E') (m : M S E A) x,
  fst (m x) <> Panic /\ fst (m x) <> Diverge ->
  fst (map_err f m x) <> Panic /\ fst (map_err f m x) <> Diverge.
Proof.
  intros S E E' A f m x (P & Q). unfold map_err.
  destruct (m x) as [[| | |] ?]; cbn [fst] in *; split; (discriminate || congruence).
Qed.
Lemma calm_bind : forall {S E A B} (m : M S E A) (k : A -> M S E B) x,
  fst (m x) <> Panic /\ fst (m x) <> Diverge ->
  (forall a x', m x = (Ok a, x') -> fst (k a x') <> Panic /\ fst (k a x') <> Diverge) ->
  fst (bind m k x) <> Panic /\ fst (bind m k x) <> Diverge.
Proof.
  intros S E A B m k x (P & Q) K. unfold bind.
  destruct (m x) as [[| | |] x']; cbn [fst] in *; [now apply K|split; discriminate|congruence|congruence].
Qed.
Lemma skip_calm : forall n d, fst (skip_empty_header n d) <> Panic /\ fst (skip_empty_header n d) <> Diverge.
Proof.
  intros n d. unfold skip_empty_header, bind, or_else. destruct (dev_read_exact n d) as [o d1] eqn:H.
  apply dev_read_exact_spec in H as (_ & _ & _ & H).
  assert (RW : forall b d2, fst ((if negb (all_zero b) then map_err (fun _ => DecRewindDataReader) dev_rewind
                                  else ret tt) d2) <> Panic
                         /\ fst ((if negb (all_zero b) then map_err (fun _ => DecRewindDataReader) dev_rewind
                                  else ret tt) d2) <> Diverge).
  { intros b d2. destruct (negb (all_zero b)); [|cbn; split; discriminate]. apply calm_map.
    destruct (dev_rewind d2) as [o2 d3] eqn:R. apply dev_seek_start_spec in R as (_ & _ & _ & R).
    destruct o2; try contradiction; cbn; split; discriminate. }
  destruct o as [b|[e b]| |]; try contradiction; [apply RW|].
  cbn [fst snd]. destruct e; cbn; try (split; discriminate). apply RW.
Qed.

Definition hollow (x : shared) : Prop := s_data (sh_sys x) (h_ino (sh_in x)) = [].
Lemma hollow_kept : forall x x', hollow x -> kept_as x x' -> hollow x'.
Proof.
  intros x x' H ((_ & D & _) & I & _). unfold hollow. rewrite I, D. exact H.
Qed.

Lemma kept_tr : forall {E A} (m : M trace E A), always kept_as (p_tr shared_ports m).
Proof.
  intros E A m x o x' H. cbn [p_tr shared_ports] in H. unfold zoom in H. destruct (m (sh_tr x)).
  inversion H; subst. repeat split.
Qed.
Lemma fst_tr : forall {E A} (m : M trace E A) x, fst (p_tr shared_ports m x) = fst (m (sh_tr x)).
Proof. intros E A m x. cbn [p_tr shared_ports]. unfold zoom. destruct (m (sh_tr x)); reflexivity. Qed.

Lemma open_nothing : forall E a k n ad, env_ok E -> aead_dec E a k n ad [] = None.
Proof.
  intros E a k n ad HE. destruct (aead_dec E a k n ad []) as [m|] eqn:D; [|reflexivity].
  apply (aead_dec_length E HE) in D. cbn in D. lia.
Qed.

Lemma master_calm : forall E raw h x, env_ok E -> header_shape h ->
  let m := map_err (fun _ : unit => DecDecryptMasterKey) (p_tr shared_ports (decrypt_master_key E raw h)) in
  (fst (m x) <> Panic /\ fst (m x) <> Diverge)
  /\ forall mk x', m x = (Ok mk, x') -> length mk = 32.
Proof.
  intros E raw h x HE HS m.
  destruct (decrypt_master_key_spec E raw h (sh_tr x) HE HS) as [(mk & new & _ & L & R & _)|(_ & R)].
  - split.
    + apply calm_map. rewrite fst_tr, R. cbn. split; discriminate.
    + intros mk' x' H. unfold m, map_err in H. pose proof (fst_tr (decrypt_master_key E raw h) x) as F.
      destruct (p_tr shared_ports (decrypt_master_key E raw h) x) as [o1 x1]. cbn [fst] in F.
      rewrite R in F. cbn [fst] in F. subst o1. inversion H; subst. exact L.
  - split.
    + apply calm_map. rewrite fst_tr, R. cbn. split; discriminate.
    + intros mk' x' H. unfold m, map_err in H. pose proof (fst_tr (decrypt_master_key E raw h) x) as F.
      destruct (p_tr shared_ports (decrypt_master_key E raw h) x) as [o1 x1]. cbn [fst] in F.
      rewrite R in F. cbn [fst] in F. subst o1. discriminate.
Qed.

Lemma bad_lift : forall {E A} (o : outcome E A) x, (exists e, o = Err e) -> bad (lift o) x.
Proof. intros E A o x (e & ->). exists e, x. split; [reflexivity|apply kept_refl]. Qed.

Lemma bad_tr : forall {E A} (m : M trace E A) x, (exists e, fst (m (sh_tr x)) = Err e) -> bad (p_tr shared_ports m) x.
Proof.
  intros E A m x (e & H). rewrite <- fst_tr in H. destruct (p_tr shared_ports m x) as [o x'] eqn:M.
  cbn in H. subst o. exists e, x'. split; [exact M|]. eapply kept_tr; eauto.
Qed.

Lemma file_nothing : forall E bs s aad x, env_ok E -> hollow x -> bad (decrypt_file_p shared_ports E bs s aad) x.
Proof.
  intros E bs s aad x HE H. unfold decrypt_file_p, bad.
  enough (B : bad (decrypt_loop_p shared_ports E bs (S (p_size shared_ports x)) s aad) x).
  { destruct (bad_first _ (fun _ => map_err (fun _ => SFlush) (p_out shared_ports dev_flush)) _ B) as (e & x' & R).
    exists e, x'. exact R. }
  cbn [decrypt_loop_p].
  assert (C : forall d, fst (dev_read (bs + 16) d) <> Panic /\ fst (dev_read (bs + 16) d) <> Diverge).
  { intros d. destruct (dev_read (bs + 16) d) as [o d'] eqn:R. apply dev_read_spec in R as (_ & _ & _ & R).
    destruct o; try contradiction; cbn; split; discriminate. }
  assert (ST : always still (dev_read (bs + 16))).
  { intros d o d' R. apply dev_read_spec in R as (P & A & B & _). split; [exact A|split; [exact B|]].
    intros Z. eapply plan_step_nil; eauto. }
  apply bad_then.
  - apply always_map_err, kept_in, ST.
  - apply calm_map, calm_in, C.
  - intros buf x' R. apply map_err_inv in R as [(a & R & X)|[(e & _ & X)|[(_ & X)|(_ & X)]]]; try discriminate X.
    injection X as <-. cbn [p_in shared_ports] in R. unfold at_in in R.
    destruct (dev_read (bs + 16) (handle_dev (sh_sys x) (sh_in x))) as [o d] eqn:RD.
    assert (o = Ok buf) by congruence. subst o. apply dev_read_spec in RD as (_ & _ & _ & G & _).
    unfold hollow in H. cbn [handle_dev d_data] in G. rewrite H, skipn_nil, firstn_nil in G. subst buf.
    cbn [length]. replace (0 =? bs + 16) with false by (symmetry; apply Nat.eqb_neq; lia).
    apply bad_first, bad_map, bad_tr. unfold decrypt_last, stream_open. rewrite open_nothing by exact HE. cbn. eauto.
Qed.

Lemma body_nothing : forall E bs raw h aad x, env_ok E -> header_shape h -> hollow x ->
  bad (match ht_mode (h_type h) with
       | MemoryMode =>
           data <- map_err (fun _ => DecReadEncryptedData) (p_in shared_ports dev_read_to_end) ;;
           mk <- map_err (fun _ => DecDecryptMasterKey) (p_tr shared_ports (decrypt_master_key E raw h)) ;;
           c <- map_err (fun _ => DecInitializeCiphers) (lift (ciphers_initialize mk (ht_algorithm (h_type h)))) ;;
           m <- map_err (fun _ => DecDecryptData) (p_tr shared_ports (ciphers_decrypt E c (h_nonce h) aad data)) ;;
           map_err (fun _ => DecWriteData) (p_out shared_ports (dev_write_all m))
       | StreamMode =>
           mk <- map_err (fun _ => DecDecryptMasterKey) (p_tr shared_ports (decrypt_master_key E raw h)) ;;
           s <- map_err (fun _ => DecInitializeStreams) (lift (dec_stream_initialize mk (h_nonce h) (ht_algorithm (h_type h)))) ;;
           map_err (fun _ => DecDecryptData) (decrypt_file_p shared_ports E bs s aad)
       end) x.
Proof.
  intros E bs raw h aad x HE HS H. pose proof HS as (NS & _). unfold nonce_sized in NS.
  destruct (ht_mode (h_type h)).
  - apply bad_then.
    + apply always_map_err, kept_in, still_read_to_end.
    + apply calm_map, calm_in. intros d. destruct (dev_read_to_end d) as [o d'] eqn:R.
      apply dev_read_to_end_spec in R as (_ & _ & _ & R). destruct o; try contradiction; cbn; split; discriminate.
    + intros data x1 R.
      assert (K1 : kept_as x x1).
      { eapply (always_map_err kept_as (fun _ : io_error => DecReadEncryptedData)); [|exact R]. apply kept_in, still_read_to_end. }
      apply map_err_inv in R as [(a & R & X)|[(e & _ & X)|[(_ & X)|(_ & X)]]]; try discriminate X.
      injection X as <-. cbn [p_in shared_ports] in R. unfold at_in in R.
      destruct (dev_read_to_end (handle_dev (sh_sys x) (sh_in x))) as [o d] eqn:RD.
      assert (o = Ok data) by congruence. subst o. apply dev_read_to_end_spec in RD as (_ & _ & _ & G).
      unfold hollow in H. cbn [handle_dev d_data] in G. rewrite H, skipn_nil in G. subst data.
      destruct (master_calm E raw h x1 HE HS) as (MC & ML).
      apply bad_then; [apply always_map_err, kept_tr|exact MC|]. intros mk x2 R2. specialize (ML _ _ R2).
      unfold ciphers_initialize. rewrite ML. cbn [Nat.eqb].
      apply bad_then; [apply always_map_err, (always_lift _ kept_refl)|cbn; split; discriminate|].
      intros c x3 R3. cbn in R3. injection R3 as <- <-.
      apply bad_first, bad_map, bad_tr. unfold ciphers_decrypt. cbn [ci_alg ci_key].
      rewrite NS, Nat.eqb_refl, open_nothing by exact HE. cbn. eauto.
  - destruct (master_calm E raw h x HE HS) as (MC & ML).
    apply bad_then; [apply always_map_err, kept_tr|exact MC|]. intros mk x2 R2. pose proof (ML _ _ R2) as L.
    assert (K2 : kept_as x x2) by (eapply (always_map_err kept_as); [apply kept_tr|exact R2]).
    unfold dec_stream_initialize. rewrite L, NS, !Nat.eqb_refl.
    apply bad_then; [apply always_map_err, (always_lift _ kept_refl)|cbn; split; discriminate|].
    intros c x3 R3. cbn in R3. injection R3 as <- <-.
    apply bad_map, file_nothing; auto. eapply hollow_kept; eauto.
Qed.

Lemma decrypt_nothing : forall E bs detached raw x, env_ok E ->
  (detached = true -> exists h, sh_hdr x = Some h) ->
  s_data (sh_sys x) (h_ino (sh_out x)) = [] ->
  h_ino (sh_in x) = h_ino (sh_out x)
  \/ (detached = true /\ exists h, sh_hdr x = Some h /\ h_ino h = h_ino (sh_out x)) ->
  bad (decrypt_execute_p shared_ports E bs detached raw) x.
Proof.
  intros E bs detached raw x HE HD D AL. unfold decrypt_execute_p.
  destruct detached.
  - destruct (HD eq_refl) as (h & HH).
    destruct (Nat.eq_dec (h_ino h) (h_ino (sh_out x))) as [EQ|NE].
    + apply bad_first, bad_first, bad_map, (bad_hdr _ _ h); [apply still_deserialize|exact HH|].
      apply deserialize_nothing. cbn [handle_dev d_data]. rewrite EQ. exact D.
    + destruct AL as [AL|(_ & h' & H1 & H2)]; [|congruence].
      assert (HO : hollow x) by (unfold hollow; rewrite AL; exact D).
      apply bad_then.
      * apply (always_bind _ kept_trans); [apply always_map_err, kept_hdr, still_deserialize|intros ha].
        apply (always_bind _ kept_trans); [apply kept_in, still_skip|intros _]. apply (always_ret _ kept_refl).
      * apply calm_bind.
        { apply calm_map. cbn [p_hdr shared_ports]. unfold at_hdr. rewrite HH.
          destruct (deserialize _) as [o d] eqn:DS. apply deserialize_spec in DS as (_ & _ & _ & DS). cbn [fst].
          destruct o; try contradiction; split; discriminate. }
        intros ha x1 _. apply calm_bind; [apply calm_in, skip_calm|].
        intros _ x2 _. cbn. split; discriminate.
      * intros [hd aad] x2 R.
        apply bind_inv in R as [(ha & x1 & R1 & R)|[(e & _ & X)|[(_ & X)|(_ & X)]]]; try discriminate X.
        assert (K1 : kept_as x x1).
        { eapply (always_map_err kept_as (fun _ : hdr_error => DecDeserializeHeader)); [|exact R1]. apply kept_hdr, still_deserialize. }
        apply bind_inv in R as [(u & x3 & R2 & R)|[(e & _ & X)|[(_ & X)|(_ & X)]]]; try discriminate X.
        assert (K2 : kept_as x1 x3) by (eapply kept_in; [apply still_skip|exact R2]).
        inversion R; subst ha x3. clear R.
        assert (HS : header_shape hd).
        { apply map_err_inv in R1 as [(a & R1 & X)|[(e & _ & X)|[(_ & X)|(_ & X)]]]; try discriminate X.
          injection X as <-. cbn [p_hdr shared_ports] in R1. unfold at_hdr in R1. rewrite HH in R1.
          destruct (deserialize _) as [o d] eqn:DS. assert (o = Ok (hd, aad)) by congruence. subst o.
          eapply deserialize_shape; eauto. }
        apply body_nothing; auto. eapply hollow_kept; [|exact K2]. eapply hollow_kept; eauto.
  - destruct AL as [AL|(X & _)]; [|discriminate].
    apply bad_first, bad_map, bad_in; [apply still_deserialize|].
    apply deserialize_nothing. cbn [handle_dev d_data]. rewrite AL. exact D.
Qed.
