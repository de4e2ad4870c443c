(** Facts about the streaming loops of Stream.v, for every behaviour of reader
    and writer. *)
From Coq Require Import List Arith NArith Lia.
From Verif Require Import Bytes Outcome IO Primitives Crypto Stream.
From Verif Require Import BytesFacts IOFacts StreamSpec.
Local Open Scope nat_scope.

Definition nonce_at (s : stream) (last : bool) : bytes :=
  le31_nonce (s_prefix s) (s_pos s) last.

(** ** Runs as sequences of AEAD calls *)

Inductive enc_run (E : env) (aad : bytes) :
  stream -> list bytes -> option bytes -> list call -> Prop :=
| er_nil : forall s, enc_run E aad s [] None []
| er_last : forall s b ct,
    aead_enc E (s_alg s) (s_key s) (nonce_at s true) aad b = Some ct ->
    enc_run E aad s [] (Some b)
      [mkCall (s_alg s) (s_key s) (nonce_at s true) aad b ct]
| er_next : forall s b bl l cs ct,
    s_pos s <> counter_max E ->
    aead_enc E (s_alg s) (s_key s) (nonce_at s false) aad b = Some ct ->
    enc_run E aad (advance s) bl l cs ->
    enc_run E aad s (b :: bl) l
      (mkCall (s_alg s) (s_key s) (nonce_at s false) aad b ct :: cs).

Inductive dec_run (E : env) (aad : bytes) :
  stream -> list bytes -> option bytes -> list call -> Prop :=
| dr_nil : forall s, dec_run E aad s [] None []
| dr_last : forall s c m,
    aead_dec E (s_alg s) (s_key s) (nonce_at s true) aad c = Some m ->
    dec_run E aad s [] (Some c)
      [mkCall (s_alg s) (s_key s) (nonce_at s true) aad m c]
| dr_next : forall s c cl l cs m,
    s_pos s <> counter_max E ->
    aead_dec E (s_alg s) (s_key s) (nonce_at s false) aad c = Some m ->
    dec_run E aad (advance s) cl l cs ->
    dec_run E aad s (c :: cl) l
      (mkCall (s_alg s) (s_key s) (nonce_at s false) aad m c :: cs).

Definition opt_bytes (o : option bytes) : bytes :=
  match o with Some b => b | None => [] end.

(** The state of everything but the input, output and trace is untouched. *)
Definition framed (w w' : world) : Prop :=
  d_data (w_in w') = d_data (w_in w) /\ d_log (w_in w') = d_log (w_in w)
  /\ w_hdr w' = w_hdr w /\ w_rng w' = w_rng w
  /\ (d_plan (w_in w) = [] -> d_plan (w_in w') = [])
  /\ (d_plan (w_out w) = [] -> d_plan (w_out w') = []).

Lemma framed_refl : forall w, framed w w.
Proof. intros; unfold framed; auto 10. Qed.

Lemma framed_trans : forall a b c, framed a b -> framed b c -> framed a c.
Proof.
  unfold framed. intros a b c (A1&A2&A3&A4&A5&A6) (B1&B2&B3&B4&B5&B6).
  repeat split; try congruence; auto.
Qed.

Definition in_rest (w : world) : bytes := skipn (d_pos (w_in w)) (d_data (w_in w)).

(** Where in a run something went wrong: [n] blocks are done. *)
Definition crypt_failed (E : env) (s : stream) (aad : bytes)
  (op : algorithm -> bytes -> bytes -> bytes -> bytes -> option bytes)
  (bs n : nat) (b : bytes) : Prop :=
  let s' := mkStream (s_alg s) (s_key s) (s_prefix s) (s_pos s + N.of_nat n) in
  (length b = bs /\ (s_pos s' = counter_max E
                     \/ op (s_alg s) (s_key s) (nonce_at s' false) aad b = None))
  \/ (length b < bs /\ op (s_alg s) (s_key s) (nonce_at s' true) aad b = None).

Lemma firstn_add_skip : forall {A} n m (l : list A) a b,
  a = firstn n l -> b = firstn m (skipn n l) -> a ++ b = firstn (n + m) l.
Proof. intros A n m l a b -> ->. symmetry. apply firstn_split. Qed.

Lemma encrypt_loop_spec : forall E bs aad, 0 < bs ->
  forall fuel s w o w',
  length (in_rest w) < fuel ->
  encrypt_loop E bs fuel s aad w = (o, w') ->
  framed w w' /\
  exists blocks last calls written n,
    enc_run E aad s blocks last calls
    /\ Forall (fun b => length b = bs) blocks
    /\ (forall b, last = Some b -> length b < bs)
    /\ w_tr w' = w_tr w ++ map Sealed calls
    /\ wrote (w_out w) (w_out w') written
    /\ prefix_of written (concat (map c_ct calls))
    /\ concat blocks ++ opt_bytes last = firstn n (in_rest w)
    /\ match o with
       | Ok _ => written = concat (map c_ct calls)
                 /\ (exists b, last = Some b)
                 /\ d_pos (w_in w') = d_pos (w_in w) + length (concat blocks ++ opt_bytes last)
                 /\ (no_short (d_plan (w_in w)) -> concat blocks ++ opt_bytes last = in_rest w)
       | Err SRead => written = concat (map c_ct calls) /\ d_plan (w_in w) <> []
       | Err SWrite => d_plan (w_out w) <> []
       | Err SCrypt =>
           last = None /\ written = concat (map c_ct calls) /\
           exists b k, crypt_failed E s aad (aead_enc E) bs (length blocks) b
             /\ concat blocks ++ b = firstn k (in_rest w)
             /\ (no_short (d_plan (w_in w)) -> length b < bs -> concat blocks ++ b = in_rest w)
       | _ => False
       end.
Proof.
  intros E bs aad Hbs. induction fuel as [|fuel IH]; intros s w o w' Hf H; [lia|].
  cbn [encrypt_loop] in H. unfold bind at 1, map_err at 1, on_in, zoom in H.
  destruct (dev_read bs (w_in w)) as [ob d1] eqn:Hr.
  apply dev_read_spec in Hr as (R1 & R2 & R3 & R4).
  assert (Fr : forall x t, (d_plan (w_out w) = [] -> d_plan x = []) ->
               framed w (mkWorld d1 x (w_hdr w) (w_rng w) t)).
  { intros x t Hx. unfold framed; cbn [w_in w_out w_hdr w_rng w_tr]. repeat split; auto.
    intros; eapply plan_step_nil; eauto. }
  destruct ob as [buf|e| |]; try contradiction.
  2:{ inversion H; subst; clear H. split; [apply Fr; auto|].
      exists [], None, [], [], 0. cbn [w_in w_out w_tr map concat app opt_bytes firstn].
      rewrite app_nil_r. parts; auto; try (constructor; fail); try discriminate.
      - apply wrote_nil; auto.
      - exists []; reflexivity.
      - destruct R4 as (_ & R4). rewrite R4. discriminate. }
  destruct R4 as (Q1 & Q2 & Q3 & Q4 & Q5).
  set (w1 := mkWorld d1 (w_out w) (w_hdr w) (w_rng w) (w_tr w)) in *.
  fold (in_rest w) in Q1, Q5.
  assert (Hpre : prefix_of buf (in_rest w)).
  { exists (skipn (length buf) (in_rest w)). rewrite Q1 at 1. symmetry. apply firstn_skipn. }
  destruct (Nat.eqb_spec (length buf) bs) as [Hfull|Hshort].
  - (* a full block *)
    unfold bind at 1, map_err at 1, on_tr, zoom, encrypt_next in H.
    destruct (N.eqb_spec (s_pos s) (counter_max E)) as [Hmax|Hmax].
    { cbn [err] in H. inversion H; subst; clear H. cbn [w_in w_out w_hdr w_rng w_tr w1].
      split; [apply Fr; auto|].
      exists [], None, [], [], 0. cbn [map concat app opt_bytes firstn].
      rewrite app_nil_r. parts; auto; try (constructor; fail); try discriminate.
      - apply wrote_nil; auto.
      - exists []; reflexivity.
      - exists buf, (length buf). parts; auto.
        + left. split; [auto|]. left. cbn [s_pos length]. lia.
        + intros; lia. }
    unfold bind at 1, stream_seal in H. cbn [w_tr w1] in H.
    fold (nonce_at s false) in H.
    destruct (aead_enc E (s_alg s) (s_key s) (nonce_at s false) aad buf) as [ct|] eqn:Hseal.
    2:{ inversion H; subst; clear H. cbn [w_in w_out w_hdr w_rng w_tr w1].
      split; [apply Fr; auto|].
      exists [], None, [], [], 0. cbn [map concat app opt_bytes firstn].
      rewrite app_nil_r. parts; auto; try (constructor; fail); try discriminate.
      - apply wrote_nil; auto.
      - exists []; reflexivity.
      - exists buf, (length buf). parts; auto.
        + left. split; [auto|]. right. unfold nonce_at; cbn [s_pos s_prefix length]. change (N.of_nat 0) with 0%N.
          rewrite N.add_0_r. exact Hseal.
        + intros; lia. }
    cbn [ret fst snd] in H. set (c := mkCall _ _ _ _ _ ct) in *.
    unfold bind at 1, map_err at 1, on_out, zoom in H. cbn [fst snd w_in w_out w_hdr w_rng w_tr w1] in H.
    destruct (dev_write_all ct (w_out w)) as [ow dw] eqn:Hw.
    apply dev_write_all_spec in Hw as (W1 & W2).
    destruct ow as [u|e| |]; try contradiction.
    2:{ inversion H; subst; clear H. cbn [w_in w_out w_hdr w_rng w_tr w1].
      split; [apply Fr; auto|]. destruct W2 as ((k & Hk & W2) & W3).
      exists [buf], None, [c], (firstn k ct), (length buf).
      cbn [map concat app opt_bytes c_ct c]. rewrite !app_nil_r.
      parts; auto; try discriminate.
      - repeat constructor; auto.
      - exists (skipn k ct). symmetry. apply firstn_skipn. }
    set (w2 := mkWorld d1 dw (w_hdr w) (w_rng w) (w_tr w ++ [Sealed c])) in *.
    assert (Hrest : in_rest w2 = skipn bs (in_rest w)).
    { unfold in_rest, w2; cbn [w_in]. rewrite R2, Q3, Hfull, skipn_skipn'. reflexivity. }
    apply IH in H.
    2:{ rewrite Hrest, skipn_length. destruct Hpre as (tl & Ht). rewrite Ht, app_length in *. lia. }
    destruct H as (F2 & blocks & last & calls & written & n & G1 & G2 & G3 & G4 & G5 & G6 & G7 & G8).
    split. { eapply framed_trans; [|exact F2]. unfold w2. apply Fr. exact W1. }
    exists (buf :: blocks), last, (c :: calls), (ct ++ written), (bs + n).
    split; [now constructor|].
    split; [now constructor|].
    split; [exact G3|].
    split; [rewrite G4; cbn [w_tr w2 map]; now rewrite <- app_assoc|].
    split; [eapply wrote_trans; [exact W2|exact G5]|].
    split; [destruct G6 as (tl & G6); exists tl; cbn [map concat c_ct c]; rewrite G6; now rewrite app_assoc|].
    assert (HB : forall x k, concat blocks ++ x = firstn k (in_rest w2) ->
                 concat (buf :: blocks) ++ x = firstn (bs + k) (in_rest w)).
    { intros x k Hx. cbn [concat]. rewrite <- app_assoc. apply firstn_add_skip.
      - rewrite <- Hfull. exact Q1.
      - rewrite <- Hrest. exact Hx. }
    assert (HC : forall x, concat blocks ++ x = in_rest w2 ->
                 concat (buf :: blocks) ++ x = in_rest w).
    { intros x Hx. cbn [concat]. rewrite <- app_assoc, Hx, Hrest.
      rewrite <- (firstn_skipn bs (in_rest w)) at 2. f_equal.
      rewrite <- Hfull. exact Q1. }
    split; [now apply HB|].
    destruct o as [u'|[]| |]; try contradiction.
    + destruct G8 as (K1 & K2 & K3 & K4). split; [cbn [map concat c_ct c]; now rewrite K1|].
      split; [exact K2|]. split.
      * rewrite K3. cbn [w_in w2 concat]. rewrite Q3, !app_length. lia.
      * intros Hp. apply HC, K4. cbn [w_in w2]. eapply plan_step_no_short; eauto.
    + destruct G8 as (K1 & K2). split; [cbn [map concat c_ct c]; now rewrite K1|].
      intros Hp. apply K2. cbn [w_in w2]. eapply plan_step_nil; eauto.
    + destruct G8 as (K1 & K2 & b & k & K3 & K4 & K5).
      split; [exact K1|]. split; [cbn [map concat c_ct c]; now rewrite K2|].
      exists b, (bs + k). split; [|split].
      * unfold crypt_failed in *. cbn [advance s_alg s_key s_prefix s_pos length] in *.
        replace (s_pos s + 1 + N.of_nat (length blocks))%N
          with (s_pos s + N.of_nat (S (length blocks)))%N in K3 by lia.
        exact K3.
      * now apply HB.
      * intros Hp Hb. apply HC, K5; auto. cbn [w_in w2]. eapply plan_step_no_short; eauto.
    + intros Hp. apply G8. auto.
  - (* the last block *)
    unfold bind at 1, map_err at 1, on_tr, zoom, encrypt_last, stream_seal in H.
    fold (nonce_at s true) in H.
    destruct (aead_enc E (s_alg s) (s_key s) (nonce_at s true) aad buf) as [ct|] eqn:Hseal.
    2:{ inversion H; subst; clear H. cbn [w_in w_out w_hdr w_rng w_tr w1].
      split; [apply Fr; auto|].
      exists [], None, [], [], 0. cbn [map concat app opt_bytes firstn].
      rewrite app_nil_r. parts; auto; try (constructor; fail); try discriminate.
      - apply wrote_nil; auto.
      - exists []; reflexivity.
      - exists buf, (length buf). parts; auto.
        + right. split; [lia|]. unfold nonce_at; cbn [s_pos s_prefix length]. change (N.of_nat 0) with 0%N.
          rewrite N.add_0_r. exact Hseal.
        + intros Hp _. specialize (Q5 Hp). rewrite Q5.
          apply firstn_all2. rewrite Q5, firstn_length in Hshort. lia. }
    set (c := mkCall _ _ _ _ _ ct) in *.
    unfold map_err, on_out, zoom in H. cbn [w_in w_out w_hdr w_rng w_tr w1] in H.
    destruct (dev_write_all ct (w_out w)) as [ow dw] eqn:Hw.
    apply dev_write_all_spec in Hw as (W1 & W2).
    assert (Hall : no_short (d_plan (w_in w)) -> buf = in_rest w).
    { intros Hp. rewrite (Q5 Hp). apply firstn_all2.
      pose proof Hshort as Hs. rewrite (Q5 Hp), firstn_length in Hs. lia. }
    destruct ow as [u|e| |]; try contradiction; inversion H; subst; clear H;
      cbn [w_in w_out w_hdr w_rng w_tr].
    + split; [apply Fr; auto|].
      exists [], (Some buf), [c], ct, (length buf).
      cbn [map concat app opt_bytes c_ct c]. rewrite ?app_nil_r.
      split; [now constructor|].
      split; [constructor|].
      split; [intros b Hb; inversion Hb; subst; lia|].
      split; [reflexivity|].
      split; [exact W2|].
      split; [exists []; now rewrite app_nil_r|].
      split; [exact Q1|].
      split; [reflexivity|]. split; [eauto|]. split; [exact Q3|]. exact Hall.
    + split; [apply Fr; auto|]. destruct W2 as ((k & Hk & W2) & W3).
      exists [], (Some buf), [c], (firstn k ct), (length buf).
      cbn [map concat app opt_bytes c_ct c]. rewrite ?app_nil_r.
      split; [now constructor|].
      split; [constructor|].
      split; [intros b Hb; inversion Hb; subst; lia|].
      split; [reflexivity|].
      split; [exact W2|].
      split; [exists (skipn k ct); symmetry; apply firstn_skipn|].
      split; [exact Q1|]. exact W3.
Qed.

Lemma decrypt_loop_spec : forall E bs0 aad, let bs := bs0 + 16 in
  forall fuel s w o w',
  length (in_rest w) < fuel ->
  decrypt_loop E bs0 fuel s aad w = (o, w') ->
  framed w w' /\
  exists blocks last calls written n,
    dec_run E aad s blocks last calls
    /\ Forall (fun b => length b = bs) blocks
    /\ (forall b, last = Some b -> length b < bs)
    /\ w_tr w' = w_tr w ++ map Opened calls
    /\ wrote (w_out w) (w_out w') written
    /\ prefix_of written (concat (map c_msg calls))
    /\ concat blocks ++ opt_bytes last = firstn n (in_rest w)
    /\ match o with
       | Ok _ => written = concat (map c_msg calls)
                 /\ (exists b, last = Some b)
                 /\ d_pos (w_in w') = d_pos (w_in w) + length (concat blocks ++ opt_bytes last)
                 /\ (no_short (d_plan (w_in w)) -> concat blocks ++ opt_bytes last = in_rest w)
       | Err SRead => written = concat (map c_msg calls) /\ d_plan (w_in w) <> []
       | Err SWrite => d_plan (w_out w) <> []
       | Err SCrypt =>
           last = None /\ written = concat (map c_msg calls) /\
           exists b k, crypt_failed E s aad (aead_dec E) bs (length blocks) b
             /\ concat blocks ++ b = firstn k (in_rest w)
             /\ (no_short (d_plan (w_in w)) -> length b < bs -> concat blocks ++ b = in_rest w)
       | _ => False
       end.
Proof.
  intros E bs0 aad bs. assert (Hbs : 0 < bs) by (unfold bs; lia).
  induction fuel as [|fuel IH]; intros s w o w' Hf H; [lia|].
  cbn [decrypt_loop] in H. fold bs in H. unfold bind at 1, map_err at 1, on_in, zoom in H.
  destruct (dev_read bs (w_in w)) as [ob d1] eqn:Hr.
  apply dev_read_spec in Hr as (R1 & R2 & R3 & R4).
  assert (Fr : forall x t, (d_plan (w_out w) = [] -> d_plan x = []) ->
               framed w (mkWorld d1 x (w_hdr w) (w_rng w) t)).
  { intros x t Hx. unfold framed; cbn [w_in w_out w_hdr w_rng w_tr]. repeat split; auto.
    intros; eapply plan_step_nil; eauto. }
  destruct ob as [buf|e| |]; try contradiction.
  2:{ inversion H; subst; clear H. split; [apply Fr; auto|].
      exists [], None, [], [], 0. cbn [w_in w_out w_tr map concat app opt_bytes firstn].
      rewrite app_nil_r. parts; auto; try (constructor; fail); try discriminate.
      - apply wrote_nil; auto.
      - exists []; reflexivity.
      - destruct R4 as (_ & R4). rewrite R4. discriminate. }
  destruct R4 as (Q1 & Q2 & Q3 & Q4 & Q5).
  set (w1 := mkWorld d1 (w_out w) (w_hdr w) (w_rng w) (w_tr w)) in *.
  fold (in_rest w) in Q1, Q5.
  assert (Hpre : prefix_of buf (in_rest w)).
  { exists (skipn (length buf) (in_rest w)). rewrite Q1 at 1. symmetry. apply firstn_skipn. }
  destruct (Nat.eqb_spec (length buf) bs) as [Hfull|Hshort].
  - (* a full block *)
    unfold bind at 1, map_err at 1, on_tr, zoom, decrypt_next in H.
    destruct (N.eqb_spec (s_pos s) (counter_max E)) as [Hmax|Hmax].
    { cbn [err] in H. inversion H; subst; clear H. cbn [w_in w_out w_hdr w_rng w_tr w1].
      split; [apply Fr; auto|].
      exists [], None, [], [], 0. cbn [map concat app opt_bytes firstn].
      rewrite app_nil_r. parts; auto; try (constructor; fail); try discriminate.
      - apply wrote_nil; auto.
      - exists []; reflexivity.
      - exists buf, (length buf). parts; auto.
        + left. split; [auto|]. left. cbn [s_pos length]. lia.
        + intros; lia. }
    unfold bind at 1, stream_open in H. cbn [w_tr w1] in H.
    fold (nonce_at s false) in H.
    destruct (aead_dec E (s_alg s) (s_key s) (nonce_at s false) aad buf) as [ct|] eqn:Hseal.
    2:{ inversion H; subst; clear H. cbn [w_in w_out w_hdr w_rng w_tr w1].
      split; [apply Fr; auto|].
      exists [], None, [], [], 0. cbn [map concat app opt_bytes firstn].
      rewrite app_nil_r. parts; auto; try (constructor; fail); try discriminate.
      - apply wrote_nil; auto.
      - exists []; reflexivity.
      - exists buf, (length buf). parts; auto.
        + left. split; [auto|]. right. unfold nonce_at; cbn [s_pos s_prefix length]. change (N.of_nat 0) with 0%N.
          rewrite N.add_0_r. exact Hseal.
        + intros; lia. }
    cbn [ret fst snd] in H. set (c := mkCall _ _ _ _ ct _) in *.
    unfold bind at 1, map_err at 1, on_out, zoom in H. cbn [fst snd w_in w_out w_hdr w_rng w_tr w1] in H.
    destruct (dev_write_all ct (w_out w)) as [ow dw] eqn:Hw.
    apply dev_write_all_spec in Hw as (W1 & W2).
    destruct ow as [u|e| |]; try contradiction.
    2:{ inversion H; subst; clear H. cbn [w_in w_out w_hdr w_rng w_tr w1].
      split; [apply Fr; auto|]. destruct W2 as ((k & Hk & W2) & W3).
      exists [buf], None, [c], (firstn k ct), (length buf).
      cbn [map concat app opt_bytes c_msg c]. rewrite !app_nil_r.
      parts; auto; try discriminate.
      - repeat constructor; auto.
      - exists (skipn k ct). symmetry. apply firstn_skipn. }
    set (w2 := mkWorld d1 dw (w_hdr w) (w_rng w) (w_tr w ++ [Opened c])) in *.
    assert (Hrest : in_rest w2 = skipn bs (in_rest w)).
    { unfold in_rest, w2; cbn [w_in]. rewrite R2, Q3, Hfull, skipn_skipn'. reflexivity. }
    apply IH in H.
    2:{ rewrite Hrest, skipn_length. destruct Hpre as (tl & Ht). rewrite Ht, app_length in *. lia. }
    destruct H as (F2 & blocks & last & calls & written & n & G1 & G2 & G3 & G4 & G5 & G6 & G7 & G8).
    split. { eapply framed_trans; [|exact F2]. unfold w2. apply Fr. exact W1. }
    exists (buf :: blocks), last, (c :: calls), (ct ++ written), (bs + n).
    split; [now constructor|].
    split; [now constructor|].
    split; [exact G3|].
    split; [rewrite G4; cbn [w_tr w2 map]; now rewrite <- app_assoc|].
    split; [eapply wrote_trans; [exact W2|exact G5]|].
    split; [destruct G6 as (tl & G6); exists tl; cbn [map concat c_msg c]; rewrite G6; now rewrite app_assoc|].
    assert (HB : forall x k, concat blocks ++ x = firstn k (in_rest w2) ->
                 concat (buf :: blocks) ++ x = firstn (bs + k) (in_rest w)).
    { intros x k Hx. cbn [concat]. rewrite <- app_assoc. apply firstn_add_skip.
      - rewrite <- Hfull. exact Q1.
      - rewrite <- Hrest. exact Hx. }
    assert (HC : forall x, concat blocks ++ x = in_rest w2 ->
                 concat (buf :: blocks) ++ x = in_rest w).
    { intros x Hx. cbn [concat]. rewrite <- app_assoc, Hx, Hrest.
      rewrite <- (firstn_skipn bs (in_rest w)) at 2. f_equal.
      rewrite <- Hfull. exact Q1. }
    split; [now apply HB|].
    destruct o as [u'|[]| |]; try contradiction.
    + destruct G8 as (K1 & K2 & K3 & K4). split; [cbn [map concat c_msg c]; now rewrite K1|].
      split; [exact K2|]. split.
      * rewrite K3. cbn [w_in w2 concat]. rewrite Q3, !app_length. lia.
      * intros Hp. apply HC, K4. cbn [w_in w2]. eapply plan_step_no_short; eauto.
    + destruct G8 as (K1 & K2). split; [cbn [map concat c_msg c]; now rewrite K1|].
      intros Hp. apply K2. cbn [w_in w2]. eapply plan_step_nil; eauto.
    + destruct G8 as (K1 & K2 & b & k & K3 & K4 & K5).
      split; [exact K1|]. split; [cbn [map concat c_msg c]; now rewrite K2|].
      exists b, (bs + k). split; [|split].
      * unfold crypt_failed in *. cbn [advance s_alg s_key s_prefix s_pos length] in *.
        replace (s_pos s + 1 + N.of_nat (length blocks))%N
          with (s_pos s + N.of_nat (S (length blocks)))%N in K3 by lia.
        exact K3.
      * now apply HB.
      * intros Hp Hb. apply HC, K5; auto. cbn [w_in w2]. eapply plan_step_no_short; eauto.
    + intros Hp. apply G8. auto.
  - (* the last block *)
    unfold bind at 1, map_err at 1, on_tr, zoom, decrypt_last, stream_open in H.
    fold (nonce_at s true) in H.
    destruct (aead_dec E (s_alg s) (s_key s) (nonce_at s true) aad buf) as [ct|] eqn:Hseal.
    2:{ inversion H; subst; clear H. cbn [w_in w_out w_hdr w_rng w_tr w1].
      split; [apply Fr; auto|].
      exists [], None, [], [], 0. cbn [map concat app opt_bytes firstn].
      rewrite app_nil_r. parts; auto; try (constructor; fail); try discriminate.
      - apply wrote_nil; auto.
      - exists []; reflexivity.
      - exists buf, (length buf). parts; auto.
        + right. split; [lia|]. unfold nonce_at; cbn [s_pos s_prefix length]. change (N.of_nat 0) with 0%N.
          rewrite N.add_0_r. exact Hseal.
        + intros Hp _. specialize (Q5 Hp). rewrite Q5.
          apply firstn_all2. rewrite Q5, firstn_length in Hshort. lia. }
    set (c := mkCall _ _ _ _ ct _) in *.
    unfold map_err, on_out, zoom in H. cbn [w_in w_out w_hdr w_rng w_tr w1] in H.
    destruct (dev_write_all ct (w_out w)) as [ow dw] eqn:Hw.
    apply dev_write_all_spec in Hw as (W1 & W2).
    assert (Hall : no_short (d_plan (w_in w)) -> buf = in_rest w).
    { intros Hp. rewrite (Q5 Hp). apply firstn_all2.
      pose proof Hshort as Hs. rewrite (Q5 Hp), firstn_length in Hs. lia. }
    destruct ow as [u|e| |]; try contradiction; inversion H; subst; clear H;
      cbn [w_in w_out w_hdr w_rng w_tr].
    + split; [apply Fr; auto|].
      exists [], (Some buf), [c], ct, (length buf).
      cbn [map concat app opt_bytes c_msg c]. rewrite ?app_nil_r.
      split; [now constructor|].
      split; [constructor|].
      split; [intros b Hb; inversion Hb; subst; lia|].
      split; [reflexivity|].
      split; [exact W2|].
      split; [exists []; now rewrite app_nil_r|].
      split; [exact Q1|].
      split; [reflexivity|]. split; [eauto|]. split; [exact Q3|]. exact Hall.
    + split; [apply Fr; auto|]. destruct W2 as ((k & Hk & W2) & W3).
      exists [], (Some buf), [c], (firstn k ct), (length buf).
      cbn [map concat app opt_bytes c_msg c]. rewrite ?app_nil_r.
      split; [now constructor|].
      split; [constructor|].
      split; [intros b Hb; inversion Hb; subst; lia|].
      split; [reflexivity|].
      split; [exact W2|].
      split; [exists (skipn k ct); symmetry; apply firstn_skipn|].
      split; [exact Q1|]. exact W3.
Qed.

(** ** Whole files *)

Lemma encrypt_file_spec : forall E bs aad, 0 < bs ->
  forall s w o w',
  encrypt_file_bs E bs s aad w = (o, w') ->
  framed w w' /\
  exists blocks last calls written n,
    enc_run E aad s blocks last calls
    /\ Forall (fun b => length b = bs) blocks
    /\ (forall b, last = Some b -> length b < bs)
    /\ w_tr w' = w_tr w ++ map Sealed calls
    /\ wrote (w_out w) (w_out w') written
    /\ prefix_of written (concat (map c_ct calls))
    /\ concat blocks ++ opt_bytes last = firstn n (in_rest w)
    /\ match o with
       | Ok _ => written = concat (map c_ct calls)
                 /\ (exists b, last = Some b)
                 /\ d_pos (w_in w') = d_pos (w_in w) + length (concat blocks ++ opt_bytes last)
                 /\ (no_short (d_plan (w_in w)) -> concat blocks ++ opt_bytes last = in_rest w)
       | Err SRead => written = concat (map c_ct calls) /\ d_plan (w_in w) <> []
       | Err SWrite => d_plan (w_out w) <> []
       | Err SCrypt =>
           last = None /\ written = concat (map c_ct calls) /\
           exists b k, crypt_failed E s aad (aead_enc E) bs (length blocks) b
             /\ concat blocks ++ b = firstn k (in_rest w)
             /\ (no_short (d_plan (w_in w)) -> length b < bs -> concat blocks ++ b = in_rest w)
       | Err SFlush => written = concat (map c_ct calls) /\ d_plan (w_out w) <> []
       | _ => False
       end.
Proof.
  intros E bs aad Hbs s w o w' H. unfold encrypt_file_bs, bind in H.
  destruct (encrypt_loop E bs (S (length (d_data (w_in w)))) s aad w) as [o1 w1] eqn:Hl.
  apply encrypt_loop_spec in Hl; [|assumption|].
  2:{ unfold in_rest. rewrite skipn_length. lia. }
  destruct Hl as (F & blocks & last & calls & written & n & G1 & G2 & G3 & G4 & G5 & G6 & G7 & G8).
  destruct o1 as [u|e| |]; try contradiction.
  - unfold map_err, on_out, zoom in H.
    destruct (dev_flush (w_out w1)) as [of d2] eqn:Hfl.
    apply dev_flush_spec in Hfl as (P1 & P2 & P3 & P4 & P5).
    assert (FF : framed w (mkWorld (w_in w1) d2 (w_hdr w1) (w_rng w1) (w_tr w1))).
    { eapply framed_trans; [exact F|]. unfold framed; cbn [w_in w_out w_hdr w_rng].
      parts; auto. intros; eapply plan_step_nil; eauto. }
    assert (WW : wrote (w_out w) d2 written).
    { rewrite <- (app_nil_r written). eapply wrote_trans; [exact G5|]. now apply wrote_nil. }
    destruct of as [u'|e| |]; try contradiction; inversion H; subst; clear H;
      (split; [exact FF|]);
      exists blocks, last, calls, written, n; cbn [w_in w_out w_tr];
      destruct G8 as (K1 & K2 & K3 & K4); parts; auto.
    intros Hp. apply P5. destruct F as (_ & _ & _ & _ & _ & F). auto.
  - inversion H; subst; clear H. split; [exact F|].
    exists blocks, last, calls, written, n. parts; auto.
    destruct e; auto; contradiction.
Qed.

Lemma decrypt_file_spec : forall E bs0 aad, let bs := bs0 + 16 in
  forall s w o w',
  decrypt_file_bs E bs0 s aad w = (o, w') ->
  framed w w' /\
  exists blocks last calls written n,
    dec_run E aad s blocks last calls
    /\ Forall (fun b => length b = bs) blocks
    /\ (forall b, last = Some b -> length b < bs)
    /\ w_tr w' = w_tr w ++ map Opened calls
    /\ wrote (w_out w) (w_out w') written
    /\ prefix_of written (concat (map c_msg calls))
    /\ concat blocks ++ opt_bytes last = firstn n (in_rest w)
    /\ match o with
       | Ok _ => written = concat (map c_msg calls)
                 /\ (exists b, last = Some b)
                 /\ d_pos (w_in w') = d_pos (w_in w) + length (concat blocks ++ opt_bytes last)
                 /\ (no_short (d_plan (w_in w)) -> concat blocks ++ opt_bytes last = in_rest w)
       | Err SRead => written = concat (map c_msg calls) /\ d_plan (w_in w) <> []
       | Err SWrite => d_plan (w_out w) <> []
       | Err SCrypt =>
           last = None /\ written = concat (map c_msg calls) /\
           exists b k, crypt_failed E s aad (aead_dec E) bs (length blocks) b
             /\ concat blocks ++ b = firstn k (in_rest w)
             /\ (no_short (d_plan (w_in w)) -> length b < bs -> concat blocks ++ b = in_rest w)
       | Err SFlush => written = concat (map c_msg calls) /\ d_plan (w_out w) <> []
       | _ => False
       end.
Proof.
  intros E bs0 aad bs s w o w' H. unfold decrypt_file_bs, bind in H.
  destruct (decrypt_loop E bs0 (S (length (d_data (w_in w)))) s aad w) as [o1 w1] eqn:Hl.
  apply decrypt_loop_spec in Hl.
  2:{ unfold in_rest. rewrite skipn_length. lia. }
  destruct Hl as (F & blocks & last & calls & written & n & G1 & G2 & G3 & G4 & G5 & G6 & G7 & G8).
  destruct o1 as [u|e| |]; try contradiction.
  - unfold map_err, on_out, zoom in H.
    destruct (dev_flush (w_out w1)) as [of d2] eqn:Hfl.
    apply dev_flush_spec in Hfl as (P1 & P2 & P3 & P4 & P5).
    assert (FF : framed w (mkWorld (w_in w1) d2 (w_hdr w1) (w_rng w1) (w_tr w1))).
    { eapply framed_trans; [exact F|]. unfold framed; cbn [w_in w_out w_hdr w_rng].
      parts; auto. intros; eapply plan_step_nil; eauto. }
    assert (WW : wrote (w_out w) d2 written).
    { rewrite <- (app_nil_r written). eapply wrote_trans; [exact G5|]. now apply wrote_nil. }
    destruct of as [u'|e| |]; try contradiction; inversion H; subst; clear H;
      (split; [exact FF|]);
      exists blocks, last, calls, written, n; cbn [w_in w_out w_tr];
      destruct G8 as (K1 & K2 & K3 & K4); parts; auto.
    intros Hp. apply P5. destruct F as (_ & _ & _ & _ & _ & F). auto.
  - inversion H; subst; clear H. split; [exact F|].
    exists blocks, last, calls, written, n. parts; auto.
    destruct e; auto; contradiction.
Qed.

(** ** Facts about runs *)

Definition shift (s : stream) (n : nat) : stream :=
  mkStream (s_alg s) (s_key s) (s_prefix s) (s_pos s + N.of_nat n).

Lemma shift_0 : forall s, shift s 0 = s.
Proof. intros []; unfold shift; cbn. now rewrite N.add_0_r. Qed.

Lemma shift_S : forall s n, shift s (S n) = shift (advance s) n.
Proof. intros s n. unfold shift, advance. cbn [s_alg s_key s_prefix s_pos]. f_equal. lia. Qed.

Lemma seq_map_S : forall {B} (f : nat -> B) n k, map f (seq (S k) n) = map (fun i => f (S i)) (seq k n).
Proof. intros. now rewrite <- seq_shift, map_map. Qed.

Lemma enc_run_calls : forall E aad s bl l cs, enc_run E aad s bl l cs ->
  map c_msg cs = bl ++ match l with Some b => [b] | None => [] end
  /\ map c_nonce cs
     = map (fun i => nonce_at (shift s i) false) (seq 0 (length bl))
       ++ match l with Some _ => [nonce_at (shift s (length bl)) true] | None => [] end
  /\ Forall (fun c => c_alg c = s_alg s /\ c_key c = s_key s /\ c_aad c = aad
                      /\ aead_enc E (c_alg c) (c_key c) (c_nonce c) (c_aad c) (c_msg c)
                         = Some (c_ct c)) cs.
Proof.
  induction 1 as [s|s b ct Hs|s b bl l cs ct Hp Hs Hr (IH1 & IH2 & IH3)].
  - parts; auto.
  - cbn [map length seq app]. rewrite shift_0. parts; auto; repeat constructor; auto.
  - cbn [map length seq app c_msg c_nonce]. parts.
    + now rewrite IH1.
    + rewrite shift_0. f_equal. rewrite IH2, seq_map_S, shift_S. f_equal.
      apply map_ext. intros i. now rewrite shift_S.
    + constructor; auto.
Qed.

Lemma dec_run_calls : forall E aad s bl l cs, dec_run E aad s bl l cs ->
  map c_ct cs = bl ++ match l with Some b => [b] | None => [] end
  /\ map c_nonce cs
     = map (fun i => nonce_at (shift s i) false) (seq 0 (length bl))
       ++ match l with Some _ => [nonce_at (shift s (length bl)) true] | None => [] end
  /\ Forall (fun c => c_alg c = s_alg s /\ c_key c = s_key s /\ c_aad c = aad
                      /\ aead_dec E (c_alg c) (c_key c) (c_nonce c) (c_aad c) (c_ct c)
                         = Some (c_msg c)) cs.
Proof.
  induction 1 as [s|s b ct Hs|s b bl l cs ct Hp Hs Hr (IH1 & IH2 & IH3)].
  - parts; auto.
  - cbn [map length seq app]. rewrite shift_0. parts; auto; repeat constructor; auto.
  - cbn [map length seq app c_ct c_nonce]. parts.
    + now rewrite IH1.
    + rewrite shift_0. f_equal. rewrite IH2, seq_map_S, shift_S. f_equal.
      apply map_ext. intros i. now rewrite shift_S.
    + constructor; auto.
Qed.

Lemma enc_run_counter : forall E aad s bl l cs, enc_run E aad s bl l cs ->
  (s_pos s <= counter_max E)%N -> (s_pos s + N.of_nat (length bl) <= counter_max E)%N.
Proof.
  induction 1; intros Hp; cbn [length]; [lia|lia|].
  cbn [advance s_pos] in *. specialize (IHenc_run ltac:(lia)). lia.
Qed.

Lemma dec_run_counter : forall E aad s bl l cs, dec_run E aad s bl l cs ->
  (s_pos s <= counter_max E)%N -> (s_pos s + N.of_nat (length bl) <= counter_max E)%N.
Proof.
  induction 1; intros Hp; cbn [length]; [lia|lia|].
  cbn [advance s_pos] in *. specialize (IHdec_run ltac:(lia)). lia.
Qed.

Lemma run_lengths : forall {B} (f : call -> B) cs (bl : list B) (o : option B),
  map f cs = bl ++ match o with Some b => [b] | None => [] end ->
  length cs = length bl + match o with Some _ => 1 | None => 0 end.
Proof.
  intros B f cs bl o H. apply (f_equal (@length _)) in H.
  rewrite map_length, app_length in H. destruct o; exact H.
Qed.

Lemma concat_opt : forall (bl : list bytes) (o : option bytes),
  concat (bl ++ match o with Some b => [b] | None => [] end) = concat bl ++ opt_bytes o.
Proof. intros. rewrite concat_app. destruct o; cbn; now rewrite ?app_nil_r. Qed.

Lemma enc_run_ct_length : forall E aad s bl l cs, env_ok E -> enc_run E aad s bl l cs ->
  length (concat (map c_ct cs)) = length (concat bl ++ opt_bytes l) + 16 * length cs.
Proof.
  intros E aad s bl l cs HE Hr. pose proof (enc_run_calls _ _ _ _ _ _ Hr) as (A & _ & B).
  rewrite <- concat_opt, <- A. clear A Hr. induction B as [|c cs (_ & _ & _ & Hc) B IH].
  - reflexivity.
  - cbn [map concat length]. rewrite !app_length, IH.
    rewrite (aead_length _ HE _ _ _ _ _ _ Hc). lia.
Qed.

(** A well-behaved decryption of the honest ciphertext. *)
Lemma decrypt_of_enc_run : forall E bs aad, env_ok E -> forall s bl l cs,
  enc_run E aad s bl l cs -> forall last, l = Some last ->
  Forall (fun b => length b = bs) bl -> length last < bs ->
  forall fuel w, length cs <= fuel ->
  d_plan (w_in w) = [] -> d_plan (w_out w) = [] ->
  in_rest w = concat (map c_ct cs) ->
  exists w', decrypt_loop E bs fuel s aad w = (Ok tt, w')
    /\ framed w w'
    /\ wrote (w_out w) (w_out w') (concat bl ++ last)
    /\ w_tr w' = w_tr w ++ map Opened cs.
Proof.
  intros E bs aad HE s bl l cs Hr.
  induction Hr as [s|s b ct Hs|s b bl l cs ct Hp Hs Hr IH]; intros last Hl Hall Hlast fuel w Hf Hi Ho Hin.
  - discriminate.
  - inversion Hl; subst b. cbn [length] in Hf. destruct fuel as [|fuel]; [lia|].
    cbn [decrypt_loop]. unfold bind at 1, map_err at 1, on_in, zoom.
    rewrite dev_read_ok by assumption. fold (in_rest w). rewrite Hin.
    cbn [map concat c_ct]. rewrite app_nil_r.
    pose proof (aead_length _ HE _ _ _ _ _ _ Hs) as Hct.
    rewrite (firstn_all2 (n := bs + 16)) by lia.
    destruct (Nat.eqb_spec (length ct) (bs + 16)); [lia|].
    unfold bind at 1, map_err at 1, on_tr, zoom, decrypt_last, stream_open.
    fold (nonce_at s true). rewrite (aead_correct _ HE _ _ _ _ _ _ Hs).
    unfold map_err, on_out, zoom. cbn [w_in w_out w_hdr w_rng w_tr].
    rewrite dev_write_all_ok by assumption.
    eexists. split; [reflexivity|]. cbn [w_in w_out w_hdr w_rng w_tr].
    split; [unfold framed; cbn; auto 10|]. cbn [concat app]. split; [apply put_at_wrote|reflexivity].
  - cbn [length] in Hf. destruct fuel as [|fuel]; [lia|].
    inversion Hall as [|? ? Hb Hall']; subst. clear Hall.
    cbn [decrypt_loop]. unfold bind at 1, map_err at 1, on_in, zoom.
    rewrite dev_read_ok by assumption. fold (in_rest w). rewrite Hin.
    cbn [map concat c_ct].
    pose proof (aead_length _ HE _ _ _ _ _ _ Hs) as Hct.
    rewrite firstn_app_exact by lia. rewrite Hct, Nat.eqb_refl.
    unfold bind at 1, map_err at 1, on_tr, zoom, decrypt_next.
    destruct (N.eqb_spec (s_pos s) (counter_max E)); [contradiction|].
    unfold bind at 1, stream_open.
    fold (nonce_at s false). rewrite (aead_correct _ HE _ _ _ _ _ _ Hs).
    unfold ret at 1. cbn [fst snd].
    unfold bind at 1, map_err at 1, on_out, zoom. cbn [w_in w_out w_hdr w_rng w_tr].
    rewrite dev_write_all_ok by assumption.
    set (w1 := mkWorld _ (put_at b (w_out w)) _ _ _).
    destruct (IH last eq_refl Hall' Hlast fuel w1) as (w' & R1 & R2 & R3 & R4).
    + lia.
    + exact Hi.
    + exact Ho.
    + unfold in_rest, w1. cbn [w_in d_pos d_data set_pos].
      rewrite <- skipn_skipn'. fold (in_rest w). rewrite Hin. cbn [map concat c_ct].
      rewrite skipn_app_exact by lia. reflexivity.
    + exists w'. split; [exact R1|]. split.
      { eapply framed_trans; [|exact R2]. unfold framed, w1; cbn. auto 10. }
      split.
      * cbn [concat]. rewrite <- app_assoc. eapply wrote_trans; [|exact R3].
        apply put_at_wrote.
      * rewrite R4. cbn [w_tr w1 map]. now rewrite <- app_assoc.
Qed.
