(** Lemmas about the monad and the devices, for arbitrary fault plans. *)
From Coq Require Import List Arith NArith Lia Bool.
From Verif Require Import Bytes Outcome IO Primitives BytesFacts.
From Verif Require Export IOSpec.
Local Open Scope nat_scope.

(** ** The monad *)

(** Split conjunctions without unfolding definitions. *)
Ltac parts := repeat match goal with |- _ /\ _ => split end.

Lemma Ok_inj : forall {E A} (a b : A), @Ok E A a = Ok b -> a = b.
Proof. intros E A a b H. congruence. Qed.

Lemma bind_ok : forall {S E A B} (m : M S E A) (k : A -> M S E B) s a s',
  m s = (Ok a, s') -> bind m k s = k a s'.
Proof. intros. unfold bind. now rewrite H. Qed.

Lemma bind_err : forall {S E A B} (m : M S E A) (k : A -> M S E B) s e s',
  m s = (Err e, s') -> bind m k s = (Err e, s').
Proof. intros. unfold bind. now rewrite H. Qed.

Lemma bind_panic : forall {S E A B} (m : M S E A) (k : A -> M S E B) s s',
  m s = (Panic, s') -> bind m k s = (Panic, s').
Proof. intros. unfold bind. now rewrite H. Qed.

Lemma bind_inv : forall {S E A B} (m : M S E A) (k : A -> M S E B) s o s',
  bind m k s = (o, s') ->
  (exists a s1, m s = (Ok a, s1) /\ k a s1 = (o, s'))
  \/ (exists e, m s = (Err e, s') /\ o = Err e)
  \/ (m s = (Panic, s') /\ o = Panic)
  \/ (m s = (Diverge, s') /\ o = Diverge).
Proof.
  intros S E A B m k s o s' H. unfold bind in H.
  destruct (m s) as [[a|e| |] s1] eqn:Hm; inversion H; subst; eauto 8.
Qed.

Lemma map_err_ok : forall {S E E' A} (f : E -> E') (m : M S E A) s a s',
  m s = (Ok a, s') -> map_err f m s = (Ok a, s').
Proof. intros. unfold map_err. now rewrite H. Qed.

Lemma map_err_err : forall {S E E' A} (f : E -> E') (m : M S E A) s e s',
  m s = (Err e, s') -> map_err f m s = (Err (f e), s').
Proof. intros. unfold map_err. now rewrite H. Qed.

Lemma map_err_inv : forall {S E E' A} (f : E -> E') (m : M S E A) s o s',
  map_err f m s = (o, s') ->
  (exists a, m s = (Ok a, s') /\ o = Ok a)
  \/ (exists e, m s = (Err e, s') /\ o = Err (f e))
  \/ (m s = (Panic, s') /\ o = Panic)
  \/ (m s = (Diverge, s') /\ o = Diverge).
Proof.
  intros S E E' A f m s o s' H. unfold map_err in H.
  destruct (m s) as [[a|e| |] s1] eqn:Hm; inversion H; subst; eauto 8.
Qed.

Lemma zoom_eq : forall {S T E A} (g : S -> T) (f : T -> S -> S) (m : M T E A) s o t,
  m (g s) = (o, t) -> zoom g f m s = (o, f t s).
Proof. intros. unfold zoom. now rewrite H. Qed.

Lemma zoom_inv : forall {S T E A} (g : S -> T) (f : T -> S -> S) (m : M T E A) s o s',
  zoom g f m s = (o, s') -> exists t, m (g s) = (o, t) /\ s' = f t s.
Proof.
  intros S T E A g f m s o s' H. unfold zoom in H.
  destruct (m (g s)) as [o1 t] eqn:Hm. inversion H; subst. eauto.
Qed.

(** ** Single calls *)

(** The plan is consumed from the front. *)
Definition plan_step (d d' : dev) : Prop :=
  (d_plan d = [] /\ d_plan d' = []) \/ (exists e, d_plan d = e :: d_plan d').

Lemma next_ev_spec : forall d e d', next_ev d = (e, d') ->
  plan_step d d' /\ d_data d' = d_data d /\ d_log d' = d_log d
  /\ d_pos d' = d_pos d /\ (d_plan d = [] -> e = EvFull)
  /\ (e <> EvFull -> In e (d_plan d)).
Proof.
  intros [dat pos plan lg] e d' H. unfold next_ev in H. simpl in H.
  destruct plan as [|e1 plan]; inversion H; subst; simpl;
    unfold plan_step; simpl; repeat split; eauto; try discriminate; congruence.
Qed.

Lemma plan_step_len : forall d d', plan_step d d' ->
  length (d_plan d') <= length (d_plan d).
Proof. intros d d' [[H1 H2]|[e H]]; rewrite ?H1, ?H2, ?H; simpl; lia. Qed.

Lemma plan_step_no_short : forall d d', plan_step d d' ->
  no_short (d_plan d) -> no_short (d_plan d').
Proof.
  intros d d' [[H1 H2]|[e H]] Hn k Hk.
  - rewrite H2 in Hk. contradiction.
  - apply (Hn k). rewrite H. now right.
Qed.

Lemma no_short_nil : forall d, d_plan d = [] -> no_short (d_plan d).
Proof. intros d -> k []. Qed.

Lemma plan_step_nil : forall d d', plan_step d d' -> d_plan d = [] -> d_plan d' = [].
Proof. intros d d' [[_ H]|[e H]] H0; [assumption|congruence]. Qed.

Lemma dev_read_spec : forall n d o d', dev_read n d = (o, d') ->
  plan_step d d' /\ d_data d' = d_data d /\ d_log d' = d_log d /\
  match o with
  | Ok got =>
      got = firstn (length got) (skipn (d_pos d) (d_data d))
      /\ length got <= n
      /\ d_pos d' = d_pos d + length got
      /\ (got = [] -> n = 0 \/ length (d_data d) <= d_pos d)
      /\ (no_short (d_plan d) -> got = firstn n (skipn (d_pos d) (d_data d)))
  | Err _ => d_pos d' = d_pos d /\ d_plan d = (hd EvFull (d_plan d)) :: d_plan d'
  | _ => False
  end.
Proof.
  intros n d o d' H. unfold dev_read in H.
  destruct (next_ev d) as [e d1] eqn:Hn.
  pose proof Hn as Hn'. apply next_ev_spec in Hn as (Hp & Hd & Hl & Hpos & Hfull & Hin).
  assert (Htake : forall m got d2, take_at m d1 = (got, d2) -> m <= n ->
     (n <> 0 -> m <> 0) ->
     plan_step d d2 /\ d_data d2 = d_data d /\ d_log d2 = d_log d /\
     got = firstn (length got) (skipn (d_pos d) (d_data d)) /\ length got <= n
     /\ d_pos d2 = d_pos d + length got
     /\ (got = [] -> n = 0 \/ length (d_data d) <= d_pos d)
     /\ got = firstn m (skipn (d_pos d) (d_data d))).
  { intros m got d2 Ht Hm Hm0. unfold take_at in Ht. inversion Ht; subst; clear Ht.
    simpl. rewrite Hd, Hpos, Hl.
    assert (Hlen : length (firstn m (skipn (d_pos d) (d_data d)))
                   = Nat.min m (length (d_data d) - d_pos d))
      by (rewrite firstn_length, skipn_length; reflexivity).
    split; [exact Hp|]. repeat split; auto.
    - rewrite Hlen. rewrite <- firstn_firstn.
      rewrite (firstn_all2 (n := length (d_data d) - d_pos d)) by (rewrite skipn_length; lia).
      reflexivity.
    - rewrite Hlen. lia.
    - intros He. rewrite He in Hlen. simpl in Hlen.
      destruct n; [auto|]. right. specialize (Hm0 ltac:(discriminate)). lia. }
  destruct e.
  - destruct (take_at n d1) as [got d2] eqn:Ht. inversion H; subst; clear H.
    destruct (Htake _ _ _ Ht) as (A & B & C & D & F & G & I & J); auto.
    repeat split; auto.
  - destruct (take_at (Nat.min n (S k)) d1) as [got d2] eqn:Ht. inversion H; subst; clear H.
    destruct (Htake _ _ _ Ht) as (A & B & C & D & F & G & I & J); auto; [lia|lia|].
    repeat split; auto. intros Hpl. exfalso. apply (Hpl k), Hin. discriminate.
  - inversion H; subst; clear H. repeat split; auto.
    destruct Hp as [[Hp1 Hp2]|[e He]]; [specialize (Hfull Hp1); discriminate|].
    now rewrite He.
  - inversion H; subst; clear H. repeat split; auto.
    destruct Hp as [[Hp1 Hp2]|[e He]]; [specialize (Hfull Hp1); discriminate|].
    now rewrite He.
Qed.

Lemma chunk_log_app : forall a b p,
  chunk_log p (a ++ b) = chunk_log p a ++ chunk_log (p + length (concat a)) b.
Proof.
  induction a as [|x a IH]; intros b p; simpl.
  - now rewrite Nat.add_0_r.
  - rewrite IH, app_length. now rewrite Nat.add_assoc.
Qed.

Lemma wrote_nil : forall d d',
  d_data d' = d_data d -> d_pos d' = d_pos d -> d_log d' = d_log d -> wrote d d' [].
Proof.
  intros. repeat split; auto; [now rewrite H0, Nat.add_0_r|].
  exists []. simpl. rewrite app_nil_r. auto.
Qed.

Lemma wrote_trans : forall d d1 d2 a b,
  wrote d d1 a -> wrote d1 d2 b -> wrote d d2 (a ++ b).
Proof.
  intros d d1 d2 a b (A1 & A2 & ca & A3 & A4 & A5) (B1 & B2 & cb & B3 & B4 & B5).
  repeat split.
  - rewrite B1, A1, A2. apply write_at_app.
  - rewrite B2, A2, app_length. lia.
  - exists (ca ++ cb). repeat split.
    + rewrite concat_app. congruence.
    + apply Forall_app; auto.
    + rewrite B5, A5, A2, <- app_assoc. do 2 f_equal.
      rewrite chunk_log_app, A3. reflexivity.
Qed.

Lemma put_at_wrote : forall l d, wrote d (put_at l d) l.
Proof.
  intros l d. unfold put_at. destruct l as [|x l].
  - apply wrote_nil; simpl; auto.
  - repeat split. exists [x :: l]. simpl. rewrite app_nil_r. repeat split; auto.
    constructor; [discriminate|constructor].
Qed.

Lemma dev_write_spec : forall l d o d', dev_write l d = (o, d') ->
  plan_step d d' /\
  match o with
  | Ok k => k <= length l /\ wrote d d' (firstn k l) /\ (d_plan d = [] -> k = length l)
            /\ (k = length l \/ d_plan d <> [])
  | Err _ => wrote d d' [] /\ d_plan d = (hd EvFull (d_plan d)) :: d_plan d'
  | _ => False
  end.
Proof.
  intros l d o d' H. unfold dev_write in H.
  destruct (next_ev d) as [e d1] eqn:Hn.
  apply next_ev_spec in Hn as (Hp & Hd & Hl & Hpos & Hfull & Hin).
  assert (Hput : forall l', plan_step d (put_at l' d1) /\ wrote d (put_at l' d1) l').
  { intros l'. split.
    - destruct Hp as [[P1 P2]|[e' P]]; [left|right]; simpl; eauto.
    - change l' with ([] ++ l'). apply wrote_trans with (d1 := d1).
      + apply wrote_nil; auto.
      + apply put_at_wrote. }
  assert (Herr : e <> EvFull -> d_plan d = hd EvFull (d_plan d) :: d_plan d1).
  { intros He. destruct Hp as [[Hp1 Hp2]|[e1 He1]]; [specialize (Hfull Hp1); congruence|].
    now rewrite He1. }
  destruct e; inversion H; subst; clear H.
  - split; [apply Hput|]. split; [auto|]. split; [|auto].
    rewrite firstn_all. apply Hput.
  - split; [apply Hput|].
    assert (Hf : firstn (length (firstn k l)) l = firstn k l).
    { rewrite firstn_length, <- firstn_firstn, firstn_all. reflexivity. }
    split; [rewrite firstn_length; lia|].
    split; [rewrite Hf; apply Hput|].
    split; [|right]; intros Hpl; specialize (Hfull Hpl); discriminate.
  - split; [auto|]. split; [apply wrote_nil; auto|]. apply Herr. discriminate.
  - split; [auto|]. split; [apply wrote_nil; auto|]. apply Herr. discriminate.
Qed.

Lemma dev_flush_spec : forall d o d', dev_flush d = (o, d') ->
  plan_step d d' /\ d_data d' = d_data d /\ d_log d' = d_log d /\ d_pos d' = d_pos d
  /\ match o with
     | Ok _ => True
     | Err _ => d_plan d <> []
     | _ => False
     end.
Proof.
  intros d o d' H. unfold dev_flush in H.
  destruct (next_ev d) as [e d1] eqn:Hn.
  apply next_ev_spec in Hn as (Hp & Hd & Hl & Hpos & Hfull & Hin).
  destruct e; inversion H; subst; clear H;
    (do 4 (split; [assumption|])); auto;
    intros Hpl; specialize (Hfull Hpl); discriminate.
Qed.

Lemma dev_seek_start_spec : forall p d o d', dev_seek_start p d = (o, d') ->
  plan_step d d' /\ d_data d' = d_data d /\ d_log d' = d_log d
  /\ match o with
     | Ok _ => d_pos d' = p
     | Err _ => d_pos d' = d_pos d /\ d_plan d <> []
     | _ => False
     end.
Proof.
  intros p d o d' H. unfold dev_seek_start in H.
  destruct (next_ev d) as [e d1] eqn:Hn.
  apply next_ev_spec in Hn as (Hp & Hd & Hl & Hpos & Hfull & Hin).
  destruct e; inversion H; subst; clear H; simpl;
    (do 3 (split; [assumption|])); auto; split; auto;
    intros Hpl; specialize (Hfull Hpl); discriminate.
Qed.

Lemma dev_seek_back_spec : forall n d o d', dev_seek_back n d = (o, d') ->
  plan_step d d' /\ d_data d' = d_data d /\ d_log d' = d_log d
  /\ match o with
     | Ok _ => n <= d_pos d /\ d_pos d' = d_pos d - n
     | Err _ => d_pos d' = d_pos d /\ (d_plan d <> [] \/ d_pos d < n)
     | _ => False
     end.
Proof.
  intros p d o d' H. unfold dev_seek_back in H.
  destruct (next_ev d) as [e d1] eqn:Hn.
  apply next_ev_spec in Hn as (Hp & Hd & Hl & Hpos & Hfull & Hin).
  destruct e; try destruct (Nat.leb_spec p (d_pos d1));
    inversion H; subst; clear H; simpl;
    (do 3 (split; [assumption|])); rewrite ?Hpos in *; auto; split; auto;
    left; intros Hpl; specialize (Hfull Hpl); discriminate.
Qed.

(** ** Loops *)

Lemma read_exact_loop_spec : forall fuel n acc d o d',
  length (d_plan d) + n < fuel ->
  read_exact_loop fuel n acc d = (o, d') ->
  d_data d' = d_data d /\ d_log d' = d_log d
  /\ (d_plan d = [] -> d_plan d' = [])
  /\ (length (d_plan d') <= length (d_plan d))
  /\ match o with
     | Ok b => b = acc ++ firstn n (skipn (d_pos d) (d_data d))
               /\ n <= length (d_data d) - d_pos d
               /\ d_pos d' = d_pos d + n
     | Err (e, b) =>
         exists k, k < n /\ b = acc ++ firstn k (skipn (d_pos d) (d_data d))
           /\ d_pos d' = d_pos d + k
           /\ k <= length (d_data d) - d_pos d
           /\ (e = EUnexpectedEof -> k = length (d_data d) - d_pos d)
           /\ (d_plan d = [] -> e = EUnexpectedEof)
     | _ => False
     end.
Proof.
  induction fuel as [|fuel IH]; intros n acc d o d' Hf H; [lia|].
  cbn [read_exact_loop] in H.
  destruct n as [|n'].
  { inversion H; subst. simpl. rewrite app_nil_r.
    repeat split; auto; lia. }
  remember (S n') as n. 
  destruct (dev_read n d) as [o1 d1] eqn:Hr.
  pose proof Hr as Hr0. apply dev_read_spec in Hr as (Hp & Hd & Hl & Ho).
  destruct o1 as [got|e1| |]; try contradiction.
  - destruct Ho as (Hg & Hlen & Hpos & Hnil & Hfull).
    destruct got as [|g0 got'].
    + inversion H; subst o d'. clear H.
      split; [assumption|]. split; [assumption|].
      split; [intros; eapply plan_step_nil; eauto|].
      split; [now apply plan_step_len|].
      exists 0. simpl. rewrite app_nil_r. simpl in Hpos.
      destruct (Hnil eq_refl) as [|Hend]; [lia|].
      repeat split; auto; lia.
    + remember (g0 :: got') as got.
      assert (Hgl : 0 < length got) by (subst got; simpl; lia).
      assert (Hgd : length got <= length (d_data d) - d_pos d).
      { rewrite Hg at 1. rewrite firstn_length, skipn_length. lia. }
      assert (H' : read_exact_loop fuel (n - length got) (acc ++ got) d1 = (o, d'))
        by (rewrite Heqgot in *; exact H).
      clear H. apply IH in H'.
      2:{ apply plan_step_len in Hp. lia. }
      destruct H' as (A & B & C & D & F).
      rewrite Hd, Hpos in F.
      split; [congruence|]. split; [congruence|].
      split. { intros Hpl. apply C. eapply plan_step_nil; eauto. }
      split. { apply plan_step_len in Hp. lia. }
      destruct o as [b|[e b]| |]; try contradiction.
      * destruct F as (F1 & F2 & F3).
        split; [|split; lia].
        rewrite F1, <- app_assoc. f_equal. rewrite Hg at 1.
        replace n with (length got + (n - length got)) at 2 by lia.
        rewrite firstn_split, skipn_skipn'. reflexivity.
      * destruct F as (k & F1 & F2 & F3 & F4 & F5 & F6).
        exists (length got + k). split; [lia|]. split.
        { rewrite F2, <- app_assoc. f_equal. rewrite Hg at 1.
          rewrite firstn_split, skipn_skipn'. reflexivity. }
        split; [lia|]. split; [lia|]. split.
        { intros He. specialize (F5 He). lia. }
        { intros Hpl. apply F6. eapply plan_step_nil; eauto. }
  - destruct Ho as (Hpos & Hpl).
    assert (Hlt : length (d_plan d1) < length (d_plan d)) by (rewrite Hpl; simpl; lia).
    destruct (match e1 with EInterrupted => true | _ => false end) eqn:He1.
    + assert (H' : read_exact_loop fuel n acc d1 = (o, d'))
        by (destruct e1; try discriminate; exact H).
      clear H. apply IH in H'; [|lia].
      rewrite Hd, Hl, Hpos in H'.
      destruct H' as (A & B & C & D & F).
      split; [assumption|]. split; [assumption|].
      split. { intros Hn. rewrite Hn in Hpl. discriminate. }
      split; [lia|].
      destruct o as [b|[e b]| |]; try contradiction; [exact F|].
      destruct F as (k & F1 & F2 & F3 & F4 & F5 & F6).
      exists k. repeat split; auto.
      intros Hn. rewrite Hn in Hpl. discriminate.
    + assert (H' : (o, d') = (Err (e1, acc), d1))
        by (destruct e1; try discriminate; symmetry; exact H).
      inversion H'; subst o d'. clear H H'.
      split; [assumption|]. split; [assumption|].
      split. { intros Hn. rewrite Hn in Hpl. discriminate. }
      split; [lia|].
      exists 0. simpl. rewrite app_nil_r. repeat split; auto; try lia.
      * intros ->. exfalso. clear -Hr0.
        unfold dev_read in Hr0. destruct (next_ev d) as [[] ?]; try discriminate;
          unfold take_at in Hr0; inversion Hr0.
      * intros Hn. rewrite Hn in Hpl. discriminate.
Qed.

Lemma dev_read_exact_spec : forall n d o d',
  dev_read_exact n d = (o, d') ->
  d_data d' = d_data d /\ d_log d' = d_log d
  /\ (d_plan d = [] -> d_plan d' = [])
  /\ match o with
     | Ok b => b = firstn n (skipn (d_pos d) (d_data d))
               /\ n <= length (d_data d) - d_pos d
               /\ d_pos d' = d_pos d + n
     | Err (e, b) =>
         exists k, k < n /\ b = firstn k (skipn (d_pos d) (d_data d))
           /\ d_pos d' = d_pos d + k
           /\ k <= length (d_data d) - d_pos d
           /\ (e = EUnexpectedEof -> k = length (d_data d) - d_pos d)
           /\ (d_plan d = [] -> e = EUnexpectedEof)
     | _ => False
     end.
Proof.
  intros n d o d' H. unfold dev_read_exact in H.
  apply read_exact_loop_spec in H; [|lia].
  destruct H as (A & B & C & _ & D). auto.
Qed.

(** On a well-behaved device. *)
Lemma dev_read_exact_ok : forall n d,
  d_plan d = [] -> d_pos d + n <= length (d_data d) ->
  dev_read_exact n d
  = (Ok (firstn n (skipn (d_pos d) (d_data d))), set_pos (d_pos d + n) d).
Proof.
  intros n d Hp Hl.
  destruct (dev_read_exact n d) as [o d'] eqn:H.
  apply dev_read_exact_spec in H as (A & B & C & D). specialize (C Hp).
  destruct o as [b|[e b]| |]; try contradiction.
  - destruct D as (D1 & D2 & D3). subst b. f_equal.
    destruct d, d'; simpl in *; unfold set_pos; simpl. congruence.
  - destruct D as (k & D1 & D2 & D3 & D4 & D5 & D6).
    specialize (D5 (D6 Hp)). lia.
Qed.

Lemma dev_read_exact_eof : forall n d,
  d_plan d = [] -> length (d_data d) - d_pos d < n ->
  dev_read_exact n d
  = (Err (EUnexpectedEof, skipn (d_pos d) (d_data d)),
     set_pos (d_pos d + (length (d_data d) - d_pos d)) d).
Proof.
  intros n d Hp Hl.
  destruct (dev_read_exact n d) as [o d'] eqn:H.
  apply dev_read_exact_spec in H as (A & B & C & D). specialize (C Hp).
  destruct o as [b|[e b]| |]; try contradiction.
  - destruct D as (D1 & D2 & D3). lia.
  - destruct D as (k & D1 & D2 & D3 & D4 & D5 & D6).
    rewrite (D6 Hp) in *. specialize (D5 eq_refl). subst k.
    rewrite firstn_all2 in D2 by (rewrite skipn_length; lia). subst b. f_equal.
    destruct d, d'; simpl in *; unfold set_pos; simpl. congruence.
Qed.

Lemma write_all_loop_spec : forall fuel l d o d',
  length (d_plan d) + length l < fuel ->
  write_all_loop fuel l d = (o, d') ->
  (d_plan d = [] -> d_plan d' = [])
  /\ match o with
     | Ok _ => wrote d d' l
     | Err _ => (exists k, k < length l /\ wrote d d' (firstn k l)) /\ d_plan d <> []
     | _ => False
     end.
Proof.
  induction fuel as [|fuel IH]; intros l d o d' Hf H; [lia|].
  cbn [write_all_loop] in H.
  destruct l as [|x l'].
  { inversion H; subst. split; auto. apply wrote_nil; auto. }
  remember (x :: l') as l.
  assert (Hl : 0 < length l) by (subst; simpl; lia).
  destruct (dev_write l d) as [o1 d1] eqn:Hw.
  apply dev_write_spec in Hw as (Hp & Ho).
  destruct o1 as [k|e1| |]; try contradiction.
  - destruct Ho as (Hk & Hwr & Hfull & Hk2).
    destruct k as [|k'].
    + inversion H; subst o d'. clear H.
      split; [intros; eapply plan_step_nil; eauto|].
      split.
      * exists 0. split; [lia|]. exact Hwr.
      * intros Hn. specialize (Hfull Hn). lia.
    + remember (S k') as k.
      assert (H' : write_all_loop fuel (skipn k l) d1 = (o, d'))
        by (subst k; exact H).
      clear H. pose proof (skipn_length k l) as Hsl.
      apply IH in H'.
      2:{ apply plan_step_len in Hp. lia. }
      destruct H' as (A & B). split.
      { intros Hn. apply A. eapply plan_step_nil; eauto. }
      destruct o as [u|e| |]; try contradiction.
      * rewrite <- (firstn_skipn k l). eapply wrote_trans; eauto.
      * destruct B as ((j & Hj & Hwj) & Hne). split.
        { exists (k + j). split; [lia|]. rewrite firstn_split.
          eapply wrote_trans; eauto. }
        { intros Hn. apply Hne. eapply plan_step_nil; eauto. }
  - destruct Ho as (Hwr & Hpl).
    assert (Hlt : length (d_plan d1) < length (d_plan d)) by (rewrite Hpl; simpl; lia).
    assert (Hne : d_plan d <> []) by (rewrite Hpl; discriminate).
    destruct (match e1 with EInterrupted => true | _ => false end) eqn:He1.
    + assert (H' : write_all_loop fuel l d1 = (o, d'))
        by (destruct e1; try discriminate; exact H).
      clear H. apply IH in H'; [|lia].
      destruct H' as (A & B). split; [congruence|].
      destruct o as [u|e| |]; try contradiction.
      * change l with ([] ++ l). eapply wrote_trans; eauto.
      * destruct B as ((j & Hj & Hwj) & _). split; [|assumption].
        exists j. split; [assumption|].
        change (firstn j l) with ([] ++ firstn j l). eapply wrote_trans; eauto.
    + assert (H' : (o, d') = (Err e1, d1))
        by (destruct e1; try discriminate; symmetry; exact H).
      inversion H'; subst o d'. split; [congruence|].
      split; [|assumption]. exists 0. split; [lia|]. exact Hwr.
Qed.

Lemma dev_write_all_spec : forall l d o d',
  dev_write_all l d = (o, d') ->
  (d_plan d = [] -> d_plan d' = [])
  /\ match o with
     | Ok _ => wrote d d' l
     | Err _ => (exists k, k < length l /\ wrote d d' (firstn k l)) /\ d_plan d <> []
     | _ => False
     end.
Proof. intros l d o d' H. apply write_all_loop_spec in H; auto; lia. Qed.

(** On a well-behaved device. *)
Lemma next_ev_nil : forall d, d_plan d = [] -> next_ev d = (EvFull, d).
Proof. intros d H. unfold next_ev. now rewrite H. Qed.

Lemma dev_write_ok : forall l d, d_plan d = [] ->
  dev_write l d = (Ok (length l), put_at l d).
Proof. intros l d H. unfold dev_write. now rewrite next_ev_nil. Qed.

Lemma dev_write_all_ok : forall l d, d_plan d = [] ->
  dev_write_all l d = (Ok tt, put_at l d).
Proof.
  intros l d H. unfold dev_write_all. cbn [write_all_loop].
  destruct l as [|x l].
  - unfold ret. f_equal. destruct d; simpl in *. unfold put_at; simpl.
    now rewrite Nat.add_0_r.
  - rewrite dev_write_ok by assumption. simpl length.
    rewrite skipn_all2 by (simpl; lia). rewrite H. reflexivity.
Qed.

Lemma dev_read_ok : forall n d, d_plan d = [] ->
  dev_read n d = (Ok (firstn n (skipn (d_pos d) (d_data d))),
                  set_pos (d_pos d + length (firstn n (skipn (d_pos d) (d_data d)))) d).
Proof. intros n d H. unfold dev_read. rewrite next_ev_nil by assumption. reflexivity. Qed.

Lemma dev_seek_start_ok : forall p d, d_plan d = [] ->
  dev_seek_start p d = (Ok tt, set_pos p d).
Proof. intros p d H. unfold dev_seek_start. now rewrite next_ev_nil. Qed.

Lemma dev_seek_back_ok : forall n d, d_plan d = [] -> n <= d_pos d ->
  dev_seek_back n d = (Ok tt, set_pos (d_pos d - n) d).
Proof.
  intros n d H Hn. unfold dev_seek_back. rewrite next_ev_nil by assumption.
  destruct (Nat.leb_spec n (d_pos d)); [reflexivity|lia].
Qed.

Lemma dev_flush_ok : forall d, d_plan d = [] -> dev_flush d = (Ok tt, d).
Proof. intros d H. unfold dev_flush. now rewrite next_ev_nil. Qed.

Lemma read_to_end_loop_spec : forall fuel acc d o d',
  length (d_plan d) + (length (d_data d) - d_pos d) < fuel ->
  read_to_end_loop fuel acc d = (o, d') ->
  d_data d' = d_data d /\ d_log d' = d_log d
  /\ (d_plan d = [] -> d_plan d' = [])
  /\ match o with
     | Ok b => b = acc ++ skipn (d_pos d) (d_data d)
     | Err _ => d_plan d <> []
     | _ => False
     end.
Proof.
  induction fuel as [|fuel IH]; intros acc d o d' Hf H; [lia|].
  cbn [read_to_end_loop] in H.
  destruct (dev_read (S (length (d_data d))) d) as [o1 d1] eqn:Hr.
  apply dev_read_spec in Hr as (Hp & Hd & Hl & Ho).
  destruct o1 as [got|e1| |]; try contradiction.
  - destruct Ho as (Hg & Hlen & Hpos & Hnil & Hfull).
    destruct got as [|g0 got'].
    + inversion H; subst o d'. clear H.
      split; [assumption|]. split; [assumption|].
      split; [intros; eapply plan_step_nil; eauto|].
      destruct (Hnil eq_refl) as [|Hend]; [lia|].
      rewrite skipn_all2 by lia. now rewrite app_nil_r.
    + remember (g0 :: got') as got.
      assert (Hgl : 0 < length got) by (subst got; simpl; lia).
      assert (Hgd : length got <= length (d_data d) - d_pos d).
      { rewrite Hg at 1. rewrite firstn_length, skipn_length. lia. }
      assert (H' : read_to_end_loop fuel (acc ++ got) d1 = (o, d'))
        by (rewrite Heqgot in *; exact H).
      clear H. apply IH in H'.
      2:{ apply plan_step_len in Hp. rewrite Hd, Hpos. lia. }
      destruct H' as (A & B & C & D).
      split; [congruence|]. split; [congruence|].
      split. { intros Hpl. apply C. eapply plan_step_nil; eauto. }
      destruct o as [b|e| |]; try contradiction.
      * rewrite D, <- app_assoc, Hd, Hpos. f_equal.
        rewrite <- (firstn_skipn (length got) (skipn (d_pos d) (d_data d))).
        rewrite <- Hg, skipn_skipn'. reflexivity.
      * intros Hpl. apply D. eapply plan_step_nil; eauto.
  - destruct Ho as (Hpos & Hpl).
    assert (Hlt : length (d_plan d1) < length (d_plan d)) by (rewrite Hpl; simpl; lia).
    assert (Hne : d_plan d <> []) by (rewrite Hpl; discriminate).
    destruct (match e1 with EInterrupted => true | _ => false end) eqn:He1.
    + assert (H' : read_to_end_loop fuel acc d1 = (o, d'))
        by (destruct e1; try discriminate; exact H).
      clear H. apply IH in H'; [|rewrite Hd, Hpos; lia].
      rewrite Hd, Hl, Hpos in H'. destruct H' as (A & B & C & D).
      repeat split; auto; [congruence|].
      destruct o; auto.
    + assert (H' : (o, d') = (Err e1, d1))
        by (destruct e1; try discriminate; symmetry; exact H).
      inversion H'; subst o d'. repeat split; auto. congruence.
Qed.

Lemma dev_read_to_end_spec : forall d o d',
  dev_read_to_end d = (o, d') ->
  d_data d' = d_data d /\ d_log d' = d_log d
  /\ (d_plan d = [] -> d_plan d' = [])
  /\ match o with
     | Ok b => b = skipn (d_pos d) (d_data d)
     | Err _ => d_plan d <> []
     | _ => False
     end.
Proof.
  intros d o d' H. apply read_to_end_loop_spec in H; [exact H|lia].
Qed.

Lemma dev_write_no_short : forall l d k d', dev_write l d = (Ok k, d') ->
  no_short (d_plan d) -> k = length l.
Proof.
  intros l d k d' H G. unfold dev_write, next_ev in H.
  destruct (d_plan d) as [|e p] eqn:P.
  - now inversion H.
  - destruct e; try discriminate; [now inversion H|].
    exfalso. apply (G k0). now left.
Qed.
