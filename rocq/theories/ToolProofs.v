(** Proofs about overwriting, hashing, hexadecimal output and passphrases. *)
From Coq Require Import List Arith NArith ZArith Lia Bool Ascii String.
From Verif Require Import Bytes Outcome IO Primitives KeyModel Overwrite Hash.
From Verif Require Import BytesFacts IOSpec IOFacts ToolSpec.
Import ListNotations.
Local Open Scope nat_scope.
Local Open Scope list_scope.

(** ** Overwrite *)

Lemma ow_dev_inv : forall {E A} (m : M dev E A) s o s',
  ow_dev m s = (o, s') -> m (fst s) = (o, fst s') /\ snd s' = snd s.
Proof.
  intros E A m s o s' H. apply zoom_inv in H. destruct H as [t [H ->]].
  cbn. auto.
Qed.

Lemma ow_dev_ok : forall {E A} (m : M dev E A) s o d,
  m (fst s) = (o, d) -> ow_dev m s = (o, (d, snd s)).
Proof. intros E A m s o d H. unfold ow_dev. apply (zoom_eq fst (fun d s => (d, snd s)) m s _ _ H). Qed.

Lemma write_all_nil : forall d, dev_write_all [] d = (Ok tt, d).
Proof.
  intros d. unfold dev_write_all.
  destruct (S (List.length (d_plan d) + List.length (@nil byte))); reflexivity.
Qed.

Lemma ow_random_nothing : forall blocks s, ow_random blocks s = (Ok tt, s).
Proof.
  induction blocks as [|b blocks IH]; intros [d g]; [reflexivity|].
  cbn [ow_random].
  erewrite bind_ok.
  2:{ unfold fill_slice, vec_with_capacity. cbn. reflexivity. }
  erewrite bind_ok.
  2:{ apply map_err_ok, ow_dev_ok. cbn. apply write_all_nil. }
  cbn. rewrite IH. reflexivity.
Qed.

(** A pass leaves everything but the cursor and the plan alone. *)
Definition untouched (s s' : ow_state) : Prop :=
  d_data (fst s') = d_data (fst s) /\ d_log (fst s') = d_log (fst s)
  /\ snd s' = snd s
  /\ (d_plan (fst s) = [] -> d_plan (fst s') = []).

Lemma ow_pass_spec : forall cap s o s', ow_pass cap s = (o, s') ->
  untouched s s' /\ match o with Ok _ => True | Err _ => d_plan (fst s) <> [] | _ => False end.
Proof.
  intros cap s o s' H. unfold ow_pass in H.
  apply bind_inv in H.
  destruct H as [[a [s1 [H1 H]]]|[[e [H1 ->]]|[[H1 ->]|[H1 ->]]]];
    apply map_err_inv in H1;
    destruct H1 as [[a1 [H1 Z]]|[[e1 [H1 Z]]|[[H1 Z]|[H1 Z]]]]; try discriminate Z;
    apply ow_dev_inv in H1; destruct H1 as [H1 G1]; apply dev_seek_start_spec in H1;
    destruct H1 as [P1 [D1 [L1 Q1]]]; try contradiction.
  2:{ split; [|apply Q1]. unfold untouched. repeat split; auto.
      apply plan_step_nil. exact P1. }
  erewrite bind_ok in H by apply ow_random_nothing.
  apply map_err_inv in H.
  destruct H as [[a2 [H2 Z2]]|[[e2 [H2 Z2]]|[[H2 Z2]|[H2 Z2]]]]; subst o;
    apply ow_dev_inv in H2; destruct H2 as [H2 G2]; apply dev_flush_spec in H2;
    destruct H2 as [P2 [D2 [L2 [Q2 F2]]]]; try contradiction.
  - split; [|exact I]. unfold untouched. repeat split; try congruence.
    intros N. apply (plan_step_nil _ _ P2), (plan_step_nil _ _ P1), N.
  - split. { unfold untouched. repeat split; try congruence.
    intros N. apply (plan_step_nil _ _ P2), (plan_step_nil _ _ P1), N. }
    intros N. apply F2, (plan_step_nil _ _ P1), N.
Qed.

Lemma ow_passes_spec : forall n cap s o s', ow_passes n cap s = (o, s') ->
  untouched s s' /\ match o with Ok _ => True | Err _ => d_plan (fst s) <> [] | _ => False end.
Proof.
  induction n as [|n IH]; intros cap s o s' H; cbn [ow_passes] in H.
  - injection H as <- <-. split; [|exact I]. unfold untouched. auto.
  - apply bind_inv in H.
    destruct H as [[a [s1 [H1 H]]]|[[e [H1 ->]]|[[H1 ->]|[H1 ->]]]];
      apply ow_pass_spec in H1; destruct H1 as [U1 F1]; try contradiction; [|auto].
    apply IH in H. destruct H as [U2 F2].
    destruct U1 as [A1 [A2 [A3 A4]]], U2 as [B1 [B2 [B3 B4]]].
    split. { unfold untouched. repeat split; try congruence. auto. }
    destruct o; auto.
Qed.

Lemma overwrite_any : forall cap passes s o s',
  overwrite_execute cap passes s = (o, s') ->
  snd s' = snd s
  /\ (exists k (cs : list bytes), k <= cap
       /\ (o = Ok tt -> k = cap)
       /\ d_data (fst s') = zeros k ++ skipn k (d_data (fst s))
       /\ List.concat cs = zeros k /\ Forall (fun c => c <> []) cs
       /\ d_log (fst s') = d_log (fst s) ++ chunk_log 0 cs)
  /\ (d_plan (fst s) = [] -> d_plan (fst s') = [])
  /\ match o with Ok _ => True | Err _ => d_plan (fst s) <> [] | _ => False end.
Proof.
  intros cap passes s o s' H. unfold overwrite_execute in H.
  assert (U0 : forall s1, untouched s s1 -> o <> Ok tt -> s1 = s' ->
    snd s' = snd s
    /\ (exists k (cs : list bytes), k <= cap
         /\ (o = Ok tt -> k = cap)
         /\ d_data (fst s') = zeros k ++ skipn k (d_data (fst s))
         /\ List.concat cs = zeros k /\ Forall (fun c => c <> []) cs
         /\ d_log (fst s') = d_log (fst s) ++ chunk_log 0 cs)
    /\ (d_plan (fst s) = [] -> d_plan (fst s') = [])).
  { intros s1 [A1 [A2 [A3 A4]]] N <-. repeat split; auto.
    exists 0, []. repeat split; auto; [lia|contradiction|].
    cbn. rewrite app_nil_r. exact A2. }
  apply bind_inv in H.
  destruct H as [[a [s1 [H1 H]]]|[[e [H1 ->]]|[[H1 ->]|[H1 ->]]]];
    apply ow_passes_spec in H1; destruct H1 as [U1 F1]; try contradiction.
  2:{ destruct (U0 _ U1) as [X1 [X2 X3]]; auto; discriminate. }
  destruct U1 as [A1 [A2 [A3 A4]]].
  apply bind_inv in H.
  destruct H as [[a1 [s2 [H2 H]]]|[[e [H2 ->]]|[[H2 ->]|[H2 ->]]]];
    apply map_err_inv in H2;
    destruct H2 as [[a2 [H2 Z]]|[[e2 [H2 Z]]|[[H2 Z]|[H2 Z]]]]; try discriminate Z;
    apply ow_dev_inv in H2; destruct H2 as [H2 G2]; apply dev_seek_start_spec in H2;
    destruct H2 as [P2 [D2 [L2 Q2]]]; try contradiction.
  2:{ destruct (U0 s') as [X1 [X2 X3]]; auto; [|discriminate|].
      - unfold untouched. repeat split; try congruence.
        intros N. apply (plan_step_nil _ _ P2), A4, N.
      - repeat split; auto. intros N. apply Q2, A4, N. }
  clear a a1 Z a2.
  apply bind_inv in H.
  destruct H as [[a [s3 [H3 H]]]|[[e [H3 ->]]|[[H3 ->]|[H3 ->]]]];
    apply map_err_inv in H3;
    destruct H3 as [[a3 [H3 Z]]|[[e3 [H3 Z]]|[[H3 Z]|[H3 Z]]]]; try discriminate Z;
    apply ow_dev_inv in H3; destruct H3 as [H3 G3]; apply dev_write_all_spec in H3;
    destruct H3 as [P3 W3]; try contradiction.
  2:{ destruct W3 as [[k [K W3]] N3]. rewrite zeros_length in K.
      destruct W3 as [X1 [X2 [cs [X3 [X4 X5]]]]].
      unfold zeros in X1, X3. rewrite firstn_repeat, Nat.min_l in X1, X3 by lia.
      fold (zeros k) in X1, X3.
      rewrite Q2, write_at_0, zeros_length, D2, A1 in X1.
      rewrite Q2, L2, A2 in X5.
      split; [congruence|]. split.
      { exists k, cs. repeat split; auto; [lia|discriminate]. }
      split; [|intros N; apply N3, (plan_step_nil _ _ P2), A4, N].
      intros N. apply P3, (plan_step_nil _ _ P2), A4, N. }
  destruct W3 as [X1 [X2 [cs [X3 [X4 X5]]]]].
  rewrite Q2, write_at_0, zeros_length, D2, A1 in X1. rewrite Q2, L2, A2 in X5.
  apply map_err_inv in H.
  destruct H as [[a4 [H4 Z4]]|[[e4 [H4 Z4]]|[[H4 Z4]|[H4 Z4]]]]; subst o;
    apply ow_dev_inv in H4; destruct H4 as [H4 G4]; apply dev_flush_spec in H4;
    destruct H4 as [P4 [D4 [L4 [Q4 F4]]]]; try contradiction.
  - split; [congruence|]. split.
    { exists cap, cs. rewrite D4, L4. repeat split; auto. }
    split; [|exact I].
    intros N. apply (plan_step_nil _ _ P4), P3, (plan_step_nil _ _ P2), A4, N.
  - split; [congruence|]. split.
    { exists cap, cs. rewrite D4, L4. repeat split; auto. }
    split.
    + intros N. apply (plan_step_nil _ _ P4), P3, (plan_step_nil _ _ P2), A4, N.
    + intros N. apply F4, P3, (plan_step_nil _ _ P2), A4, N.
Qed.

Lemma overwrite_holds : forall cap passes d g o d' g',
  overwrite_execute cap passes (d, g) = (o, (d', g')) ->
  (o = Ok tt ->
     d_data d' = zeros cap ++ skipn cap (d_data d)
     /\ (forall i, i < cap -> nth_error (d_data d') i = Some x00)
     /\ (forall i, cap <= i -> nth_error (d_data d') i = nth_error (d_data d) i))
  /\ (exists k, k <= cap /\ d_data d' = zeros k ++ skipn k (d_data d))
  /\ o <> Panic /\ o <> Diverge
  /\ (d_plan d = [] -> o = Ok tt).
Proof.
  intros cap passes d g o d' g' H. apply overwrite_any in H. cbn [fst snd] in H.
  destruct H as [_ [[k [cs [K [K1 [D _]]]]] [_ F]]].
  repeat split.
  - rewrite D, K1; auto.
  - intros i I. rewrite D, (K1 H).
    rewrite nth_error_app1 by (rewrite zeros_length; lia).
    apply nth_error_repeat. exact I.
  - intros i I. rewrite D, (K1 H).
    rewrite nth_error_app2 by (rewrite zeros_length; lia). rewrite zeros_length.
    clear - I. revert cap I. generalize (d_data d) as l.
    intros l cap. revert l i. induction cap as [|c IH]; intros l i I.
    + rewrite Nat.sub_0_r. reflexivity.
    + destruct i as [|i]; [lia|]. destruct l as [|x l].
      * cbn [skipn nth_error]. destruct (S i - S c); reflexivity.
      * cbn [skipn nth_error]. apply IH. lia.
  - exists k. auto.
  - intros ->. contradiction.
  - intros ->. contradiction.
  - intros N. destruct o as [[]|e| |]; auto; contradiction.
Qed.

Lemma touches_zeros : forall i cap, i < cap -> touches i (0, zeros cap) = true.
Proof.
  intros i cap I. unfold touches. cbn [fst snd]. rewrite zeros_length.
  apply andb_true_intro. split; [apply Nat.leb_le|apply Nat.ltb_lt]; lia.
Qed.

Lemma overwrite_once : forall cap passes d g, d_plan d = [] -> d_log d = [] ->
  exists d', overwrite_execute cap passes (d, g) = (Ok tt, (d', g))
  /\ List.concat (map snd (d_log d')) = zeros cap
  /\ forall i, i < cap -> times_written (d_log d') i = 1.
Proof.
  intros cap passes d g N L.
  destruct (overwrite_execute cap passes (d, g)) as [o [d' g']] eqn:H.
  assert (R := H). apply overwrite_any in H. cbn [fst snd] in H.
  destruct H as [-> [[k [cs [K [K1 [D [C [NE Lg]]]]]]] [_ F]]].
  destruct o as [[]|e| |]; try contradiction.
  specialize (K1 eq_refl). subst k.
  exists d'. split; [reflexivity|]. rewrite L in Lg. cbn in Lg. rewrite Lg. split.
  - rewrite <- C. clear - cs. generalize 0 as p.
    induction cs as [|c cs IH]; intros p; [reflexivity|]. cbn. rewrite IH. reflexivity.
  - assert (T : forall cs p i, p <= i -> i < p + List.length (List.concat cs) ->
        times_written (chunk_log p cs) i = 1).
    { assert (T0 : forall cs p i, i < p -> times_written (chunk_log p cs) i = 0).
      { clear. induction cs as [|c cs IH]; intros p i I; [reflexivity|].
        unfold times_written in *. cbn [chunk_log filter]. unfold touches at 1. cbn [fst snd].
        destruct (p <=? i) eqn:E; [apply Nat.leb_le in E; lia|]. cbn. apply IH. lia. }
      clear - T0. induction cs as [|c cs IH]; intros p i I1 I2; [cbn in I2; lia|].
      cbn [List.concat] in I2. rewrite app_length in I2.
      unfold times_written in *. cbn [chunk_log filter]. unfold touches at 1. cbn [fst snd].
      replace (p <=? i) with true by (symmetry; apply Nat.leb_le; exact I1). cbn [andb].
      destruct (i <? p + List.length c) eqn:E.
      - apply Nat.ltb_lt in E. cbn [List.length]. rewrite (T0 cs); auto.
      - apply Nat.ltb_ge in E. apply IH; lia. }
    intros i I. apply T; [lia|]. rewrite C, zeros_length. lia.
Qed.

Lemma passes_write_nothing : exists cap passes d g d' i,
  d_plan d = [] /\ d_log d = [] /\ (1 <= passes)%Z /\ i < cap
  /\ overwrite_execute cap passes (d, g) = (Ok tt, (d', g))
  /\ (Z.of_nat (times_written (d_log d') i) < passes + 1)%Z
  /\ forall w, In w (d_log d') -> Forall (fun b => b = x00) (snd w).
Proof.
  destruct (overwrite_once 600 3 (dev_of (repeat x41 600)) (fun _ => x55) eq_refl eq_refl)
    as [d' [H [C T]]].
  exists 600, 3%Z, (dev_of (repeat x41 600)), (fun _ => x55), d', 5.
  repeat split; auto; try lia.
  - rewrite T; lia.
  - intros w W. assert (F : Forall (fun b => b = x00) (List.concat (map snd (d_log d')))).
    { rewrite C. apply Forall_forall. intros b B. apply repeat_spec in B. exact B. }
    rewrite Forall_concat, Forall_map, Forall_forall in F. apply F, W.
Qed.

(** ** Hash *)

Lemma hash_loop_spec : forall H fuel bs h d o d',
  incremental H -> 0 < bs -> List.length (d_data d) - d_pos d < fuel ->
  hash_loop H fuel bs h d = (o, d') ->
  d_data d' = d_data d /\ d_log d' = d_log d
  /\ match o with
     | Ok h' => exists k, h' = hr_write H (firstn k (rest d)) h
                  /\ k <= List.length (rest d)
                  /\ d_pos d' = d_pos d + k
                  /\ (k < List.length (rest d) -> ~ no_short (d_plan d))
     | Err e => e = HashReadData /\ d_plan d <> []
     | _ => False
     end.
Proof.
  intros H fuel bs h d o d' [I0 I1] B. revert h d o d'.
  induction fuel as [|fuel IH]; intros h d o d' F R; [lia|].
  cbn [hash_loop] in R. apply bind_inv in R.
  destruct R as [[got [d1 [R1 R]]]|[[e [R1 ->]]|[[R1 ->]|[R1 ->]]]];
    apply map_err_inv in R1;
    destruct R1 as [[g [R1 Z]]|[[e1 [R1 Z]]|[[R1 Z]|[R1 Z]]]]; try discriminate Z;
    apply dev_read_spec in R1; destruct R1 as [P [D [L S]]]; try contradiction.
  - apply Ok_inj in Z. subst g. destruct S as [S1 [S2 [S3 [S4 S5]]]].
    assert (LR : List.length (rest d) = List.length (d_data d) - d_pos d)
      by (unfold rest; rewrite skipn_length; reflexivity).
    assert (LG : List.length got <= List.length (rest d)).
    { rewrite S1. unfold rest. rewrite firstn_length. lia. }
    destruct (List.length got =? bs) eqn:E.
    + apply Nat.eqb_eq in E.
      apply IH in R; [|rewrite D, S3; lia].
      destruct R as [D' [L' R]]. split; [congruence|]. split; [congruence|].
      assert (RR : rest d1 = skipn (List.length got) (rest d)).
      { unfold rest. rewrite D, S3, skipn_skipn'. reflexivity. }
      destruct o as [h'|e| |]; try contradiction.
      * destruct R as [k [R1 [R2 [R3 R4]]]]. exists (List.length got + k).
        rewrite RR in R1, R2, R4. rewrite skipn_length in R2, R4. repeat split; try lia.
        -- rewrite R1, I1. f_equal. rewrite firstn_split. f_equal. exact S1.
        -- intros K NS. apply R4; [lia|]. apply (plan_step_no_short _ _ P NS).
      * destruct R as [R1 R2]. split; [exact R1|]. intros N. apply R2, (plan_step_nil _ _ P N).
    + apply Nat.eqb_neq in E. cbv [ret] in R.
      assert (R' : Ok (hr_write H got h) = o /\ d1 = d') by (inversion R; auto).
      destruct R' as [<- <-].
      repeat split; auto. exists (List.length got). repeat split; auto.
      * f_equal. exact S1.
      * intros K NS. specialize (S5 NS). apply E.
        assert (List.length got = Nat.min bs (List.length (rest d))).
        { rewrite S5 at 1. rewrite firstn_length. reflexivity. }
        lia.
  - injection Z as ->. destruct S as [S1 S2]. repeat split; auto. rewrite S2. discriminate.
Qed.

Lemma hash_any : forall H bs h d o d',
  incremental H -> 0 < bs ->
  hash_execute_bs H bs h d = (o, d') ->
  d_data d' = d_data d /\ d_log d' = d_log d
  /\ match o with
     | Ok s => exists k, s = hr_finish H (hr_write H (firstn k (d_data d)) h)
                 /\ k <= List.length (d_data d)
                 /\ d_pos d' = k
                 /\ (k < List.length (d_data d) -> ~ no_short (d_plan d))
     | Err _ => d_plan d <> []
     | _ => False
     end.
Proof.
  intros H bs h d o d' I B R. unfold hash_execute_bs in R.
  apply bind_inv in R.
  destruct R as [[a [d1 [R1 R]]]|[[e [R1 ->]]|[[R1 ->]|[R1 ->]]]];
    apply map_err_inv in R1;
    destruct R1 as [[g [R1 Z]]|[[e1 [R1 Z]]|[[R1 Z]|[R1 Z]]]]; try discriminate Z;
    apply dev_seek_start_spec in R1; destruct R1 as [P [D [L S]]]; try contradiction.
  2:{ repeat split; auto. apply S. }
  apply bind_inv in R.
  destruct R as [[h' [d2 [R2 R]]]|[[e [R2 ->]]|[[R2 ->]|[R2 ->]]]];
    apply hash_loop_spec in R2; auto; try lia; destruct R2 as [D2 [L2 R2]]; try contradiction.
  - cbv [ret] in R.
    assert (R' : Ok (hr_finish H h') = o /\ d2 = d') by (inversion R; auto).
    destruct R' as [<- <-].
    split; [congruence|]. split; [congruence|].
    destruct R2 as [k [K1 [K2 [K3 K4]]]]. exists k.
    assert (RR : rest d1 = d_data d) by (unfold rest; rewrite S, D; reflexivity).
    rewrite RR in K1, K2, K4. rewrite S in K3. rewrite K1. repeat split; auto.
    intros K NS. apply K4; auto. apply (plan_step_no_short _ _ P NS).
  - repeat split; try congruence. destruct R2 as [_ R2]. intros N.
    apply R2, (plan_step_nil _ _ P N).
Qed.

Lemma BLOCK_SIZE_pos : 0 < BLOCK_SIZE.
Proof. unfold BLOCK_SIZE. lia. Qed.

Lemma hash_holds : forall H h d, incremental H -> d_plan d = [] ->
  exists d', hash_execute H h d = (Ok (hr_finish H (hr_write H (d_data d) h)), d')
  /\ d_data d' = d_data d /\ d_log d' = d_log d.
Proof.
  intros H h d I N. unfold hash_execute.
  destruct (hash_execute_bs H BLOCK_SIZE h d) as [o d'] eqn:R.
  apply hash_any in R; auto using BLOCK_SIZE_pos. destruct R as [D [L R]].
  destruct o as [s|e| |]; try contradiction.
  destruct R as [k [-> [K1 [K2 K3]]]].
  assert (k = List.length (d_data d)).
  { destruct (Nat.eq_dec k (List.length (d_data d))); auto.
    exfalso. apply K3; [lia|]. apply no_short_nil, N. }
  subst k. rewrite H0, firstn_all. exists d'. auto.
Qed.

Lemma blake3_incremental : forall f, incremental (Blake3Hasher f).
Proof.
  intros f. split; cbn; intros.
  - apply app_nil_r.
  - symmetry. apply app_assoc.
Qed.

Lemma hash_blake3_holds : forall blake3 d, d_plan d = [] ->
  exists d', hash_execute (Blake3Hasher blake3) [] d
             = (Ok (hex_encode (blake3 (d_data d))), d')
  /\ d_data d' = d_data d /\ d_log d' = d_log d.
Proof.
  intros f d N. apply (hash_holds (Blake3Hasher f) [] d (blake3_incremental f) N).
Qed.

Lemma hash_short_holds : forall H h d o d', incremental H ->
  hash_execute H h d = (o, d') ->
  d_data d' = d_data d /\ d_log d' = d_log d
  /\ o <> Panic /\ o <> Diverge
  /\ (forall s, o = Ok s -> exists k,
        s = hr_finish H (hr_write H (firstn k (d_data d)) h)
        /\ (no_short (d_plan d) -> k = List.length (d_data d))).
Proof.
  intros H h d o d' I R. apply hash_any in R; auto using BLOCK_SIZE_pos.
  destruct R as [D [L R]]. repeat split; auto; try (intros ->; contradiction).
  intros s ->. destruct R as [k [R1 [R2 [R3 R4]]]]. exists k. split; auto.
  intros NS. destruct (Nat.eq_dec k (List.length (d_data d))); auto.
  exfalso. apply R4; [lia|exact NS].
Qed.

Lemma hash_short_witness : exists d d',
  hash_execute (Blake3Hasher (fun l => l)) [] d = (Ok "616263"%string, d')
  /\ d_data d = [x61; x62; x63; x64]
  /\ hex_encode (d_data d) = "61626364"%string
  /\ ~ In EvFail (d_plan d) /\ ~ In EvInt (d_plan d).
Proof.
  exists (mkDev [x61; x62; x63; x64] 0 [EvFull; EvShort 2] []). eexists.
  split; [vm_compute; reflexivity|]. repeat split; auto;
    cbn; intros [H|[H|[]]]; discriminate.
Qed.

(** ** Hexadecimal output *)

Lemma append_assoc : forall a b c : string,
  String.append (String.append a b) c = String.append a (String.append b c).
Proof. induction a as [|x a IH]; intros; cbn; [reflexivity|f_equal; apply IH]. Qed.

Lemma append_empty : forall a : string, String.append a EmptyString = a.
Proof. induction a as [|x a IH]; cbn; [reflexivity|f_equal; exact IH]. Qed.

Lemma hex_loop_acc : forall l acc,
  hex_encode_loop l acc = String.append acc (hex_encode_loop l EmptyString).
Proof.
  induction l as [|b l IH]; intros acc; cbn [hex_encode_loop].
  - symmetry. apply append_empty.
  - rewrite IH. rewrite (IH (String.append EmptyString _)).
    rewrite append_assoc. reflexivity.
Qed.

Lemma hex_encode_cons : forall b l,
  hex_encode (b :: l) = String.append (pad2 (lower_hex b)) (hex_encode l).
Proof. intros. unfold hex_encode. cbn [hex_encode_loop]. rewrite hex_loop_acc. reflexivity. Qed.

(** The 256 cases. *)
Definition hex_byte_ok (b : byte) : bool :=
  match pad2 (lower_hex b) with
  | String c (String d EmptyString) =>
      match digit_value c, digit_value d with
      | Some x, Some y => N.eqb (16 * x + y) (Byte.to_N b)
      | _, _ => false
      end
  | _ => false
  end.

Lemma hex_byte_all : forall b, hex_byte_ok b = true.
Proof. intros b. destruct b; reflexivity. Qed.

Lemma hex_byte_spec : forall b, exists c d x y,
  pad2 (lower_hex b) = String c (String d EmptyString)
  /\ digit_value c = Some x /\ digit_value d = Some y
  /\ Byte.of_N (16 * x + y) = Some b.
Proof.
  intros b. assert (H := hex_byte_all b). unfold hex_byte_ok in H.
  destruct (pad2 (lower_hex b)) as [|c [|d [|e s]]]; try discriminate.
  destruct (digit_value c) as [x|] eqn:X; [|discriminate].
  destruct (digit_value d) as [y|] eqn:Y; [|discriminate].
  apply N.eqb_eq in H. exists c, d, x, y. repeat split; auto.
  rewrite H. apply Byte.of_to_N.
Qed.

Lemma hex_decode_encode : forall l, hex_decode (hex_encode l) = Some l.
Proof.
  induction l as [|b l IH]; [reflexivity|].
  rewrite hex_encode_cons. destruct (hex_byte_spec b) as [c [d [x [y [-> [X [Y B]]]]]]].
  cbn [String.append hex_decode]. rewrite X, Y, IH, B. reflexivity.
Qed.

Lemma hex_holds : forall l,
  String.length (hex_encode l) = 2 * List.length l
  /\ all_digits (hex_encode l)
  /\ hex_decode (hex_encode l) = Some l
  /\ forall l', hex_encode l' = hex_encode l -> l' = l.
Proof.
  intros l. split; [|split; [|split]].
  - induction l as [|b l IH]; [reflexivity|]. rewrite hex_encode_cons.
    destruct (hex_byte_spec b) as [c [d [x [y [-> [X [Y B]]]]]]].
    cbn [String.append String.length List.length]. lia.
  - induction l as [|b l IH]; [exact I|]. rewrite hex_encode_cons.
    destruct (hex_byte_spec b) as [c [d [x [y [-> [X [Y B]]]]]]].
    cbn [String.append all_digits]. rewrite X, Y. repeat split; try discriminate. exact IH.
  - apply hex_decode_encode.
  - intros l' E. assert (A := hex_decode_encode l'). rewrite E, hex_decode_encode in A.
    injection A as ->. reflexivity.
Qed.

(** ** Passphrases *)

Definition pick (words : list string) (draw : nat -> N) (i : nat) : nat :=
  N.to_nat (draw i mod (N.of_nat (List.length words) + 1)).

Lemma pick_range : forall words draw i, pick words draw i <= List.length words.
Proof.
  intros. unfold pick.
  assert (H := N.mod_lt (draw i) (N.of_nat (List.length words) + 1)). lia.
Qed.

Lemma concat_snoc : forall ws w, ws <> [] ->
  hyphenated (ws ++ [w]) = String.append (hyphenated ws) (String.append "-" w).
Proof.
  unfold hyphenated. induction ws as [|a ws IH]; intros w N; [contradiction|].
  destruct ws as [|b ws]; [reflexivity|].
  cbn [app String.concat] in *. rewrite IH by discriminate.
  rewrite !append_assoc. reflexivity.
Qed.

Definition with_tail (ws : list string) (total : nat) : string :=
  if (List.length ws =? 0) || (total <=? List.length ws) then hyphenated ws
  else String.append (hyphenated ws) "-".

Lemma passphrase_loop_spec : forall words draw iters i total ws,
  List.length ws = i -> i + iters = total ->
  (forall j w, nth_error ws j = Some w -> nth_error words (pick words draw j) = Some w) ->
  match passphrase_loop words draw iters i (Z.of_nat total) (with_tail ws total) with
  | Ok s => exists ws', List.length ws' = total /\ s = hyphenated ws'
              /\ (forall j w, nth_error ws' j = Some w ->
                    nth_error words (pick words draw j) = Some w)
  | Panic => exists j, i <= j < total /\ pick words draw j = List.length words
  | _ => False
  end.
Proof.
  intros words draw. induction iters as [|n IH]; intros i total ws Li Ti A.
  - cbn [passphrase_loop]. exists ws. repeat split; auto; [lia|].
    unfold with_tail. replace (total <=? List.length ws) with true
      by (symmetry; apply Nat.leb_le; lia).
    rewrite orb_true_r. reflexivity.
  - cbn [passphrase_loop]. cbv zeta. fold (pick words draw i).
    destruct (nth_error words (pick words draw i)) as [w|] eqn:E.
    2:{ exists i. split; [lia|]. apply nth_error_None in E.
        assert (X := pick_range words draw i). lia. }
    assert (W : String.append (with_tail ws total) w = hyphenated (ws ++ [w])).
    { unfold with_tail.
      destruct ws as [|a ws].
      - cbn. reflexivity.
      - replace (List.length (a :: ws) =? 0) with false by reflexivity.
        replace (total <=? List.length (a :: ws)) with false
          by (symmetry; apply Nat.leb_gt; lia).
        cbn [orb]. rewrite concat_snoc by discriminate. rewrite append_assoc. reflexivity. }
    rewrite W.
    assert (T : (if (Z.of_nat i <? Z.of_nat total - 1)%Z
                 then String.append (hyphenated (ws ++ [w])) "-" else hyphenated (ws ++ [w]))
                = with_tail (ws ++ [w]) total).
    { unfold with_tail. rewrite app_length. cbn [List.length].
      replace (List.length ws + 1 =? 0) with false by (symmetry; apply Nat.eqb_neq; lia).
      cbn [orb].
      destruct (Z.of_nat i <? Z.of_nat total - 1)%Z eqn:C.
      - apply Z.ltb_lt in C. replace (total <=? List.length ws + 1) with false; auto.
        symmetry. apply Nat.leb_gt. lia.
      - apply Z.ltb_ge in C. replace (total <=? List.length ws + 1) with true; auto.
        symmetry. apply Nat.leb_le. lia. }
    rewrite T.
    assert (Li' : List.length (ws ++ [w]) = S i) by (rewrite app_length; cbn; lia).
    assert (Ti' : S i + n = total) by lia.
    assert (A' : forall j v, nth_error (ws ++ [w]) j = Some v ->
      nth_error words (pick words draw j) = Some v).
    { intros j v J. destruct (Nat.lt_ge_cases j (List.length ws)) as [X|X].
      - rewrite nth_error_app1 in J by lia. auto.
      - rewrite nth_error_app2 in J by lia.
        destruct (j - List.length ws) as [|m] eqn:M; cbn in J.
        + injection J as <-. replace j with i by lia. exact E.
        + destruct m; discriminate. }
    specialize (IH (S i) total (ws ++ [w]) Li' Ti' A').
    destruct (passphrase_loop words draw n (S i) (Z.of_nat total) (with_tail (ws ++ [w]) total));
      auto.
    destruct IH as [j [J1 J2]]. exists j. split; [lia|exact J2].
Qed.

Lemma passphrase_holds : forall words draw n,
  match generate_passphrase words draw n with
  | Ok s => exists ws, List.length ws = Z.to_nat n /\ s = hyphenated ws
              /\ (forall j w, nth_error ws j = Some w -> In w words)
  | Panic => exists j, j < Z.to_nat n
               /\ (draw j mod (N.of_nat (List.length words) + 1)
                   = N.of_nat (List.length words))%N
  | _ => False
  end.
Proof.
  intros words draw n. unfold generate_passphrase.
  destruct (Z.le_gt_cases n 0) as [L|L].
  - replace (Z.to_nat n) with 0 by lia. cbn [passphrase_loop].
    exists []. repeat split. intros j w J. destruct j; discriminate.
  - assert (H := passphrase_loop_spec words draw (Z.to_nat n) 0 (Z.to_nat n) []
                   eq_refl eq_refl).
    rewrite Z2Nat.id in H by lia. unfold with_tail in H. cbn [List.length Nat.eqb orb] in H.
    change (hyphenated []) with ""%string in H.
    assert (A : forall j w, nth_error (@nil string) j = Some w ->
      nth_error words (pick words draw j) = Some w) by (intros [|j] w J; discriminate).
    specialize (H A).
    destruct (passphrase_loop words draw (Z.to_nat n) 0 n ""%string); try contradiction.
    + destruct H as [ws [H1 [H2 H3]]]. exists ws. repeat split; auto.
      intros j w J. apply H3 in J. apply nth_error_In in J. exact J.
    + destruct H as [j [J1 J2]]. exists j. split; [lia|].
      unfold pick in J2. lia.
Qed.

Lemma passphrase_panics : forall words n, (0 < n)%Z ->
  exists draw, generate_passphrase words draw n = Panic.
Proof.
  intros words n L. exists (fun _ => N.of_nat (List.length words)).
  unfold generate_passphrase.
  destruct (Z.to_nat n) as [|m] eqn:M; [lia|]. cbn [passphrase_loop]. cbv zeta.
  rewrite N.mod_small by lia. rewrite Nnat.Nat2N.id.
  replace (nth_error words (List.length words)) with (@None string); auto.
  symmetry. apply nth_error_None. lia.
Qed.

(** Every word sequence can come out. *)
Lemma passphrase_reaches : forall words ws,
  (forall w, In w ws -> In w words) -> ws <> [] ->
  exists draw, generate_passphrase words draw (Z.of_nat (List.length ws)) = Ok (hyphenated ws).
Proof.
  intros words ws A NE.
  assert (X : exists ix : list nat, Forall2 (fun w j => nth_error words j = Some w) ws ix).
  { clear NE. induction ws as [|w ws IH]; [exists []; constructor|].
    destruct IH as [ix F]; [intros; apply A; right; auto|].
    destruct (In_nth_error words w) as [j J]; [apply A; left; auto|].
    exists (j :: ix). constructor; auto. }
  destruct X as [ix F].
  exists (fun i => N.of_nat (nth i ix 0)).
  set (draw := fun i => N.of_nat (nth i ix 0)).
  assert (P : forall j w, nth_error ws j = Some w ->
     nth_error words (pick words draw j) = Some w).
  { intros j w J. assert (F' := F). clear - F' J.
    assert (G : nth_error words (nth j ix 0) = Some w).
    { revert j J. induction F'; intros j J; [destruct j; discriminate|].
      destruct j as [|j]; cbn in *.
      - injection J as <-. exact H.
      - apply IHF'. exact J. }
    unfold pick, draw. rewrite N.mod_small.
    - rewrite Nnat.Nat2N.id. exact G.
    - assert (nth j ix 0 < List.length words) by (apply nth_error_Some; congruence). lia. }
  assert (H := passphrase_holds words draw (Z.of_nat (List.length ws))).
  unfold generate_passphrase in *. rewrite Nat2Z.id in *.
  assert (S := passphrase_loop_spec words draw (List.length ws) 0 (List.length ws) []
                 eq_refl eq_refl).
  unfold with_tail in S. cbn [List.length Nat.eqb orb] in S.
  change (hyphenated []) with ""%string in S.
  assert (A0 : forall j w, nth_error (@nil string) j = Some w ->
      nth_error words (pick words draw j) = Some w) by (intros [|j] w J; discriminate).
  specialize (S A0).
  destruct (passphrase_loop words draw (List.length ws) 0 (Z.of_nat (List.length ws)) ""%string);
    try contradiction.
  - destruct S as [ws' [L [-> G]]]. f_equal. f_equal.
    assert (forall j, nth_error ws' j = nth_error ws j).
    { intros j. destruct (nth_error ws' j) as [w|] eqn:J.
      - assert (j < List.length ws') by (apply nth_error_Some; congruence).
        apply G in J. destruct (nth_error ws j) as [v|] eqn:K.
        + apply P in K. congruence.
        + exfalso. apply nth_error_None in K. lia.
      - apply nth_error_None in J. symmetry. apply nth_error_None. lia. }
    clear - H0 L. revert ws H0 L. induction ws' as [|a ws' IH]; intros [|b ws] E L;
      cbn in L; try lia; auto.
    f_equal.
    + specialize (E 0). cbn in E. congruence.
    + apply IH; [|lia]. intros j. apply (E (Datatypes.S j)).
  - destruct S as [j [J1 J2]]. exfalso.
    destruct (nth_error ws j) as [w|] eqn:K.
    + apply P in K. rewrite J2 in K.
      assert (List.length words < List.length words) by (apply nth_error_Some; congruence). lia.
    + apply nth_error_None in K. lia.
Qed.
