(** Dumping, stripping and restoring headers. *)
From Coq Require Import List Arith NArith ZArith Lia Bool.
From Verif Require Import Bytes Outcome IO Primitives Crypto Header Stream KeyModel EncDec KeyOps HeaderOps.
From Verif Require Import BytesFacts IOSpec IOFacts HeaderSpec HeaderFacts HeaderProofs.
From Verif Require Import StreamSpec StreamFacts StreamProofs FileSpec FileFacts FileProofs.
From Verif Require Import KeySpec KeyFacts KeyProofs DecSim KeyResults.
Local Open Scope nat_scope.

(** ** Strip *)

Lemma strip_any : forall w o w', header_strip w = (o, w') ->
  w_out w' = w_out w /\ w_hdr w' = w_hdr w /\
  ((exists e, o = Err e /\ untouched (w_in w) (w_in w'))
   \/ exists h aad d' n, deserialize (w_in w) = (Ok (h, aad), d')
        /\ n <= get_size (ht_version (h_type h))
        /\ d_data (w_in w') = write_at (d_data (w_in w)) 0 (zeros n)
        /\ (o = Ok tt /\ n = get_size (ht_version (h_type h))
            \/ o = Err HopWrite /\ d_plan (w_in w) <> [])).
Proof.
  intros w o w' H. unfold header_strip in H.
  destruct (deserialize (w_in w)) as (od, d1) eqn:D.
  pose proof (deserialize_spec _ _ _ D) as (S1 & S2 & S3 & S4).
  pose proof (deserialize_suffix _ _ _ D) as Sf.
  destruct od as [(h & aad)|e| |]; try contradiction.
  2:{ erewrite bind_err in H by (eapply map_err_err, zoom_eq; exact D). inversion H; subst. cbn [w_out w_hdr w_in].
      split; [reflexivity|]. split; [reflexivity|]. left. eexists. split; [reflexivity|]. split; assumption. }
  erewrite bind_ok in H by (eapply map_err_ok, zoom_eq; exact D). cbn [fst] in H.
  match type of H with bind _ _ ?x = _ => set (w1 := x) in H end.
  apply bind_inv in H as [(u & w2 & H1 & H)|[(e & H1 & ->)|[(H1 & ->)|(H1 & ->)]]];
    apply map_err_inv in H1 as [(x & H1 & X)|[(e' & H1 & X)|[(H1 & X)|(H1 & X)]]]; try discriminate X;
    apply zoom_inv in H1 as (d2 & H1 & ->);
    apply dev_seek_start_spec in H1 as (P1 & P2 & P3 & P4); cbn [w1 w_in] in *; try contradiction.
  - cbn [w_out w_hdr w_in w_rng w_tr] in *.
    apply map_err_inv in H as [(y & H & Y)|[(e' & H & Y)|[(H & Y)|(H & Y)]]];
      apply zoom_inv in H as (d3 & H & ->);
      apply dev_write_all_spec in H as (_ & Q); cbn [w_out w_hdr w_in] in *; try contradiction.
    + split; [reflexivity|]. split; [reflexivity|]. right. destruct y.
      exists h, aad, d1, (get_size (ht_version (h_type h))). split; [reflexivity|]. split; [lia|].
      destruct Q as (Q & _). rewrite P2, P4, S1 in Q. split; [exact Q|]. left. auto.
    + split; [reflexivity|]. split; [reflexivity|]. right.
      destruct Q as ((k & Hk & (Q & _)) & Qp). rewrite zeros_length in Hk.
      exists h, aad, d1, k. split; [reflexivity|]. split; [lia|].
      unfold zeros in Q. rewrite firstn_repeat, Nat.min_l in Q by lia. rewrite P2, P4, S1 in Q. split; [exact Q|].
      right. split; [exact Y|]. intros Hnil. apply Qp. eapply plan_step_nil; eauto.
  - cbn [w_out w_hdr w_in w_rng w_tr] in *. split; [reflexivity|]. split; [reflexivity|]. left.
    eexists. split; [reflexivity|]. split; congruence.
Qed.

Lemma strip_holds : forall w o w', header_strip w = (o, w') ->
  let data := d_data (w_in w) in
  let data' := d_data (w_in w') in
  w_out w' = w_out w /\ w_hdr w' = w_hdr w
  /\ (forall h aad d', deserialize (w_in w) = (Ok (h, aad), d') ->
        same_outside 0 (get_size (ht_version (h_type h))) data data'
        /\ (o = Ok tt -> data' = zeros (get_size (ht_version (h_type h)))
                                 ++ skipn (get_size (ht_version (h_type h))) data)
        /\ (d_plan (w_in w) = [] -> o = Ok tt)
        /\ (o = Ok tt \/ exists e, o = Err e))
  /\ ((forall h aad d', deserialize (w_in w) <> (Ok (h, aad), d')) ->
      (exists e, o = Err e) /\ untouched (w_in w) (w_in w'))
  /\ (d_plan (w_in w) = [] -> (forall t, ~ readable t (rest (w_in w))) ->
      (exists e, o = Err e) /\ untouched (w_in w) (w_in w')).
Proof.
  intros w o w' H data data'. pose proof (strip_any _ _ _ H) as (A & B & C).
  assert (Hun : (forall h aad d', deserialize (w_in w) <> (Ok (h, aad), d')) ->
      (exists e, o = Err e) /\ untouched (w_in w) (w_in w')).
  { intros Hno. destruct C as [(e & -> & U)|(h & aad & d' & n & D & _)]; [eauto|]. exfalso. eapply Hno; eauto. }
  split; [exact A|]. split; [exact B|]. split; [|split; [exact Hun|]].
  - intros h aad d' D. pose proof (proj1 (proj2 header_size_exact) _ _ _ _ D) as (Z1 & Z2 & _).
    set (sz := get_size (ht_version (h_type h))) in *.
    destruct C as [(e & -> & (U & _))|(h1 & aad1 & d1 & n & D1 & Hn & Hd & Ho)].
    + unfold data'. rewrite U. split; [repeat split|]. split; [intros X; discriminate X|]. split; [|eauto].
      (* well-behaved devices do not fail *)
      intros Hp. exfalso.
      assert (G : exists w2, header_strip w = (Ok tt, w2)).
      { unfold header_strip. erewrite bind_ok by (eapply map_err_ok, zoom_eq; exact D). cbn [fst].
        assert (Hp1 : d_plan d' = []) by (eapply deserialize_spec; eauto).
        erewrite bind_ok by (eapply map_err_ok, zoom_eq, dev_seek_start_ok; exact Hp1).
        eexists. eapply map_err_ok, zoom_eq, dev_write_all_ok. exact Hp1. }
      destruct G as (w2 & G). rewrite H in G. discriminate G.
    + rewrite D in D1. assert (h1 = h).
      { apply (f_equal fst) in D1. cbn [fst] in D1. apply Ok_inj in D1. now inversion D1. }
      subst h1. fold sz in Hn, Ho. split; [|split; [|split]].
      * unfold data', data. rewrite Hd. apply same_outside_write; rewrite ?zeros_length; lia.
      * intros ->. destruct Ho as [(_ & ->)|(X & _)]; [|discriminate X]. unfold data'. rewrite Hd, write_at_0, zeros_length. reflexivity.
      * intros Hp. destruct Ho as [(-> & _)|(_ & X)]; [reflexivity|]. now contradiction X.
      * destruct Ho as [(-> & _)|(-> & _)]; eauto.
  - intros Hp Hr. apply Hun. intros h aad d' D.
    destruct (deserialize_fail _ Hp Hr) as (e & d2 & D2). rewrite D in D2. discriminate D2.
Qed.

(** ** Runs on files this program wrote *)

Lemma wff_deserialize : forall h hdr body data aad p, well_formed_file h hdr body data -> create_aad h = Ok aad ->
  deserialize (mkDev data 0 [] p) = (Ok (reread h, aad), mkDev data (length hdr) [] p).
Proof.
  intros h hdr body data aad p (W & S & ->) A.
  rewrite (deserialize_run h hdr aad (mkDev (hdr ++ body) 0 [] p) W S A); [reflexivity|exists body; reflexivity|reflexivity].
Qed.

Lemma wff_aad : forall h hdr body data, well_formed_file h hdr body data -> exists aad, create_aad h = Ok aad.
Proof. intros h hdr body data (W & S & _). destruct (parse_serialize h hdr W S) as (aad & _ & A). eauto. Qed.

Lemma wff_size : forall h hdr body data, well_formed_file h hdr body data ->
  length hdr = get_size (ht_version (h_type h)).
Proof.
  intros h hdr body data (W & S & _). destruct (serialize_ok h W) as (b & S' & L & _). rewrite S in S'.
  apply Ok_inj in S'. now subst.
Qed.

Lemma reread_serialize : forall h b, wf_header h -> serialize h = Ok b -> serialize (reread h) = Ok b.
Proof.
  intros h b W S. destruct W as [(V & _)|[(V & N & k & K & Sz & Hh & Hs)|(V & _)]]; unfold reread; rewrite V.
  - exact S.
  - unfold serialize in *. cbn [h_type]. rewrite V in *. unfold serialize_v4 in *. cbn [h_keyslots h_salt h_type h_nonce].
    rewrite K in *. destruct Hs as [Hs|Hs]; rewrite Hs in S; exact S.
  - unfold serialize in *. cbn [h_type]. rewrite V in *. exact S.
Qed.

Lemma dump_run : forall h hdr body data w, well_formed_file h hdr body data -> w_in w = dev_of data ->
  d_plan (w_out w) = [] ->
  exists w', header_dump w = (Ok tt, w') /\ w_out w' = put_at hdr (w_out w)
    /\ d_data (w_in w') = data /\ d_log (w_in w') = [].
Proof.
  intros h hdr body data w W Hi Ho. destruct (wff_aad _ _ _ _ W) as (aad & A).
  pose proof (wff_deserialize _ _ _ _ _ [] W A) as D.
  unfold header_dump. erewrite bind_ok by (eapply map_err_ok, zoom_eq; rewrite Hi; exact D). cbn [fst].
  eexists. split; [|split; [|split]].
  - eapply map_err_ok, zoom_eq. unfold header_write.
    erewrite bind_ok by (unfold lift; rewrite (reread_serialize h hdr) by apply W; reflexivity).
    erewrite bind_ok by (eapply map_err_ok, dev_write_ok; exact Ho). reflexivity.
  - reflexivity.
  - reflexivity.
  - reflexivity.
Qed.

Lemma strip_run : forall h hdr body data w, well_formed_file h hdr body data -> w_in w = dev_of data ->
  exists w', header_strip w = (Ok tt, w') /\ d_data (w_in w') = zeros (length hdr) ++ body.
Proof.
  intros h hdr body data w W Hi. destruct (wff_aad _ _ _ _ W) as (aad & A).
  pose proof (wff_deserialize _ _ _ _ _ [] W A) as D.
  destruct (header_strip w) as (o, w') eqn:Hs. exists w'.
  pose proof (strip_holds _ _ _ Hs) as (_ & _ & C & _). rewrite Hi in C.
  specialize (C _ _ _ D). rewrite reread_version, <- (wff_size _ _ _ _ W) in C. destruct C as (_ & C1 & C2 & _).
  specialize (C2 eq_refl). subst o. split; [reflexivity|]. rewrite (C1 eq_refl). f_equal.
  destruct W as (_ & _ & ->). cbn [dev_of d_data]. now rewrite skipn_app_exact.
Qed.

Lemma restore_run : forall h hdr body data w, well_formed_file h hdr body data -> w_in w = dev_of hdr ->
  w_out w = dev_of (zeros (length hdr) ++ body) ->
  exists w', header_restore w = (Ok tt, w') /\ d_data (w_out w') = data.
Proof.
  intros h hdr body data w W Hi Ho. destruct (wff_aad _ _ _ _ W) as (aad & A).
  assert (W0 : well_formed_file h hdr [] hdr) by (split; [apply W|split; [apply W|now rewrite app_nil_r]]).
  pose proof (wff_deserialize _ _ _ _ _ [] W0 A) as D.
  unfold header_restore. erewrite bind_ok by (eapply map_err_ok, zoom_eq; rewrite Hi; exact D). cbn [fst].
  rewrite reread_version, <- (wff_size _ _ _ _ W).
  erewrite bind_ok by (eapply map_err_ok, zoom_eq; cbn [w_out]; rewrite Ho; apply dev_read_ok; reflexivity).
  cbn [dev_of d_pos d_data]. rewrite skipn_O, firstn_app_exact by (now rewrite zeros_length).
  rewrite all_zero_zeros. cbn [negb].
  erewrite bind_ok by (eapply map_err_ok, zoom_eq, dev_seek_start_ok; reflexivity).
  eexists. split.
  - eapply map_err_ok, zoom_eq. unfold header_write.
    erewrite bind_ok by (unfold lift; rewrite (reread_serialize h hdr) by apply W; reflexivity).
    erewrite bind_ok by (eapply map_err_ok, dev_write_ok; reflexivity). reflexivity.
  - cbn. rewrite write_at_0. destruct W as (_ & _ & ->). rewrite skipn_app_exact by (now rewrite zeros_length). reflexivity.
Qed.

Lemma dump_strip_restore_wff : forall h hdr body data, well_formed_file h hdr body data ->
  exists w1 w2 w3,
    header_dump (two_files data []) = (Ok tt, w1)
    /\ d_data (w_out w1) = hdr
    /\ header_strip (two_files data []) = (Ok tt, w2)
    /\ d_data (w_in w2) = zeros (length hdr) ++ body
    /\ header_restore (two_files (d_data (w_out w1)) (d_data (w_in w2))) = (Ok tt, w3)
    /\ d_data (w_out w3) = data.
Proof.
  intros h hdr body data W.
  destruct (dump_run h hdr body data (two_files data []) W eq_refl eq_refl) as (w1 & H1 & O1 & _).
  destruct (strip_run h hdr body data (two_files data []) W eq_refl) as (w2 & H2 & O2).
  exists w1, w2. assert (Hd : d_data (w_out w1) = hdr).
  { rewrite O1. cbn. apply write_at_empty. }
  rewrite Hd, O2.
  destruct (restore_run h hdr body data (two_files hdr (zeros (length hdr) ++ body)) W eq_refl eq_refl) as (w3 & H3 & O3).
  exists w3. auto 10.
Qed.

(** ** Files after encryption and key operations *)

Lemma run_on_wff : forall E x h hdr body data, env_ok E -> ht_version (h_type h) = V5 ->
  well_formed_file h hdr body data ->
  exists h' hdr', ht_version (h_type h') = V5 /\ well_formed_file h' hdr' body (snd (run_on E x data)).
Proof.
  intros E [op r] h hdr body data HE Hv W. unfold run_on. cbn [fst snd].
  destruct (run_op E op _) as (o, w') eqn:R. cbn [snd].
  pose proof (op_cases E op _ o w' HE R) as (_ & _ & _ & C). cbn [w_in dev_at d_data d_pos] in C.
  assert (Same : d_data (w_in w') = data -> exists h' hdr', ht_version (h_type h') = V5
            /\ well_formed_file h' hdr' body (d_data (w_in w'))).
  { intros ->. eauto. }
  destruct C as [(e & -> & (U & _) & N)|[(Nv & -> & (U & _) & _)|(Nv & h' & slots' & i & key & mk' & k & new & b' & n & P & Lm & Md & W' & S' & Lb' & Ln & Wr & Ho & Hfull & _)]].
  - apply Same. exact U.
  - apply Same. exact U.
  - destruct Ho as [->|(_ & _ & X)]; [|now contradiction X].
    specialize (Hfull eq_refl). rewrite Hfull in Wr by (intros kk []). rewrite firstn_all2 in Wr by lia.
    destruct Wr as (Wr & _). cbn [dev_at d_data d_pos] in Wr. rewrite write_at_0 in Wr.
    exists (with_slots h' (edited op i new slots')), b'. split; [apply W'|].
    split; [right; right; exact W'|]. split; [exact S'|]. rewrite Wr. f_equal.
    pose proof (wff_size _ _ _ _ W) as L. rewrite Hv in L. cbn [get_size] in L.
    destruct W as (_ & _ & ->). apply skipn_app_exact. lia.
Qed.

Lemma run_all_wff : forall E ops h hdr body data, env_ok E -> ht_version (h_type h) = V5 ->
  well_formed_file h hdr body data ->
  exists h' hdr', ht_version (h_type h') = V5 /\ well_formed_file h' hdr' body (snd (run_all E ops data)).
Proof.
  intros E ops. induction ops as [|x ops IH]; intros h hdr body data HE Hv W; cbn [run_all snd]; [eauto|].
  destruct (run_on_wff E x h hdr body data HE Hv W) as (h' & hdr' & Hv' & W'). eapply IH; eauto.
Qed.

Lemma encrypt_wff : forall E req w w', env_ok E ->
  ht_version (er_header_type req) = V5 -> er_detached req = false ->
  d_plan (w_out w) = [] -> d_data (w_out w) = [] ->
  encrypt_execute E req w = (Ok tt, w') ->
  exists h hdr body, ht_version (h_type h) = V5 /\ well_formed_file h hdr body (d_data (w_out w')).
Proof.
  intros E req w w' HE Hv Hdt Ho Hnil H.
  apply encrypt_ok_inv in H; [|exact HE|unfold BLOCK_SIZE; lia]. cbv zeta in H. rewrite Hdt in H.
  destruct H as (key & wr & b & aad & ct & cs & k & A1 & A2 & A3 & A4 & A5 & A6 & A7 & A8 & A9 & A10 & A11 & A12 & W1 & W2 & W3).
  rewrite (W3 (no_short_nil _ Ho)), firstn_all in W1.
  destruct W1 as (W1 & _). cbn [set_pos d_data d_pos] in W1. rewrite Hnil, write_at_empty in W1.
  exists (e_header req (w_rng w) wr), b, ct. split; [exact Hv|]. split; [|split; [exact A6|exact W1]].
  apply e_header_wf_v5; auto. eapply hash_known; eauto.
Qed.

Lemma dump_strip_restore_holds : forall E req w w' ops, env_ok E ->
  ht_version (er_header_type req) = V5 -> er_detached req = false ->
  d_plan (w_out w) = [] -> d_data (w_out w) = [] ->
  encrypt_execute E req w = (Ok tt, w') ->
  let data := snd (run_all E ops (d_data (w_out w'))) in
  exists w1 w2 w3,
    header_dump (two_files data []) = (Ok tt, w1)
    /\ d_data (w_out w1) = firstn 416 data
    /\ header_strip (two_files data []) = (Ok tt, w2)
    /\ d_data (w_in w2) = zeros 416 ++ skipn 416 data
    /\ header_restore (two_files (d_data (w_out w1)) (d_data (w_in w2))) = (Ok tt, w3)
    /\ d_data (w_out w3) = data.
Proof.
  intros E req w w' ops HE Hv Hdt Ho Hnil H data.
  destruct (encrypt_wff E req w w' HE Hv Hdt Ho Hnil H) as (h & hdr & body & Vh & W).
  destruct (run_all_wff E ops h hdr body _ HE Vh W) as (h' & hdr' & Vh' & W'). fold data in W'.
  destruct (dump_strip_restore_wff _ _ _ _ W') as (w1 & w2 & w3 & A & B & C & D & F & G).
  pose proof (wff_size _ _ _ _ W') as L. rewrite Vh' in L. cbn [get_size] in L.
  exists w1, w2, w3. split; [exact A|]. destruct W' as (_ & _ & Hd).
  split; [rewrite B, Hd; symmetry; now apply firstn_app_exact|]. split; [exact C|].
  split; [rewrite D, L, Hd; f_equal; symmetry; now apply skipn_app_exact|]. auto.
Qed.

(** ** Restore *)

Lemma restore_any : forall w o w', header_restore w = (o, w') ->
  untouched (w_in w) (w_in w') /\ w_hdr w' = w_hdr w /\
  ((exists e, o = Err e /\ untouched (w_out w) (w_out w'))
   \/ o = Panic /\ untouched (w_out w) (w_out w') /\ (exists h aad d', deserialize (w_in w) = (Ok (h, aad), d') /\ serialize h = Panic)
   \/ exists h aad d' b n got, deserialize (w_in w) = (Ok (h, aad), d') /\ serialize h = Ok b
        /\ got <= get_size (ht_version (h_type h))
        /\ slice (d_pos (w_out w)) got (d_data (w_out w)) = zeros got
        /\ (no_short (d_plan (w_out w)) -> got = Nat.min (get_size (ht_version (h_type h)))
                                                  (length (d_data (w_out w)) - d_pos (w_out w)))
        /\ n <= length b
        /\ d_data (w_out w') = write_at (d_data (w_out w)) 0 (firstn n b)
        /\ o = Ok tt /\ (no_short (d_plan (w_out w)) -> n = length b)).
Proof.
  intros w o w' H. unfold header_restore in H.
  destruct (deserialize (w_in w)) as (od, d1) eqn:D.
  pose proof (deserialize_spec _ _ _ D) as (S1 & S2 & S3 & S4).
  destruct od as [(h & aad)|e| |]; try contradiction.
  2:{ erewrite bind_err in H by (eapply map_err_err, zoom_eq; exact D). inversion H; subst. cbn [w_out w_hdr w_in].
      split; [split; assumption|]. split; [reflexivity|]. left. eexists. split; [reflexivity|]. split; reflexivity. }
  erewrite bind_ok in H by (eapply map_err_ok, zoom_eq; exact D). cbn [fst] in H.
  match type of H with bind _ _ ?x = _ => set (w1 := x) in H end.
  assert (Ui : untouched (w_in w) (w_in w1)) by (split; assumption).
  apply bind_inv in H as [(got & w2 & H1 & H)|[(e & H1 & ->)|[(H1 & ->)|(H1 & ->)]]];
    apply map_err_inv in H1 as [(x & H1 & X)|[(e' & H1 & X)|[(H1 & X)|(H1 & X)]]]; try discriminate X;
    apply zoom_inv in H1 as (d2 & H1 & ->);
    apply dev_read_spec in H1 as (P1 & P2 & P3 & P4); cbn [w1 w_out] in P1, P2, P3, P4; try contradiction.
  2:{ cbn [w_in w_hdr w_out]. split; [exact Ui|]. split; [reflexivity|]. left. eexists. split; [reflexivity|]. split; assumption. }
  apply Ok_inj in X. subst x. destruct P4 as (Q1 & Q2 & Q3 & _ & Q5).
  destruct (all_zero got) eqn:Az; cbn [negb] in H.
  2:{ inversion H; subst. cbn [w_in w_hdr w_out]. split; [exact Ui|]. split; [reflexivity|]. left. eexists. split; [reflexivity|]. split; assumption. }
  match type of H with bind _ _ ?x = _ => set (w2 := x) in H end.
  apply bind_inv in H as [(u & w3 & H1 & H)|[(e & H1 & ->)|[(H1 & ->)|(H1 & ->)]]];
    apply map_err_inv in H1 as [(x & H1 & X)|[(e' & H1 & X)|[(H1 & X)|(H1 & X)]]]; try discriminate X;
    apply zoom_inv in H1 as (d3 & H1 & ->);
    apply dev_seek_start_spec in H1 as (R1 & R2 & R3 & R4); cbn [w2 w_out] in R1, R2, R3, R4; try contradiction.
  2:{ cbn [w_in w_hdr w_out w2]. split; [exact Ui|]. split; [reflexivity|]. left. eexists. split; [reflexivity|].
      split; congruence. }
  assert (Gz : slice (d_pos (w_out w)) (length got) (d_data (w_out w)) = zeros (length got)).
  { unfold slice. rewrite <- Q1. now apply all_zero_iff. }
  assert (Gs : no_short (d_plan (w_out w)) -> length got = Nat.min (get_size (ht_version (h_type h)))
                 (length (d_data (w_out w)) - d_pos (w_out w))).
  { intros Hns. rewrite (Q5 Hns), firstn_length, skipn_length. reflexivity. }
  apply map_err_inv in H as [(y & H & Y)|[(e' & H & Y)|[(H & Y)|(H & Y)]]];
    apply zoom_inv in H as (d4 & H & ->); cbn [w_out w2] in H; unfold header_write in H;
    cbn [w_in w_hdr w_out w2 w1];
    (apply bind_inv in H as [(b & d5 & H2 & H)|[(e & H2 & Z)|[(H2 & Z)|(H2 & Z)]]]; try discriminate Z; 
     unfold lift in H2; try (assert (d5 = d3) by congruence; subst d5)).
  - apply bind_inv in H as [(n & d5 & H3 & H)|[(e & H3 & Z)|[(H3 & Z)|(H3 & Z)]]]; try discriminate Z.
    apply map_err_inv in H3 as [(z & H3 & Z)|[(e' & H3 & Z)|[(H3 & Z)|(H3 & Z)]]]; try discriminate Z.
    inversion H; subst d5 y. pose proof (dev_write_no_short _ _ _ _ H3) as Hns.
    apply dev_write_spec in H3 as (_ & T1 & (T2 & _) & _).
    split; [exact Ui|]. split; [reflexivity|]. right. right.
    exists h, aad, d1, b, z, (length got). split; [reflexivity|]. split; [congruence|].
    split; [exact Q2|]. split; [exact Gz|]. split; [exact Gs|]. split; [exact T1|]. split; [|split; [exact Y|]].
    + rewrite T2, R4, R2, P2. reflexivity.
    + intros Hp. apply Hns. eapply plan_step_no_short; [exact R1|]. eapply plan_step_no_short; eauto.
  - apply bind_inv in H as [(n & d5 & H3 & H)|[(e & H3 & Z)|[(H3 & Z)|(H3 & Z)]]]; try discriminate H; try discriminate Z.
    + apply map_err_inv in H3 as [(z & H3 & Z')|[(e2 & H3 & Z')|[(H3 & Z')|(H3 & Z')]]]; try discriminate Z'.
      apply dev_write_spec in H3 as (_ & T1 & _).
      split; [exact Ui|]. split; [reflexivity|]. left. eexists. split; [exact Y|].
      apply wrote_nothing in T1 as (T1 & T2). split; congruence.
  - assert (d4 = d3) by congruence. subst d4.
    split; [exact Ui|]. split; [reflexivity|]. left. eexists. split; [exact Y|]. split; congruence.
  - exfalso. apply bind_inv in H as [(n & d5 & H3 & H)|[(e & H3 & Z)|[(H3 & Z)|(H3 & Z)]]]; try discriminate Z; try discriminate H;
      apply map_err_inv in H3 as [(z & H3 & Z')|[(e2 & H3 & Z')|[(H3 & Z')|(H3 & Z')]]]; try discriminate Z';
      apply dev_write_spec in H3 as (_ & T1); exact T1.
  - assert (d4 = d3) by congruence. subst d4.
    split; [exact Ui|]. split; [reflexivity|]. right. left. split; [exact Y|]. split; [split; congruence|].
    exists h, aad, d1. split; [reflexivity|congruence].
  - exfalso. apply bind_inv in H as [(n & d5 & H3 & H)|[(e & H3 & Z)|[(H3 & Z)|(H3 & Z)]]]; try discriminate Z; try discriminate H;
      apply map_err_inv in H3 as [(z & H3 & Z')|[(e2 & H3 & Z')|[(H3 & Z')|(H3 & Z')]]]; try discriminate Z';
      apply dev_write_spec in H3 as (_ & T1); exact T1.
  - exfalso. assert (Sd : serialize h = Diverge) by congruence.
    unfold serialize, serialize_v3, serialize_v4, serialize_v5 in Sd.
    destruct (ht_version (h_type h)); try discriminate Sd.
    + destruct (h_salt h); discriminate Sd.
    + destruct (h_keyslots h) as [[|? ?]|]; discriminate Sd.
    + destruct (h_keyslots h) as [sl|]; [destruct (length sl <=? 4)|]; discriminate Sd.
Qed.

Lemma restore_holds : forall w o w', header_restore w = (o, w') ->
  let data := d_data (w_out w) in
  let data' := d_data (w_out w') in
  untouched (w_in w) (w_in w')
  /\ (o <> Ok tt -> untouched (w_out w) (w_out w'))
  /\ (o = Ok tt ->
      exists h aad d' b n got, deserialize (w_in w) = (Ok (h, aad), d') /\ serialize h = Ok b
        /\ length b = get_size (ht_version (h_type h))
        /\ got <= length b /\ slice (d_pos (w_out w)) got data = zeros got
        /\ n <= length b /\ data' = write_at data 0 (firstn n b)
        /\ (no_short (d_plan (w_out w)) -> n = length b)
        /\ (no_short (d_plan (w_out w)) -> d_pos (w_out w) = 0 -> length b <= length data ->
            firstn (length b) data = zeros (length b) /\ data' = b ++ skipn (length b) data)).
Proof.
  intros w o w' H data data'. pose proof (restore_any _ _ _ H) as (U & _ & C).
  split; [exact U|]. split.
  - intros No. destruct C as [(e & _ & X)|[(_ & X & _)|(h & aad & d' & b & n & got & _ & _ & _ & _ & _ & _ & _ & X & _)]]; try assumption.
    contradiction.
  - intros ->. destruct C as [(e & X & _)|[(X & _)|(h & aad & d' & b & n & got & D & S & G1 & G2 & G3 & N1 & Wr & _ & N2)]];
      [discriminate X|discriminate X|].
    assert (Lb : length b = get_size (ht_version (h_type h))).
    { assert (Nv : ~ In (ht_version (h_type h)) [V1; V2]).
      { intros [X|[X|[]]]; unfold serialize in S; rewrite <- X in S; discriminate S. }
      destruct (reserialize _ _ _ _ D Nv) as (b' & S' & Lb & _). rewrite S in S'. apply Ok_inj in S'. subst b'.
      rewrite Lb. pose proof (proj1 (proj2 header_size_exact) _ _ _ _ D) as (Z1 & Z2 & _).
      rewrite firstn_length, skipn_length. lia. }
    exists h, aad, d', b, n, got. do 8 (split; [first [assumption | congruence | lia]|]).
    intros Ns P0 Ll. rewrite <- Lb in *. specialize (G3 Ns). rewrite P0, Nat.sub_0_r, Nat.min_l in G3 by exact Ll.
    subst got. unfold slice in G2. rewrite P0, skipn_O in G2. split; [exact G2|].
    unfold data'. rewrite Wr, (N2 Ns), firstn_all, write_at_0. reflexivity.
Qed.

(** ** Stripped files *)

Lemma stripped_wff : forall E bs pw h hdr body data out r tr, env_ok E -> well_formed_file h hdr body data ->
  let r1 := decrypt_execute_bs E bs false pw (mkWorld (dev_of data) out (dev_of []) r tr) in
  let r2 := decrypt_execute_bs E bs true pw
              (mkWorld (dev_of (zeros (length hdr) ++ body)) out (dev_of hdr) r tr) in
  fst r1 = fst r2 /\ w_out (snd r1) = w_out (snd r2).
Proof.
  intros E bs pw h hdr body data out r tr HE W. cbv zeta.
  destruct (wff_aad _ _ _ _ W) as (aad & A).
  pose proof (wff_deserialize _ _ _ _ _ [] W A) as D.
  rewrite (decrypt_detached_run E bs pw h hdr aad); try apply W; try exact A; try reflexivity.
  2:{ exists []. cbn. now rewrite app_nil_r. }
  cbn [w_in dev_of d_data]. rewrite firstn_app_exact, all_zero_zeros by (now rewrite zeros_length).
  rewrite decrypt_execute_eq. erewrite bind_ok by (apply map_err_ok, zoom_eq; exact D). cbv beta iota.
  match goal with |- fst (_ ?a) = fst (_ ?b) /\ _ =>
    destruct (dec_body_sim E bs pw pw (reread h) (reread h) aad HE) with (s1 := a) (s2 := b) as (F & G) end;
    try reflexivity.
  - now apply reread_shape, (proj1 W).
  - now apply reread_shape, (proj1 W).
  - destruct W as (_ & _ & ->). split; [|reflexivity]. unfold dev_sim. cbn [w_in set_pos d_plan d_pos d_data dev_of].
    rewrite !app_length, zeros_length, Nat.min_l by lia.
    repeat split. rewrite !skipn_app_exact; rewrite ?zeros_length; reflexivity.
  - split; [exact F|]. apply G.
Qed.

Lemma stripped_holds : forall E req w w' ops pw out r tr, env_ok E ->
  ht_version (er_header_type req) = V5 -> er_detached req = false ->
  d_plan (w_out w) = [] -> d_data (w_out w) = [] ->
  encrypt_execute E req w = (Ok tt, w') ->
  let data := snd (run_all E ops (d_data (w_out w'))) in
  exists w1 w2,
    header_dump (two_files data []) = (Ok tt, w1)
    /\ header_strip (two_files data []) = (Ok tt, w2)
    /\ let r1 := decrypt_execute E false pw (mkWorld (dev_of data) out (dev_of []) r tr) in
       let r2 := decrypt_execute E true pw
                   (mkWorld (dev_of (d_data (w_in w2))) out (dev_of (d_data (w_out w1))) r tr) in
       fst r1 = fst r2 /\ w_out (snd r1) = w_out (snd r2).
Proof.
  intros E req w w' ops pw out r tr HE Hv Hdt Ho Hnil H data.
  destruct (encrypt_wff E req w w' HE Hv Hdt Ho Hnil H) as (h & hdr & body & Vh & W).
  destruct (run_all_wff E ops h hdr body _ HE Vh W) as (h' & hdr' & Vh' & W'). fold data in W'.
  destruct (dump_strip_restore_wff _ _ _ _ W') as (w1 & w2 & w3 & A & B & C & D & _).
  exists w1, w2. split; [exact A|]. split; [exact C|]. rewrite B, D. eapply stripped_wff; eauto.
Qed.
