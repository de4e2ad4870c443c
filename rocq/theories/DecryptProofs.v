(** Decryption of files of every version and mode. *)
From Coq Require Import List Arith NArith ZArith Lia Bool.
From Verif Require Import Bytes Outcome IO Primitives Crypto Header Stream KeyModel EncDec.
From Verif Require Import BytesFacts IOSpec IOFacts HeaderSpec HeaderFacts HeaderProofs.
From Verif Require Import StreamSpec StreamFacts StreamProofs FileSpec FileFacts FileProofs DecryptSpec.
Local Open Scope nat_scope.

Lemma decrypt_sound : forall E detached pw v v', env_ok E ->
  decrypt_execute E detached pw v = (Ok tt, v') ->
  exists h aad d1 d2 mk ct p,
    deserialize (header_source detached v) = (Ok (h, aad), d1)
    /\ d_data d2 = d_data (w_in v) /\ (detached = false -> d2 = d1)
    /\ unlocks E pw h mk /\ body_opens E h aad mk ct p
    /\ wrote (w_out v) (w_out v') p
    /\ prefix_of ct (rest d2)
    /\ (ht_mode (h_type h) = MemoryMode \/ no_short (d_plan d2) -> ct = rest d2).
Proof.
  intros E detached pw v v' HE H. apply decrypt_execute_spec in H; [|exact HE].
  destruct H as [(e & X & _)|(h & aad & d1 & v1 & D & SH & EO & _ & ED & _ & EM & EN)]; [discriminate|].
  destruct EN as (_ & _ & _ & _ & written & kc & bc & _ & WR & _ & WE & NE & CA).
  specialize (WE (or_introl eq_refl)). specialize (NE eq_refl).
  destruct CA as [(_ & X & _)|(mk & U & LM & _ & BC)]; [contradiction|].
  unfold body_calls in BC. cbv zeta in BC. rewrite EO in WR.
  destruct (ht_mode (h_type h)) eqn:Hm.
  - destruct BC as [X|(m & A & B)]; [contradiction|]. subst bc. cbn [map concat c_msg] in WE.
    rewrite app_nil_r in WE. subst written.
    exists h, aad, d1, (w_in v1), mk, (rest (w_in v1)), m. parts; auto.
    + unfold body_opens, opens. rewrite Hm. exact A.
    + apply prefix_refl.
  - destruct BC as (bl & last & R & LB & X). specialize (X eq_refl). destruct X as (lb & -> & C & NS & NS2).
    exists h, aad, d1, (w_in v1), mk, (consumed (w_in v1) (w_in v')), written.
    parts; auto.
    + unfold body_opens, opens. rewrite Hm. rewrite C, WE.
      pose proof (counter_31 _ HE) as H31.
      destruct SH as (Hns & _). unfold nonce_sized in Hns. rewrite Hm in Hns.
      split.
      * eapply dec_run_is_plaintext; [exact H31| |exact R|exact LB|exact NS2].
        unfold stream_ok. auto.
      * rewrite blocks_count by (auto; lia).
        apply dec_run_counter in R; cbn [s_pos] in *; lia.
    + apply prefix_firstn.
    + intros [Y|Y]; [congruence|]. rewrite (NS Y). exact C.
Qed.

Lemma block_at : forall bs (bl : list bytes) b k ct, 
  Forall (fun x => length x = bs) bl -> concat bl ++ b = firstn k ct ->
  firstn (length b) (skipn (length bl * bs) ct) = b
  /\ length bl * bs + length b <= length ct.
Proof.
  intros bs bl b k ct LB EQ.
  assert (X : ct = concat bl ++ b ++ skipn k ct).
  { rewrite app_assoc, EQ, firstn_skipn. reflexivity. }
  pose proof (concat_blocks_length bs bl LB) as L. split.
  - rewrite X, <- L, skipn_app, skipn_all, Nat.sub_diag. cbn [app skipn].
    rewrite firstn_app, firstn_all, Nat.sub_diag. cbn [firstn]. apply app_nil_r.
  - rewrite X, !app_length. lia.
Qed.

Lemma nth_ext_error : forall {A} (l l' : list A), (forall i, nth_error l i = nth_error l' i) -> l = l'.
Proof.
  induction l as [|x l IH]; intros [|y l'] H; auto; pose proof (H 0) as H0; cbn in H0; try discriminate.
  f_equal; [congruence|]. apply IH. intros i. apply (H (S i)).
Qed.

Lemma decrypt_file_complete : forall E bs a key nonce aad w p,
  (counter_max E < 2 ^ 31)%N -> length key = 32 -> length nonce = get_nonce_len a StreamMode ->
  d_plan (w_in w) = [] -> d_plan (w_out w) = [] ->
  is_plaintext E a key nonce aad bs (rest (w_in w)) p ->
  (N.of_nat (length (rest (w_in w)) / (bs + 16)) <= counter_max E)%N ->
  exists w', decrypt_file_bs E bs (mkStream a key nonce 0) aad w = (Ok tt, w')
    /\ wrote (w_out w) (w_out w') p.
Proof.
  intros E bs a key nonce aad w p H31 LK LN PI PO IP CM.
  destruct (decrypt_file_bs E bs (mkStream a key nonce 0) aad w) as [o w'] eqn:D.
  apply decrypt_file_spec in D.
  destruct D as (_ & bl & last & cs & written & n & G1 & G2 & G3 & G4 & G5 & G6 & G7 & G8).
  change (in_rest w) with (rest (w_in w)) in *. set (ct := rest (w_in w)) in *.
  assert (UN : forall q q', is_plaintext E a key nonce aad bs ct q -> is_plaintext E a key nonce aad bs ct q' -> q = q').
  { intros q q' (ms & -> & L1 & N1) (ms' & -> & L2 & N2). f_equal. apply nth_ext_error.
    intros i. destruct (le_lt_dec i (length ct / (bs + 16))) as [LE|GT].
    - rewrite N1, N2 by exact LE. reflexivity.
    - rewrite (proj2 (nth_error_None ms i)), (proj2 (nth_error_None ms' i)) by lia. reflexivity. }
  destruct o as [[]|[]| |]; try contradiction; try (exfalso; tauto).
  - destruct G8 as (K1 & (lb & ->) & _ & K4). exists w'. split; [reflexivity|].
    specialize (K4 (no_short_nil _ PI)). cbn [opt_bytes] in K4.
    rewrite (UN p written IP); [exact G5|]. rewrite K1, <- K4.
    eapply dec_run_is_plaintext; [exact H31| |exact G1|exact G2|apply G3; reflexivity].
    unfold stream_ok. auto.
  - exfalso. destruct G8 as (-> & _ & b & k & CF & EK & NS). specialize (NS (no_short_nil _ PI)).
    destruct IP as (ms & _ & LM & N1).
    destruct (block_at _ _ _ _ _ G2 EK) as (B1 & B2).
    set (total := length ct / (bs + 16)) in *.
    assert (NI : forall i, i <= total -> exists m, nth_error ms i = Some m).
    { intros i I. destruct (nth_error ms i) eqn:X; [eauto|]. apply nth_error_None in X. lia. }
    destruct CF as [(LB & CF)|(LB & CF)].
    + assert (TT : S (length bl) <= total).
      { unfold total. apply Nat.div_le_lower_bound; lia. }
      cbn [s_pos s_alg s_key s_prefix] in CF. destruct CF as [CF|CF]; [lia|].
      destruct (NI (length bl)) as [m M]; [lia|].
      rewrite N1 in M by lia.
      assert (X : (length bl =? total) = false) by (apply Nat.eqb_neq; lia). rewrite X in M.
      unfold block in M. rewrite <- LB in M at 1. rewrite B1 in M.
      change (mkStream a key nonce (0 + N.of_nat (length bl))) with (shift (mkStream a key nonce 0) (length bl)) in CF.
      rewrite nonce_at_ctr in CF; [cbn [s_prefix] in CF; congruence|reflexivity|lia].
    + specialize (NS LB). cbn [s_pos s_alg s_key s_prefix] in CF.
      assert (TT : total = length bl).
      { unfold total. rewrite <- NS. apply blocks_count; auto; lia. }
      destruct (NI (length bl)) as [m M]; [lia|].
      rewrite N1 in M by lia. rewrite TT, Nat.eqb_refl in M.
      assert (BL : block (bs + 16) (length bl) ct = b).
      { rewrite <- NS. unfold block. pose proof (concat_blocks_length _ _ G2) as L.
        rewrite <- L, skipn_app, skipn_all, Nat.sub_diag. cbn [app skipn]. apply firstn_all2. lia. }
      rewrite BL in M.
      change (mkStream a key nonce (0 + N.of_nat (length bl))) with (shift (mkStream a key nonce 0) (length bl)) in CF.
      rewrite nonce_at_ctr in CF; [cbn [s_prefix] in CF; congruence|reflexivity|].
      fold total in CM. lia.
Qed.

Lemma dec_body_complete : forall E pw h aad mk p w,
  env_ok E -> header_shape h -> unlocks E pw h mk ->
  body_opens E h aad mk (rest (w_in w)) p ->
  d_plan (w_in w) = [] -> d_plan (w_out w) = [] ->
  exists w', dec_body E BLOCK_SIZE pw h aad w = (Ok tt, w') /\ wrote (w_out w) (w_out w') p.
Proof.
  intros E pw h aad mk p w HE Hsh Hu BO PI PO. unfold dec_body. cbv zeta.
  destruct (decrypt_master_key_spec E pw h (w_tr w) HE Hsh) as [(mk' & new & Hu' & Hl & Hd & _)|(Hn & _)].
  2:{ exfalso. eapply Hn; eauto. }
  assert (mk' = mk) by (eapply unlocks_unique; eauto). subst mk'.
  destruct Hsh as (Hns & _). unfold nonce_sized in Hns. unfold body_opens, opens in BO.
  destruct (ht_mode (h_type h)) eqn:Hm.
  - destruct (dev_read_to_end (w_in w)) as [o d1] eqn:RD. pose proof RD as RD'.
    apply dev_read_to_end_spec in RD as (R1 & R2 & R3 & R4).
    destruct o as [data|e| |]; try contradiction.
    erewrite bind_ok by (apply map_err_ok, zoom_eq; exact RD').
    erewrite bind_ok by (apply map_err_ok, zoom_eq; exact Hd).
    erewrite bind_ok by (apply map_err_ok; unfold lift, ciphers_initialize; rewrite Hl; reflexivity).
    change (skipn (d_pos (w_in w)) (d_data (w_in w))) with (rest (w_in w)) in R4. subst data.
    erewrite bind_ok.
    2:{ apply map_err_ok, zoom_eq. unfold ciphers_decrypt. cbn [ci_alg ci_key].
        rewrite Hns, Nat.eqb_refl, BO. reflexivity. }
    cbn [w_in w_out w_hdr w_rng w_tr].
    destruct (dev_write_all p (w_out w)) as [o d2] eqn:WR. pose proof WR as WR'.
    apply dev_write_all_spec in WR as (W1 & W2).
    destruct o as [[]|e| |]; try contradiction; try (exfalso; tauto).
    eexists. split; [apply map_err_ok, zoom_eq; exact WR'|]. exact W2.
  - erewrite bind_ok by (apply map_err_ok, zoom_eq; exact Hd).
    erewrite bind_ok by (apply map_err_ok; unfold lift; rewrite dec_init_complete by assumption; reflexivity).
    destruct BO as (IP & CM).
    destruct (decrypt_file_complete E BLOCK_SIZE (ht_algorithm (h_type h)) mk (h_nonce h) aad
      (mkWorld (w_in w) (w_out w) (w_hdr w) (w_rng w) (w_tr w ++ map Opened new)) p) as (w' & D1 & D2); auto.
    { apply counter_31, HE. }
    exists w'. split; [apply map_err_ok; exact D1|exact D2].
Qed.

Lemma decrypt_complete : forall E pw v h aad d1 mk p, env_ok E ->
  d_plan (w_in v) = [] -> d_plan (w_out v) = [] ->
  deserialize (w_in v) = (Ok (h, aad), d1) ->
  unlocks E pw h mk -> body_opens E h aad mk (rest d1) p ->
  exists v', decrypt_execute E false pw v = (Ok tt, v') /\ wrote (w_out v) (w_out v') p.
Proof.
  intros E pw v h aad d1 mk p HE PI PO D U BO. unfold decrypt_execute. rewrite decrypt_execute_eq.
  unfold dec_header.
  erewrite bind_ok by (apply map_err_ok, zoom_eq; exact D).
  pose proof (deserialize_shape _ _ _ _ D) as SH.
  apply deserialize_spec in D as (_ & _ & PD & _).
  destruct (dec_body_complete E pw h aad mk p (mkWorld d1 (w_out v) (w_hdr v) (w_rng v) (w_tr v)))
    as (w' & D1 & D2); auto. eauto.
Qed.

(** With a header file. *)
Lemma decrypt_detached_from : forall E pw v h aad d1 d2 mk p, env_ok E ->
  d_plan d2 = [] -> d_plan (w_out v) = [] ->
  deserialize (w_hdr v) = (Ok (h, aad), d1) ->
  skip_empty_header (get_size (ht_version (h_type h))) (w_in v) = (Ok tt, d2) ->
  unlocks E pw h mk -> body_opens E h aad mk (rest d2) p ->
  exists v', decrypt_execute E true pw v = (Ok tt, v') /\ wrote (w_out v) (w_out v') p.
Proof.
  intros E pw v h aad d1 d2 mk p HE PI PO D SK U BO. unfold decrypt_execute. rewrite decrypt_execute_eq.
  unfold dec_header.
  pose proof (deserialize_shape _ _ _ _ D) as SH.
  erewrite bind_ok.
  2:{ erewrite bind_ok by (apply map_err_ok, zoom_eq; exact D). cbn [fst].
      erewrite bind_ok by (apply zoom_eq; cbn [w_in]; exact SK). reflexivity. }
  cbn [w_in w_out w_hdr w_rng w_tr].
  destruct (dec_body_complete E pw h aad mk p (mkWorld d2 (w_out v) d1 (w_rng v) (w_tr v)))
    as (w' & D1 & D2); auto. eauto.
Qed.

Lemma decrypt_complete_detached : forall E pw v h aad d1 mk body p, env_ok E ->
  d_plan (w_in v) = [] -> d_plan (w_out v) = [] -> d_pos (w_in v) = 0 ->
  deserialize (w_hdr v) = (Ok (h, aad), d1) ->
  let room := get_size (ht_version (h_type h)) in
  (d_data (w_in v) = zeros room ++ body
   \/ (d_data (w_in v) = body /\ exists i, i < room /\ exists b, nth_error body i = Some b /\ b <> x00)) ->
  unlocks E pw h mk -> body_opens E h aad mk body p ->
  exists v', decrypt_execute E true pw v = (Ok tt, v') /\ wrote (w_out v) (w_out v') p.
Proof.
  intros E pw v h aad d1 mk body p HE PI PO P0 D room DB U BO.
  pose proof (skip_empty_header_run room (w_in v) PI P0) as SK.
  assert (X : exists d2, skip_empty_header room (w_in v) = (Ok tt, d2) /\ rest d2 = body /\ d_plan d2 = []).
  { rewrite SK. destruct DB as [DB|[DB [i [I [b [B1 B2]]]]]].
    - rewrite DB, firstn_app, zeros_length, Nat.sub_diag. cbn [firstn].
      rewrite firstn_all2 by (rewrite zeros_length; lia). rewrite app_nil_r, all_zero_zeros.
      rewrite app_length, zeros_length, Nat.min_l by lia.
      eexists. split; [reflexivity|]. split; [|exact PI].
      unfold rest, set_pos. cbn [d_pos d_data]. rewrite DB, skipn_app, zeros_length, Nat.sub_diag.
      rewrite skipn_all2 by (rewrite zeros_length; lia). reflexivity.
    - assert (NZ : all_zero (firstn room (d_data (w_in v))) = false).
      { destruct (all_zero (firstn room (d_data (w_in v)))) eqn:AZ; [|reflexivity]. exfalso.
        unfold all_zero in AZ. rewrite forallb_forall in AZ.
        specialize (AZ b). rewrite DB in AZ.
        assert (IN : In b (firstn room body)).
        { apply nth_error_In with i. rewrite nth_error_firstn' by exact I. exact B1. }
        apply AZ in IN. apply B2, byte_eqb_eq, IN. }
      rewrite NZ. eexists. split; [reflexivity|]. split; [exact DB|exact PI]. }
  destruct X as (d2 & X1 & X2 & X3). rewrite <- X2 in BO.
  eapply decrypt_detached_from; eauto.
Qed.

(** Files of versions 1 to 3. *)
Lemma old_parses : forall v a m salt nonce u1 u2 hdr body d,
  old_header v a m salt nonce u1 u2 hdr -> d_plan d = [] -> rest d = hdr ++ body ->
  exists hv d1, deserialize d = (Ok (mkHeader (mkHT hv a m) nonce (Some salt) None, old_aad v hdr), d1)
    /\ rest d1 = body
    /\ hv = match v with Old1 => V1 | Old2 => V2 | Old3 => V3 end.
Proof.
  intros v a m salt nonce u1 u2 hdr body d (L1 & L2 & L3 & L4 & EH) PD RD.
  exists (match v with Old1 => V1 | Old2 => V2 | Old3 => V3 end), (set_pos (d_pos d + 64) d).
  assert (NS : nonce_size a m = get_nonce_len a m) by (destruct a, m; reflexivity). rewrite NS in L2.
  destruct (nonce_len_bounds a m) as (B1 & B2 & B3).
  assert (GS : get_size (match v with Old1 => V1 | Old2 => V2 | Old3 => V3 end) = 64) by (destruct v; reflexivity).
  split; [|split; [|reflexivity]].
  - rewrite <- GS. eapply (deserialize_ok d _ hdr); [exact PD| | | |].
    + rewrite GS. change (skipn (d_pos d) (d_data d)) with (rest d). rewrite RD, <- L4.
      rewrite firstn_app, firstn_all, Nat.sub_diag. cbn [firstn]. symmetry. apply app_nil_r.
    + rewrite GS. exact L4.
    + destruct v; rewrite EH; reflexivity.
    + assert (LU : length u2 = 26 - get_nonce_len a m).
      { rewrite <- L2. destruct v; rewrite EH, !app_length, L1, L3 in L4; cbn [old_tag length] in L4;
          rewrite L2 in *; lia. }
      assert (Htag : forall v a m rest,
        parse_header v (tag_bytes (mkHT v a m) ++ rest) =
        fst ((f <- parse_fields (mkHT v a m) ;;
              let '(salt, nonce, slots) := f in
              ret (mkHeader (mkHT v a m) nonce (Some salt) slots,
                   parse_aad (mkHT v a m) (tag_bytes (mkHT v a m) ++ rest))) rest)).
      { intros v' a' m' r'. unfold parse_header. destruct v', a', m'; reflexivity. }
      assert (OT : old_tag v a m = tag_bytes (mkHT (match v with Old1 => V1 | Old2 => V2 | Old3 => V3 end) a m)).
      { destruct v, a, m; reflexivity. }
      destruct v; rewrite EH; rewrite OT, Htag; unfold parse_fields, bind; cbn [ht_version ht_algorithm ht_mode].
      * rewrite (take_app 16 salt) by assumption. rewrite (take_app 16 u1) by assumption.
        rewrite take_app by assumption. rewrite <- (app_nil_r u2) at 1. rewrite take_app by assumption. reflexivity.
      * rewrite (take_app 16 salt) by assumption. rewrite take_app by assumption. rewrite take_app by assumption.
        rewrite <- (app_nil_r u1) at 1. rewrite take_app by assumption. reflexivity.
      * rewrite (take_app 16 salt) by assumption. rewrite (take_app 16 u1) by assumption.
        rewrite take_app by assumption. rewrite <- (app_nil_r u2) at 1. rewrite take_app by assumption. reflexivity.
  - unfold rest, set_pos. cbn [d_pos d_data]. rewrite <- skipn_skipn'.
    change (skipn (d_pos d) (d_data d)) with (rest d). rewrite RD, <- L4, skipn_app, skipn_all, Nat.sub_diag.
    reflexivity.
Qed.

Lemma old_files : forall E v a m salt nonce u1 u2 hdr body pw key p w, env_ok E ->
  old_header v a m salt nonce u1 u2 hdr -> old_key E v pw salt = Some key ->
  opens E a m key nonce (old_aad v hdr) body p ->
  w_in w = dev_of (hdr ++ body) -> w_out w = dev_of [] ->
  exists w', decrypt_execute E false pw w = (Ok tt, w') /\ d_data (w_out w') = p.
Proof.
  intros E v a m salt nonce u1 u2 hdr body pw key p w HE OH OK OP WI WO.
  destruct (old_parses v a m salt nonce u1 u2 hdr body (w_in w) OH) as (hv & d1 & D & R & EV).
  { rewrite WI. reflexivity. } { rewrite WI. reflexivity. }
  destruct (decrypt_complete E pw w (mkHeader (mkHT hv a m) nonce (Some salt) None) (old_aad v hdr) d1 key p HE)
    as (w' & X1 & X2).
  - rewrite WI. reflexivity.
  - rewrite WO. reflexivity.
  - exact D.
  - unfold unlocks. cbn [h_type ht_version h_salt]. subst hv. unfold hash.
    destruct v; (exists salt; split; [reflexivity|]); unfold old_key in OK; cbn; rewrite OK; reflexivity.
  - rewrite R. exact OP.
  - exists w'. split; [exact X1|]. rewrite WO in X2.
    destruct X2 as (X2 & _). rewrite X2. apply write_at_empty.
Qed.
