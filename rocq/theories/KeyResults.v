(** What the key operations leave behind. *)
From Coq Require Import List Arith NArith ZArith Lia Bool.
From Verif Require Import Bytes Outcome IO Primitives Crypto Header Stream KeyModel EncDec KeyOps.
From Verif Require Import BytesFacts IOSpec IOFacts HeaderSpec HeaderFacts HeaderProofs.
From Verif Require Import StreamSpec StreamFacts StreamProofs FileSpec FileFacts FileProofs.
From Verif Require Import KeySpec KeyFacts KeyProofs DecSim.
Local Open Scope nat_scope.

(** ** First keyslot that opens *)

Lemma slot_opens_unique : forall E a pw k m m',
  slot_opens E a pw k m -> slot_opens E a pw k m' -> m = m'.
Proof.
  intros E a pw k m m' (key & A & B) (key' & A' & B'). rewrite A in A'. apply Ok_inj in A'. subst. congruence.
Qed.

Lemma slot_opens_dec : forall E a pw k, (exists m, slot_opens E a pw k m) \/ forall m, ~ slot_opens E a pw k m.
Proof.
  intros E a pw k. destruct (hash_cases E (ks_hash k) pw (ks_salt k)) as [(key & Hk)|Hk].
  - destruct (aead_dec E a key (ks_nonce k) [] (ks_enc k)) as [m|] eqn:Hd.
    + left. exists m, key. auto.
    + right. intros m (key' & A & B). rewrite Hk in A. apply Ok_inj in A. subst. congruence.
  - right. intros m (key' & A & B). rewrite Hk in A. discriminate A.
Qed.

Lemma first_open_exists : forall E a pw slots k m, In k slots -> slot_opens E a pw k m ->
  exists i mk, first_open E a pw slots i mk.
Proof.
  intros E a pw slots k m. induction slots as [|k0 slots IH]; intros Hi Ho; [destruct Hi|].
  destruct (slot_opens_dec E a pw k0) as [(m0 & H0)|H0].
  - exists 0, m0, k0. split; [reflexivity|]. split; [exact H0|]. intros j k' Hj. lia.
  - destruct Hi as [->|Hi]; [exfalso; eapply H0; eauto|].
    destruct (IH Hi Ho) as (i & mk & k1 & A & B & C). exists (S i), mk, k1.
    split; [exact A|]. split; [exact B|]. intros [|j] k' Hj Hn; [inversion Hn; subst; exact H0|].
    apply (C j k'); [lia|exact Hn].
Qed.

Lemma first_open_unique : forall E a pw slots i mk j mk',
  first_open E a pw slots i mk -> first_open E a pw slots j mk' -> i = j /\ mk = mk'.
Proof.
  intros E a pw slots i mk j mk' (k & A & B & C) (k' & A' & B' & C').
  assert (i = j).
  { destruct (lt_eq_lt_dec i j) as [[H|H]|H]; [|exact H|]; exfalso.
    - eapply C'; eauto.
    - eapply C; eauto. }
  subst j. split; [reflexivity|]. assert (k = k') by congruence. subst. eapply slot_opens_unique; eauto.
Qed.

Lemma first_open_in : forall E a pw slots i mk, first_open E a pw slots i mk ->
  exists k, In k slots /\ nth_error slots i = Some k /\ slot_opens E a pw k mk.
Proof. intros E a pw slots i mk (k & A & B & _). exists k. split; [eapply nth_error_In; eauto|auto]. Qed.

Lemma unlocks_first_open : forall E pw h slots mk, ht_version (h_type h) = V5 -> h_keyslots h = Some slots ->
  (unlocks E pw h mk <-> exists i, first_open E (ht_algorithm (h_type h)) pw slots i mk).
Proof.
  intros E pw h slots mk Hv Hs. unfold unlocks. rewrite Hv, Hs. split.
  - intros (l1 & k & l2 & A & B & C). injection A as ->. exists (length l1), k. split.
    + rewrite nth_error_app2, Nat.sub_diag by lia. reflexivity.
    + split; [exact B|]. intros j k' Hj Hn. rewrite nth_error_app1 in Hn by exact Hj.
      apply C. eapply nth_error_In; eauto.
  - intros (i & k & A & B & C). destruct (nth_error_split _ _ A) as (l1 & l2 & -> & Hl).
    exists l1, k, l2. split; [reflexivity|]. split; [exact B|].
    intros k' Hk'. apply In_nth_error in Hk' as (j & Hj). apply (C j).
    + rewrite <- Hl. apply nth_error_Some. congruence.
    + rewrite nth_error_app1; [exact Hj|]. apply nth_error_Some. congruence.
Qed.

(** ** Same decryption *)

Lemma deserialize_calm : forall d h aad d', deserialize d = (Ok (h, aad), d') ->
  deserialize (dev_at (d_data d) (d_pos d))
  = (Ok (h, aad), dev_at (d_data d) (d_pos d + get_size (ht_version (h_type h)))).
Proof.
  intros d h aad d' H. apply deserialize_spec in H as (_ & _ & _ & H). cbv zeta in H.
  destruct H as (A & B & C & _). unfold dev_at.
  rewrite (deserialize_ok (mkDev (d_data d) (d_pos d) [] []) (ht_version (h_type h)) _ h aad eq_refl eq_refl A B C).
  reflexivity.
Qed.

Lemma v5_header_calm : forall d h slots, v5_header d h slots ->
  v5_header (dev_at (d_data d) (d_pos d)) h slots.
Proof.
  intros d h slots (A & B & aad & d' & C). split; [exact A|]. split; [exact B|].
  exists aad. eexists. eapply deserialize_calm; eauto.
Qed.

Lemma same_dec : forall E pw1 pw2 data data' p h h' aad l l' mk e e' i i', env_ok E ->
  deserialize (dev_at data p) = (Ok (h, aad), e) -> deserialize (dev_at data' p) = (Ok (h', aad), e') ->
  ht_version (h_type h) = V5 -> h_type h' = h_type h -> h_nonce h' = h_nonce h ->
  h_keyslots h = Some l -> h_keyslots h' = Some l' ->
  same_outside p 416 data data' ->
  first_open E (ht_algorithm (h_type h)) pw1 l i mk -> first_open E (ht_algorithm (h_type h)) pw2 l' i' mk ->
  same_decryption E pw1 (dev_at data p) pw2 (dev_at data' p).
Proof.
  intros E pw1 pw2 data data' p h h' aad l l' mk e e' i i' HE D D' Hv Ht Hn Hl Hl' (O1 & O2 & O3) F F'.
  intros out hdr r tr. cbv zeta. unfold decrypt_execute. rewrite !decrypt_execute_eq.
  pose proof (deserialize_shape _ _ _ _ D) as S. pose proof (deserialize_shape _ _ _ _ D') as S'.
  pose proof (deserialize_calm _ _ _ _ D) as C. pose proof (deserialize_calm _ _ _ _ D') as C'.
  cbn [dev_at d_data d_pos] in C, C'. rewrite Ht in C'. rewrite Hv in C, C'. cbn [get_size] in C, C'.
  erewrite bind_ok by (apply map_err_ok, zoom_eq; exact C).
  erewrite (bind_ok (dec_header false)) by (apply map_err_ok, zoom_eq; exact C').
  cbv beta iota.
  match goal with |- context [dec_body E _ pw1 h aad ?x] => set (w1 := x) end.
  match goal with |- context [dec_body E _ pw2 h' aad ?x] => set (w2 := x) end.
  assert (Hs : world_sim w1 w2).
  { split; [|reflexivity]. unfold dev_sim, w1, w2. cbn [w_in dev_at d_plan d_pos d_data]. auto. }
  destruct (dec_body_sim E BLOCK_SIZE pw1 pw2 h h' aad HE S S') with (s1 := w1) (s2 := w2) as (R1 & _ & R2); auto.
  intros m. rewrite (unlocks_first_open E pw1 h l m Hv Hl).
  rewrite (unlocks_first_open E pw2 h' l' m) by (rewrite ?Ht; assumption). rewrite Ht.
  split; intros (j & Hj).
  - destruct (first_open_unique _ _ _ _ _ _ _ _ F Hj) as (<- & <-). eauto.
  - destruct (first_open_unique _ _ _ _ _ _ _ _ F' Hj) as (<- & <-). eauto.
Qed.

(** ** The rewritten header *)

Lemma v5_room : forall d h slots, v5_header d h slots -> d_pos d + 416 <= length (d_data d).
Proof.
  intros d h slots (A & B & aad & d' & C). apply header_size_exact in C as (C1 & C2 & _).
  rewrite A in C1. cbn [get_size] in C1. lia.
Qed.

Lemma same_outside_write : forall data p l n, p + n <= length data -> length l <= n ->
  same_outside p n data (write_at data p l).
Proof.
  intros data p l n H Hl. split; [apply write_at_inside_length; lia|]. split.
  - apply write_at_firstn; lia.
  - apply write_at_skipn. lia.
Qed.

Lemma reread_v5 : forall d h slots l, v5_header d h slots -> reread (with_slots h l) = with_slots h l.
Proof.
  intros d h slots l H. pose proof (v5_header_wf _ _ _ H) as (_ & R). destruct H as (V & _).
  unfold reread in *. unfold with_slots at 1. cbn [h_type]. rewrite V in *. unfold with_slots. cbn [h_type h_nonce h_keyslots].
  rewrite <- R. cbn [h_type h_nonce h_salt]. reflexivity.
Qed.

Lemma with_slots_self : forall h slots, h_keyslots h = Some slots -> with_slots h slots = h.
Proof. intros [t n s k] slots H. cbn in H. subst. reflexivity. Qed.

Lemma rewritten : forall d h slots l b,
  v5_header d h slots -> wf_v5 (with_slots h l) -> serialize (with_slots h l) = Ok b -> length b = 416 ->
  let data := write_at (d_data d) (d_pos d) b in
  same_outside (d_pos d) 416 (d_data d) data
  /\ exists aad, create_aad h = Ok aad
       /\ deserialize (dev_at data (d_pos d)) = (Ok (with_slots h l, aad), dev_at data (d_pos d + 416)).
Proof.
  intros d h slots l b Hv Hw Hs Hl data. pose proof (v5_room _ _ _ Hv) as Hr.
  split; [apply same_outside_write; lia|].
  destruct (parse_serialize (with_slots h l) b) as (aad & _ & Ha); [right; right; exact Hw|exact Hs|].
  exists aad. split.
  - destruct Hv as (V & _). unfold create_aad, with_slots in *. cbn [h_type h_keyslots h_nonce] in Ha.
    rewrite V in *. exact Ha.
  - rewrite (deserialize_run (with_slots h l) b aad (dev_at data (d_pos d))).
    + rewrite (reread_v5 d h slots) by exact Hv. unfold dev_at, set_pos. cbn [d_pos d_data d_plan d_log].
      now rewrite Hl.
    + right; right; exact Hw.
    + exact Hs.
    + exact Ha.
    + exists (skipn (d_pos d + 416) (d_data d)). cbn [dev_at d_pos d_data]. unfold data.
      rewrite write_at_inside by lia. rewrite skipn_app_exact by (rewrite firstn_length; lia). now rewrite Hl.
    + reflexivity.
Qed.

Lemma v5_aad : forall d h slots aad d', v5_header d h slots -> deserialize d = (Ok (h, aad), d') ->
  padding_zero (d_data d) (d_pos d) h -> create_aad h = Ok aad.
Proof.
  intros d h slots aad d' (V & K & _) D P. apply accepted_inv in D. cbv zeta in D.
  destruct D as (A1 & A2 & A3 & A4 & _). rewrite V in *. cbn [get_size] in *.
  set (full := firstn 416 (skipn (d_pos d) (d_data d))) in *.
  unfold create_aad. rewrite V. f_equal. rewrite A3. unfold parse_aad. rewrite V.
  unfold parsed in A4. rewrite V in A4.
  destruct (fst (parse_slots 4 _ [] (skipn 32 full))) as [l| | |]; try discriminate A4.
  apply Ok_inj in A4. apply (f_equal fst) in A4. cbn [fst] in A4. 
  assert (Hn : h_nonce h = slice 6 (get_nonce_len (ht_algorithm (h_type h)) (ht_mode (h_type h))) full)
    by (rewrite <- A4; reflexivity).
  unfold padding_zero in P. cbv zeta in P. unfold nonce_padding.
  destruct (nonce_len_bounds (ht_algorithm (h_type h)) (ht_mode (h_type h))) as (_ & B & _).
  set (nl := get_nonce_len (ht_algorithm (h_type h)) (ht_mode (h_type h))) in *.
  rewrite <- P. replace 32 with (6 + (nl + (26 - nl))) by lia.
  rewrite (firstn_split 6), A2. f_equal. rewrite firstn_split. rewrite Hn. unfold slice. f_equal.
  rewrite skipn_skipn'. unfold full. rewrite skipn_firstn_comm, firstn_firstn.
  rewrite Nat.min_l by lia. f_equal. rewrite skipn_skipn'. f_equal. lia.
Qed.

(** ** Layout *)

Definition area (a : algorithm) (l : list keyslot) : bytes :=
  concat (map (slot_bytes a) l) ++ zeros (96 * (4 - length l)).

Definition head_bytes (h : header) : bytes :=
  tag_bytes (h_type h) ++ h_nonce h ++ nonce_padding (h_type h).

Lemma serialize_layout : forall h l b, wf_v5 (with_slots h l) -> serialize (with_slots h l) = Ok b ->
  b = head_bytes h ++ area (ht_algorithm (h_type h)) l /\ length (head_bytes h) = 32.
Proof.
  intros h l b (V & N & l' & K & L & _) S. cbn [with_slots h_type h_keyslots] in *. injection K as <-.
  unfold serialize, with_slots in S. cbn [h_type] in S. rewrite V in S. unfold serialize_v5 in S.
  cbn [h_type h_keyslots h_nonce] in S. destruct (Nat.leb_spec (length l) 4); [|lia].
  apply Ok_inj in S. subst b. unfold head_bytes, area. rewrite concat_repeat_zeros, <- !app_assoc.
  split; [reflexivity|]. unfold nonce_sized, with_slots in N. cbn [h_type h_nonce] in N.
  rewrite !app_length, tag_bytes_length, nonce_padding_length, N.
  destruct (nonce_len_bounds (ht_algorithm (h_type h)) (ht_mode (h_type h))) as (_ & B & _). lia.
Qed.

Lemma canonical_layout : forall d h slots, v5_header d h slots -> canonical_at (d_data d) (d_pos d) h ->
  d_data d = firstn (d_pos d) (d_data d) ++ (head_bytes h ++ area (ht_algorithm (h_type h)) slots)
             ++ skipn (d_pos d + 416) (d_data d).
Proof.
  intros d h slots Hv Hc. pose proof (v5_header_wf _ _ _ Hv) as (W & _).
  pose proof Hv as (V & K & aad & d' & D).
  destruct (reserialize _ _ _ _ D) as (b & S & L & _ & _ & _ & R).
  { rewrite V. intros [X|[X|[]]]; discriminate X. }
  rewrite V in R, L. cbn [get_size] in R, L. specialize (R eq_refl Hc).
  rewrite <- (with_slots_self h slots K) in W, S.
  destruct (serialize_layout _ _ _ W S) as (Hb & _). rewrite <- Hb, R.
  rewrite app_assoc. rewrite <- firstn_split. symmetry. apply firstn_skipn.
Qed.

Lemma area_app : forall a l1 l2, length (l1 ++ l2) <= 4 ->
  area a (l1 ++ l2) = concat (map (slot_bytes a) l1) ++ concat (map (slot_bytes a) l2)
                      ++ zeros (96 * (4 - length l1 - length l2)).
Proof.
  intros a l1 l2 H. unfold area. rewrite map_app, concat_app, <- app_assoc, app_length.
  now rewrite Nat.sub_add_distr.
Qed.

Lemma written_layout : forall d h slots l b,
  v5_header d h slots -> wf_v5 (with_slots h l) -> serialize (with_slots h l) = Ok b -> length b = 416 ->
  write_at (d_data d) (d_pos d) b
  = firstn (d_pos d) (d_data d) ++ (head_bytes h ++ area (ht_algorithm (h_type h)) l)
             ++ skipn (d_pos d + 416) (d_data d).
Proof.
  intros d h slots l b Hv W S L. pose proof (v5_room _ _ _ Hv).
  rewrite write_at_inside by lia. rewrite L.
  destruct (serialize_layout _ _ _ W S) as (<- & _). reflexivity.
Qed.

(** ** Results *)

Lemma op_written : forall E op w w', env_ok E -> not_verify op -> no_short (d_plan (w_in w)) ->
  run_op E op w = (Ok tt, w') ->
  exists h slots i key mk k new b aad,
    op_pre E op (w_in w) (w_rng w) h slots i key mk k /\ length mk = 32
    /\ made E (ht_algorithm (h_type h)) mk (w_rng w) op new
    /\ wf_v5 (with_slots h (edited op i new slots))
    /\ serialize (with_slots h (edited op i new slots)) = Ok b /\ length b = 416
    /\ d_data (w_in w') = write_at (d_data (w_in w)) (d_pos (w_in w)) b
    /\ wrote (w_in w) (w_in w') b
    /\ same_outside (d_pos (w_in w)) 416 (d_data (w_in w)) (d_data (w_in w'))
    /\ create_aad h = Ok aad
    /\ deserialize (dev_at (d_data (w_in w')) (d_pos (w_in w)))
       = (Ok (with_slots h (edited op i new slots), aad),
          dev_at (d_data (w_in w')) (d_pos (w_in w) + 416))
    /\ v5_header (dev_at (d_data (w_in w')) (d_pos (w_in w)))
         (with_slots h (edited op i new slots)) (edited op i new slots)
    /\ sealed (w_tr w') = sealed (w_tr w)
              ++ match op_new op with
                 | Some (p, ha) =>
                     match hash E ha p (ks_salt new) with
                     | Ok key' => [mkCall (ht_algorithm (h_type h)) key' (ks_nonce new) [] mk (ks_enc new)]
                     | _ => []
                     end
                 | None => []
                 end.
Proof.
  intros E op w w' HE Hn Hp H. apply op_cases in H as (_ & _ & _ & H); [|exact HE].
  destruct H as [(e & X & _)|[(X & _)|(_ & h & slots & i & key & mk & k & new & b & n & P & L & Md & W & S & Lb & Ln & Wr & _ & F & Tr)]];
    [discriminate X|contradiction|].
  specialize (F eq_refl Hp). subst n. rewrite firstn_all2 in Wr by lia.
  pose proof P as (V & _). pose proof Wr as (D & _).
  destruct (rewritten _ _ _ _ _ V W S Lb) as (O & aad & A & Ds). rewrite <- D in O, Ds.
  exists h, slots, i, key, mk, k, new, b, aad.
  do 11 (split; [assumption|]). split; [|exact Tr].
  split; [destruct V as (V & _); exact V|]. split; [reflexivity|]. eauto.
Qed.

(** Decryption of the file before and after. *)
Lemma op_same_dec : forall E d h slots l aad data' pw1 pw2 i1 i2 mk, env_ok E ->
  v5_header d h slots -> padding_zero (d_data d) (d_pos d) h -> create_aad h = Ok aad ->
  deserialize (dev_at data' (d_pos d)) = (Ok (with_slots h l, aad), dev_at data' (d_pos d + 416)) ->
  same_outside (d_pos d) 416 (d_data d) data' ->
  first_open E (ht_algorithm (h_type h)) pw1 slots i1 mk ->
  first_open E (ht_algorithm (h_type h)) pw2 l i2 mk ->
  same_decryption E pw1 (dev_at (d_data d) (d_pos d)) pw2 (dev_at data' (d_pos d)).
Proof.
  intros E d h slots l aad data' pw1 pw2 i1 i2 mk HE Hv Hp Ha Hd Ho F1 F2.
  pose proof Hv as (V & K & aad0 & d' & D).
  pose proof (v5_aad _ _ _ _ _ Hv D Hp) as Ha'. rewrite Ha in Ha'. apply Ok_inj in Ha'. subst aad0.
  eapply same_dec with (h := h) (h' := with_slots h l) (l := slots) (l' := l); eauto.
  exact (deserialize_calm _ _ _ _ D).
Qed.

Lemma holds_opens : forall E a mk pw k, env_ok E -> holds E a mk pw k -> slot_opens E a pw k mk.
Proof. intros E a mk pw k HE (key & A & B). exists key. split; [exact A|]. eapply aead_correct; eauto. Qed.

Lemma first_open_app : forall E a pw l l' i mk, first_open E a pw l i mk -> first_open E a pw (l ++ l') i mk.
Proof.
  intros E a pw l l' i mk (k & A & B & C). exists k.
  assert (i < length l) by (apply nth_error_Some; congruence).
  split; [now rewrite nth_error_app1|]. split; [exact B|].
  intros j k' Hj Hn. apply (C j k' Hj). rewrite nth_error_app1 in Hn by lia. exact Hn.
Qed.

Lemma first_open_all : forall E a pw l mk k, In k l -> slot_opens E a pw k mk ->
  (forall k' m, In k' l -> slot_opens E a pw k' m -> m = mk) ->
  exists i, first_open E a pw l i mk.
Proof.
  intros E a pw l mk k Hk Ho Ha. destruct (first_open_exists E a pw l k mk Hk Ho) as (i & m & F).
  exists i. destruct (first_open_in _ _ _ _ _ _ F) as (k' & I & _ & O). now rewrite <- (Ha _ _ I O).
Qed.

Lemma add_holds : forall E old new ha w w', env_ok E -> no_short (d_plan (w_in w)) ->
  key_add E old new ha w = (Ok tt, w') ->
  let p := d_pos (w_in w) in
  let data := d_data (w_in w) in
  let data' := d_data (w_in w') in
  exists h slots i mk k,
    let a := ht_algorithm (h_type h) in
    v5_header (w_in w) h slots /\ length slots < 4 /\ first_open E a old slots i mk
    /\ made E a mk (w_rng w) (OpAdd old new ha) k
    /\ same_outside p 416 data data'
    /\ v5_header (dev_at data' p) (with_slots h (slots ++ [k])) (slots ++ [k])
    /\ (canonical_at data p h -> exists pre post,
          length pre = p + 32 + 96 * length slots
          /\ data = pre ++ zeros 96 ++ post /\ data' = pre ++ slot_bytes a k ++ post)
    /\ (padding_zero data p h ->
          same_decryption E old (dev_at data p) old (dev_at data' p)
          /\ ((forall k' m, In k' slots -> slot_opens E a new k' m -> m = mk) ->
              same_decryption E old (dev_at data p) new (dev_at data' p))).
Proof.
  intros E old new ha w w' HE Hp H p data data'.
  destruct (op_written E (OpAdd old new ha) w w' HE I Hp H)
    as (h & slots & i & key & mk & k & nw & b & aad & P & L & Md & W & S & Lb & D & _ & O & A & Ds & V' & _).
  destruct P as (V & F & Z & P4 & _). specialize (P4 _ _ _ eq_refl).
  cbn [op_old edited] in *. pose proof (found_first_open _ _ _ _ _ _ _ _ F) as F1.
  exists h, slots, i, mk, nw. cbv zeta.
  do 6 (split; [assumption|]). split.
  - intros Hc. pose proof (canonical_layout _ _ _ V Hc) as C1.
    pose proof (written_layout _ _ _ _ _ V W S Lb) as C2. rewrite <- D in C2.
    pose proof (v5_header_slots _ _ _ V) as (_ & Hs). apply Forall_slot_wf_sized in Hs.
    destruct (serialize_layout _ _ _ W S) as (_ & Hh).
    pose proof (v5_room _ _ _ V) as Hr.
    exists (firstn p data ++ head_bytes h ++ concat (map (slot_bytes (ht_algorithm (h_type h))) slots)),
           (zeros (96 * (3 - length slots)) ++ skipn (p + 416) data).
    split.
    { rewrite !app_length, firstn_length, Hh, slots_length by exact Hs. unfold data, p. lia. }
    split.
    + fold data p in C1. rewrite C1 at 1. unfold area.
      replace (96 * (4 - length slots)) with (96 + 96 * (3 - length slots)) by lia.
      rewrite zeros_app, <- !app_assoc. reflexivity.
    + fold data' data p in C2. rewrite C2. rewrite area_app by (rewrite app_length; cbn; lia).
      cbn [map concat length]. rewrite app_nil_r.
      replace (4 - length slots - 1) with (3 - length slots) by lia.
      rewrite <- !app_assoc. reflexivity.
  - intros Hpad. split.
    + eapply op_same_dec; eauto. apply first_open_app; eauto.
    + intros Hnew.
      assert (Ho : slot_opens E (ht_algorithm (h_type h)) new nw mk).
      { apply holds_opens; [exact HE|]. apply Md. }
      destruct (first_open_all E (ht_algorithm (h_type h)) new (slots ++ [nw]) mk nw) as (j & Fj); auto.
      { apply in_or_app. right. now left. }
      { intros k' m Hk Hm. apply in_app_or in Hk as [Hk|[<-|[]]]; [eauto|]. eapply slot_opens_unique; eauto. }
      eapply op_same_dec; eauto.
Qed.

Lemma nth_split : forall {A} (l : list A) i k, nth_error l i = Some k ->
  l = firstn i l ++ k :: skipn (S i) l /\ length (firstn i l) = i.
Proof.
  intros A l; induction l as [|x l IH]; intros [|i] k H; cbn in *; try discriminate.
  - injection H as ->. auto.
  - destruct (IH _ _ H) as (H1 & H2). split; [|now rewrite H2]. f_equal. exact H1.
Qed.

Lemma change_holds : forall E old new ha w w', env_ok E -> no_short (d_plan (w_in w)) ->
  key_change E old new ha w = (Ok tt, w') ->
  let p := d_pos (w_in w) in
  let data := d_data (w_in w) in
  let data' := d_data (w_in w') in
  exists h l1 k0 l2 mk k,
    let a := ht_algorithm (h_type h) in
    v5_header (w_in w) h (l1 ++ k0 :: l2) /\ first_open E a old (l1 ++ k0 :: l2) (length l1) mk
    /\ made E a mk (w_rng w) (OpChange old new ha) k
    /\ same_outside p 416 data data'
    /\ v5_header (dev_at data' p) (with_slots h (l1 ++ k :: l2)) (l1 ++ k :: l2)
    /\ (canonical_at data p h -> exists pre post,
          length pre = p + 32 + 96 * length l1
          /\ data = pre ++ slot_bytes a k0 ++ post /\ data' = pre ++ slot_bytes a k ++ post)
    /\ (padding_zero data p h ->
          (forall k' m, In k' (l1 ++ l2) -> slot_opens E a new k' m -> m = mk) ->
          same_decryption E old (dev_at data p) new (dev_at data' p))
    /\ (forall m, slot_opens E a old k m ->
          old = new
          \/ kdf_collision E ha old (ks_salt k) ha new (ks_salt k)
          \/ exists key, hash E ha old (ks_salt k) = Ok key
             /\ (w_tr w = [] -> forgery E (w_tr w') (mkCall a key (ks_nonce k) [] m (ks_enc k)))).
Proof.
  intros E old new ha w w' HE Hp H p data data'.
  destruct (op_written E (OpChange old new ha) w w' HE I Hp H)
    as (h & slots & i & key & mk & k & nw & b & aad & P & L & Md & W & S & Lb & D & _ & O & A & Ds & V' & Tr).
  destruct P as (V & F & Z & P4 & P5).
  cbn [op_old edited op_new] in *. pose proof (found_first_open _ _ _ _ _ _ _ _ F) as F1.
  destruct F as (Hnth & _). destruct (nth_split _ _ _ Hnth) as (Hsp & Hi).
  set (l1 := firstn i slots) in *. set (l2 := skipn (Datatypes.S i) slots) in *. clearbody l1 l2. subst slots.
  rewrite <- Hi in F1, Hnth. clear Hi i.
  exists h, l1, k, l2, mk, nw. cbv zeta.
  do 5 (split; [assumption|]). split; [|split].
  - intros Hc. pose proof (canonical_layout _ _ _ V Hc) as C1.
    pose proof (written_layout _ _ _ _ _ V W S Lb) as C2. rewrite <- D in C2.
    pose proof (v5_header_slots _ _ _ V) as (H4 & Hs). apply Forall_slot_wf_sized in Hs.
    apply Forall_app in Hs as (Hs1 & Hs2). inversion Hs2 as [|? ? Hs3 Hs4]; subst.
    destruct (serialize_layout _ _ _ W S) as (_ & Hh).
    pose proof (v5_room _ _ _ V) as Hr.
    exists (firstn p data ++ head_bytes h ++ concat (map (slot_bytes (ht_algorithm (h_type h))) l1)),
           (concat (map (slot_bytes (ht_algorithm (h_type h))) l2)
            ++ zeros (96 * (4 - length l1 - Datatypes.S (length l2))) ++ skipn (p + 416) data).
    split.
    { rewrite !app_length, firstn_length, Hh, slots_length by exact Hs1. unfold data, p. lia. }
    split.
    + fold data p in C1. rewrite C1 at 1. rewrite area_app by exact H4.
      cbn [map concat length]. rewrite <- !app_assoc. reflexivity.
    + fold data' data p in C2. rewrite C2.
      rewrite area_app by (rewrite app_length in *; exact H4).
      cbn [map concat length]. rewrite <- !app_assoc. reflexivity.
  - intros Hpad Hnew.
    assert (Ho : slot_opens E (ht_algorithm (h_type h)) new nw mk).
    { apply holds_opens; [exact HE|]. apply Md. }
    destruct (first_open_all E (ht_algorithm (h_type h)) new (l1 ++ nw :: l2) mk nw) as (j & Fj); auto.
    { apply in_or_app. right. now left. }
    { intros k' m Hk Hm. apply in_app_or in Hk as [Hk|[<-|Hk]].
      - eapply Hnew; eauto. apply in_or_app. now left.
      - eapply slot_opens_unique; eauto.
      - eapply Hnew; eauto. apply in_or_app. now right. }
    eapply op_same_dec; eauto.
  - intros m (ko & Hko & Hdo). unfold made in Md. cbn [op_new] in Md.
    destruct Md as (M1 & M2 & M3 & kn & Hkn & Hen). rewrite M1 in *.
    destruct (bytes_eq_dec old new) as [->|Hne]; [now left|]. right.
    destruct (bytes_eq_dec ko kn) as [->|Hk].
    + left. split; [|exists kn; auto]. intros X. apply Hne. congruence.
    + right. exists ko. split; [exact Hko|]. intros Ht. split; [exact Hdo|].
      intros m' Hin. rewrite Tr, Ht, Hkn in Hin. cbn in Hin. destruct Hin as [X|[]].
      apply Hk. congruence.
Qed.

Lemma first_open_remove : forall E a pw l1 k l2 i mk,
  first_open E a pw (l1 ++ k :: l2) i mk -> i <> length l1 ->
  exists j, first_open E a pw (l1 ++ l2) j mk.
Proof.
  intros E a pw l1 k l2 i mk (k' & A & B & C) Hi.
  destruct (lt_dec i (length l1)) as [Hl|Hl].
  - exists i, k'. rewrite nth_error_app1 in A by exact Hl. split; [now rewrite nth_error_app1|].
    split; [exact B|]. intros j kj Hj Hn. rewrite nth_error_app1 in Hn by lia.
    apply (C j kj Hj). rewrite nth_error_app1 by lia. exact Hn.
  - exists (i - 1), k'. rewrite nth_error_app2 in A by lia.
    destruct (i - length l1) as [|x] eqn:Hx; [lia|]. cbn in A. split.
    + rewrite nth_error_app2 by lia. replace (i - 1 - length l1) with x by lia. exact A.
    + split; [exact B|]. intros j kj Hj Hn. destruct (lt_dec j (length l1)).
      * rewrite nth_error_app1 in Hn by lia. apply (C j kj); [lia|]. now rewrite nth_error_app1 by lia.
      * rewrite nth_error_app2 in Hn by lia. apply (C (S j) kj); [lia|].
        rewrite nth_error_app2 by lia. replace (S j - length l1) with (S (j - length l1)) by lia. exact Hn.
Qed.

Lemma delete_holds : forall E old w w', env_ok E -> no_short (d_plan (w_in w)) ->
  key_delete E old w = (Ok tt, w') ->
  let p := d_pos (w_in w) in
  let data := d_data (w_in w) in
  let data' := d_data (w_in w') in
  exists h l1 k0 l2 mk,
    let a := ht_algorithm (h_type h) in
    v5_header (w_in w) h (l1 ++ k0 :: l2) /\ first_open E a old (l1 ++ k0 :: l2) (length l1) mk
    /\ same_outside p 416 data data'
    /\ v5_header (dev_at data' p) (with_slots h (l1 ++ l2)) (l1 ++ l2)
    /\ (canonical_at data p h -> exists pre mid post,
          length pre = p + 32 + 96 * length l1 /\ mid = concat (map (slot_bytes a) l2)
          /\ data = pre ++ slot_bytes a k0 ++ mid ++ post /\ data' = pre ++ mid ++ zeros 96 ++ post)
    /\ (padding_zero data p h -> forall pw i m,
          first_open E a pw (l1 ++ k0 :: l2) i m -> i <> length l1 ->
          same_decryption E pw (dev_at data p) pw (dev_at data' p))
    /\ (forall pw, (forall k m, In k (l1 ++ l2) -> ~ slot_opens E a pw k m) ->
          forall v o v', w_in v = dev_at data' p -> decrypt_execute E false pw v = (o, v') ->
          (exists e, o = Err e) /\ w_out v' = w_out v).
Proof.
  intros E old w w' HE Hp H p data data'.
  destruct (op_written E (OpDelete old) w w' HE I Hp H)
    as (h & slots & i & key & mk & k & nw & b & aad & P & L & Md & W & S & Lb & D & _ & O & A & Ds & V' & Tr).
  destruct P as (V & F & Z & P4 & P5).
  cbn [op_old edited op_new] in *. pose proof (found_first_open _ _ _ _ _ _ _ _ F) as F1.
  destruct F as (Hnth & _). destruct (nth_split _ _ _ Hnth) as (Hsp & Hi).
  set (l1 := firstn i slots) in *. set (l2 := skipn (Datatypes.S i) slots) in *. clearbody l1 l2. subst slots.
  rewrite <- Hi in F1, Hnth. clear Hi i.
  exists h, l1, k, l2, mk. cbv zeta.
  do 4 (split; [assumption|]). split.
  - intros Hc. pose proof (canonical_layout _ _ _ V Hc) as C1.
    pose proof (written_layout _ _ _ _ _ V W S Lb) as C2. rewrite <- D in C2.
    pose proof (v5_header_slots _ _ _ V) as (H4 & Hs). apply Forall_slot_wf_sized in Hs.
    apply Forall_app in Hs as (Hs1 & Hs2). inversion Hs2 as [|? ? Hs3 Hs4]; subst.
    destruct (serialize_layout _ _ _ W S) as (_ & Hh).
    pose proof (v5_room _ _ _ V) as Hr.
    exists (firstn p data ++ head_bytes h ++ concat (map (slot_bytes (ht_algorithm (h_type h))) l1)),
           (concat (map (slot_bytes (ht_algorithm (h_type h))) l2)),
           (zeros (96 * (4 - length l1 - Datatypes.S (length l2))) ++ skipn (p + 416) data).
    split.
    { rewrite !app_length, firstn_length, Hh, slots_length by exact Hs1. unfold data, p. lia. }
    split; [reflexivity|]. rewrite app_length in H4. cbn [length] in H4. split.
    + fold data p in C1. rewrite C1 at 1. rewrite area_app by (rewrite app_length; exact H4).
      cbn [map concat length]. rewrite <- !app_assoc. reflexivity.
    + fold data' data p in C2. rewrite C2.
      rewrite area_app by (rewrite app_length; lia).
      replace (96 * (4 - length l1 - length l2)) with (96 + 96 * (4 - length l1 - Datatypes.S (length l2))) by lia.
      rewrite zeros_app, <- !app_assoc. reflexivity.
  - split.
    + intros Hpad pw i m Hf Hi. destruct (first_open_remove _ _ _ _ _ _ _ _ Hf Hi) as (j & Fj).
      eapply op_same_dec; eauto.
    + intros pw Hno v o v' Hv Hd. eapply wrong_key_holds; eauto.
      intros h' aad' d' Hh. cbn [header_source] in Hh. rewrite Hv in Hh. unfold data', p in Hh. rewrite Ds in Hh.
      assert (h' = with_slots h (l1 ++ l2)) as ->.
      { apply (f_equal fst) in Hh. cbn [fst] in Hh. apply Ok_inj in Hh. now inversion Hh. }
      intros m Hm. apply (unlocks_first_open _ _ _ (l1 ++ l2)) in Hm as (j & Hj);
        [|destruct V as (V & _); exact V|reflexivity].
      destruct (first_open_in _ _ _ _ _ _ Hj) as (kk & I1 & _ & O1). exact (Hno _ _ I1 O1).
Qed.

(** ** Errors, and the bytes touched *)

Lemma wrote_nothing : forall d d', wrote d d' [] -> untouched d d'.
Proof.
  intros d d' (A & _ & cs & C1 & C2 & C3). rewrite write_at_nil in A. split; [exact A|].
  destruct cs as [|c cs]; [now rewrite C3, app_nil_r|].
  inversion C2 as [|? ? Hc]; subst. destruct c; [contradiction|discriminate C1].
Qed.

Lemma op_error_holds : forall E op w o w', env_ok E -> run_op E op w = (o, w') ->
  (o = Ok tt \/ (exists e, o = Err e))
  /\ (o <> Ok tt -> untouched (w_in w) (w_in w'))
  /\ w_out w' = w_out w /\ w_hdr w' = w_hdr w.
Proof.
  intros E op w o w' HE H. apply op_cases in H as (A & B & _ & H); [|exact HE].
  destruct H as [(e & -> & U & _)|[(_ & -> & U & _)|(_ & h & slots & i & key & mk & k & new & b & n & P)]].
  - parts; eauto.
  - parts; eauto.
  - destruct P as (_ & _ & _ & _ & _ & _ & _ & W & [->|(-> & -> & _)] & _).
    + parts; eauto. intros X. now contradiction X.
    + parts; eauto. intros _. apply wrote_nothing. exact W.
Qed.

Lemma chunk_log_inside : forall cs p q c, In (q, c) (chunk_log p cs) ->
  p <= q /\ q + length c <= p + length (concat cs).
Proof.
  induction cs as [|c0 cs IH]; intros p q c H; cbn in *; [contradiction|].
  rewrite app_length. destruct H as [H|H].
  - inversion H; subst. lia.
  - apply IH in H. lia.
Qed.

Lemma op_region_holds : forall E op w o w', env_ok E -> run_op E op w = (o, w') ->
  let p := d_pos (w_in w) in
  same_outside p 416 (d_data (w_in w)) (d_data (w_in w'))
  /\ (exists new, d_log (w_in w') = d_log (w_in w) ++ new
       /\ forall q c, In (q, c) new -> p <= q /\ q + length c <= p + 416)
  /\ w_out w' = w_out w /\ w_hdr w' = w_hdr w.
Proof.
  intros E op w o w' HE H p. apply op_cases in H as (A & B & _ & H); [|exact HE].
  assert (G : untouched (w_in w) (w_in w') ->
    same_outside p 416 (d_data (w_in w)) (d_data (w_in w'))
    /\ exists new, d_log (w_in w') = d_log (w_in w) ++ new
       /\ forall q c, In (q, c) new -> p <= q /\ q + length c <= p + 416).
  { intros (U1 & U2). split; [unfold same_outside; rewrite U1; auto|].
    exists []. rewrite app_nil_r. split; [exact U2|]. intros q c []. }
  destruct H as [(e & -> & U & _)|[(_ & -> & U & _)|(_ & h & slots & i & key & mk & k & new & b & n & P)]].
  - destruct (G U). auto.
  - destruct (G U). auto.
  - destruct P as ((V & _) & _ & _ & _ & _ & Lb & Ln & (W1 & W2 & cs & W3 & W4 & W5) & _).
    pose proof (v5_room _ _ _ V) as Hr.
    assert (L : length (firstn n b) <= 416) by (rewrite firstn_length; lia).
    split; [|split; [|auto]].
    + rewrite W1. apply same_outside_write; assumption.
    + exists (chunk_log p cs). split; [exact W5|]. intros q c Hq. apply chunk_log_inside in Hq.
      rewrite W3 in Hq. lia.
Qed.

(** ** Verify and decrypt *)

Lemma found_unlocks : forall E pw h slots i key mk k, ht_version (h_type h) = V5 ->
  h_keyslots h = Some slots -> found E (ht_algorithm (h_type h)) pw slots i key mk k -> unlocks E pw h mk.
Proof.
  intros E pw h slots i key mk k V K F. apply (unlocks_first_open E pw h slots mk V K).
  exists i. eapply found_first_open; eauto.
Qed.

Lemma dmk_unlocks : forall E pw h tr mk, env_ok E -> header_shape h ->
  (fst (decrypt_master_key E pw h tr) = Ok mk <-> unlocks E pw h mk).
Proof.
  intros E pw h tr mk HE Hs.
  destruct (decrypt_master_key_spec E pw h tr HE Hs) as [(m & nw & U & _ & -> & _)|(N & ->)]; cbn [fst]; split; intros H.
  - apply Ok_inj in H. now subst.
  - f_equal. eapply unlocks_unique; eauto.
  - discriminate H.
  - exfalso. eapply N; eauto.
Qed.

Lemma verify_holds : forall E pw w o w', env_ok E -> key_verify E pw w = (o, w') ->
  untouched (w_in w) (w_in w')
  /\ (o = Ok tt -> exists h slots mk, v5_header (w_in w) h slots /\ mk <> zeros 32
        /\ forall tr, fst (decrypt_master_key E pw h tr) = Ok mk)
  /\ (d_plan (w_in w) = [] -> forall h slots mk tr, v5_header (w_in w) h slots ->
        fst (decrypt_master_key E pw h tr) = Ok mk ->
        mk <> zeros 32 -> kdf_accepts E pw slots -> o = Ok tt)
  /\ (o = Ok tt \/ exists e, o = Err e).
Proof.
  intros E pw w o w' HE H. pose proof (op_cases E (OpVerify pw) w o w' HE H) as (_ & _ & _ & C).
  destruct C as [(e & -> & U & N)|[(_ & -> & U & h & slots & i & key & mk & k & P)|(X & _)]]; [| |contradiction].
  - split; [exact U|]. split; [intros X; discriminate X|]. split; [|eauto].
    intros Hp h slots mk tr V D Z K. exfalso.
    pose proof V as (V5' & Ks & aad & d' & Dd). pose proof (deserialize_shape _ _ _ _ Dd) as Sh.
    apply dmk_unlocks in D; [|exact HE|exact Sh].
    apply (unlocks_first_open E pw h slots mk V5' Ks) in D as (i & F).
    destruct (first_open_found _ _ _ _ _ _ F K) as (key & k & Fd).
    refine (N Hp h slots i key mk k _). unfold op_pre. cbn [op_old op_new]. parts; auto; intros; discriminate.
  - split; [exact U|]. split; [|split; auto]. intros _.
    destruct P as (V & F & Z & _). exists h, slots, mk. split; [exact V|]. split; [exact Z|].
    intros tr. pose proof V as (V5' & Ks & aad & d' & Dd). pose proof (deserialize_shape _ _ _ _ Dd) as Sh.
    apply dmk_unlocks; auto. eapply found_unlocks; eauto.
Qed.

(** ** Writing a header *)

Lemma header_write_holds : forall h d d', wf_header h -> no_short (d_plan d) ->
  header_write h d = (Ok tt, d') ->
  exists b, serialize h = Ok b /\ length b = get_size (ht_version (h_type h)) /\ wrote d d' b.
Proof.
  intros h d d' W N H. destruct (serialize_ok h W) as (b & S & L & _). exists b. split; [exact S|]. split; [exact L|].
  unfold header_write in H. erewrite bind_ok in H by (unfold lift; rewrite S; reflexivity).
  apply bind_inv in H as [(n & d1 & H1 & H)|[(e & _ & X)|[(_ & X)|(_ & X)]]]; try discriminate X.
  apply map_err_inv in H1 as [(m & H1 & X1)|[(e' & _ & X)|[(_ & X)|(_ & X)]]]; try discriminate X.
  inversion H; subst d1. pose proof (dev_write_no_short _ _ _ _ H1 N) as Hn.
  apply dev_write_spec in H1 as (_ & _ & H2 & _). subst m. now rewrite firstn_all in H2.
Qed.

Lemma encrypt_header_written : forall E req w w', env_ok E ->
  no_short (d_plan (w_out w)) -> no_short (d_plan (w_hdr w)) ->
  encrypt_execute E req w = (Ok tt, w') ->
  exists h b body, h_type h = er_header_type req /\ serialize h = Ok b
    /\ length b = get_size (ht_version (h_type h))
    /\ if er_detached req
       then wrote (set_pos 0 (w_hdr w)) (w_hdr w') b /\ wrote (set_pos 0 (w_out w)) (w_out w') body
       else wrote (set_pos 0 (w_out w)) (w_out w') (b ++ body) /\ w_hdr w' = w_hdr w.
Proof.
  intros E req w w' HE N1 N2 H.
  apply encrypt_ok_inv in H; [|exact HE|unfold BLOCK_SIZE; lia]. cbv zeta in H.
  destruct H as (key & wrapped & b & aad & ct & cs & k & Hk & _ & Lw & _ & Vv & S & _ & _ & _ & _ & _ & _ & H).
  exists (e_header req (w_rng w) wrapped), b, ct. split; [reflexivity|]. split; [exact S|]. split.
  - cbn [e_header h_type]. destruct Vv as [Vv|[Vv|[]]].
    + rewrite <- Vv. unfold serialize, e_header in S. cbn [h_type] in S. rewrite <- Vv in S.
      unfold serialize_v4 in S. cbn [h_keyslots h_salt h_type h_nonce ks_enc ks_nonce ks_salt] in S.
      apply Ok_inj in S. subst b. unfold e_salt, e_nonce, e_mk_nonce.
      rewrite !app_length, tag_bytes_length, nonce_padding_length, Lw, zeros_length, !draw_length.
      destruct (nonce_len_bounds (ht_algorithm (er_header_type req)) (ht_mode (er_header_type req))) as (_ & B & _).
      destruct (nonce_len_bounds (ht_algorithm (er_header_type req)) MemoryMode) as (_ & B' & _).
      cbn [get_size]. lia.
    + apply hash_known in Hk.
      destruct (serialize_ok _ (e_header_wf_v5 req (w_rng w) wrapped (eq_sym Vv) Hk Lw)) as (b' & S' & L' & _).
      rewrite S in S'. apply Ok_inj in S'. subst b'. exact L'.
  - destruct (er_detached req).
    + destruct H as (H1 & H2 & H3). rewrite (H3 N2), firstn_all in H1. auto.
    + destruct H as (H1 & H2 & H3). rewrite (H3 N1), firstn_all in H1. auto.
Qed.
