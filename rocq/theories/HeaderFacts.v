(** Proofs about header serialization and parsing. *)
From Coq Require Import List Arith NArith ZArith Lia Bool.
From Verif Require Import Bytes Outcome IO Primitives Crypto Header HeaderSpec.
From Verif Require Import BytesFacts IOFacts.
Local Open Scope nat_scope.

Lemma nonce_len_bounds : forall a m,
  8 <= get_nonce_len a m /\ get_nonce_len a m <= 24
  /\ get_nonce_len a m <= get_nonce_len a MemoryMode.
Proof. intros [] []; cbn; lia. Qed.

Lemma take_app : forall n x r, length x = n -> take n (x ++ r) = (Ok x, r).
Proof.
  intros n x r H. unfold take.
  destruct (Nat.leb_spec n (length (x ++ r))) as [|Hc].
  - rewrite firstn_app_exact, skipn_app_exact by auto. reflexivity.
  - rewrite app_length in Hc. lia.
Qed.

Lemma take_ok : forall n r, n <= length r -> take n r = (Ok (firstn n r), skipn n r).
Proof.
  intros n r H. unfold take. destruct (Nat.leb_spec n (length r)); [reflexivity|lia].
Qed.

(** ** Tags *)

Lemma parse_serialize_version : forall v, parse_version (serialize_version v) = Some v.
Proof. intros []; reflexivity. Qed.
Lemma parse_serialize_algorithm : forall a, parse_algorithm (serialize_algorithm a) = Some a.
Proof. intros []; reflexivity. Qed.
Lemma parse_serialize_mode : forall m, parse_mode (serialize_mode m) = Some m.
Proof. intros []; reflexivity. Qed.

Lemma parse_version_inv : forall b v, parse_version b = Some v -> b = serialize_version v.
Proof.
  intros b v H. unfold parse_version in H.
  repeat match type of H with
         | (if bytes_eqb b ?x then _ else _) = _ =>
             let E := fresh in destruct (bytes_eqb b x) eqn:E;
             [apply bytes_eqb_eq in E; inversion H; subst; reflexivity|]
         end. discriminate.
Qed.
Lemma parse_algorithm_inv : forall b v, parse_algorithm b = Some v -> b = serialize_algorithm v.
Proof.
  intros b v H. unfold parse_algorithm in H.
  repeat match type of H with
         | (if bytes_eqb b ?x then _ else _) = _ =>
             let E := fresh in destruct (bytes_eqb b x) eqn:E;
             [apply bytes_eqb_eq in E; inversion H; subst; reflexivity|]
         end. discriminate.
Qed.
Lemma parse_mode_inv : forall b v, parse_mode b = Some v -> b = serialize_mode v.
Proof.
  intros b v H. unfold parse_mode in H.
  repeat match type of H with
         | (if bytes_eqb b ?x then _ else _) = _ =>
             let E := fresh in destruct (bytes_eqb b x) eqn:E;
             [apply bytes_eqb_eq in E; inversion H; subst; reflexivity|]
         end. discriminate.
Qed.

Definition slot_id (h : hashing_algorithm) : bytes :=
  keyslot_serialize (mkSlot h [] [] []).

Lemma keyslot_serialize_id : forall k, keyslot_serialize k = slot_id (ks_hash k).
Proof. reflexivity. Qed.

Lemma parse_slot_id_known : forall h, known_hash h ->
  parse_slot_id (slot_id h) = Some h /\ firstn 1 (slot_id h) = [xdf]
  /\ length (slot_id h) = 2.
Proof.
  intros h H. unfold known_hash in H. cbn in H.
  repeat destruct H as [<-|H]; try contradiction; repeat split; reflexivity.
Qed.

Lemma parse_slot_id_inv : forall b h, parse_slot_id b = Some h ->
  known_hash h /\ b = slot_id h.
Proof.
  intros b h H. unfold parse_slot_id in H. unfold known_hash.
  repeat match type of H with
         | (if bytes_eqb b ?x then _ else _) = _ =>
             let E := fresh in destruct (bytes_eqb b x) eqn:E;
             [apply bytes_eqb_eq in E; inversion H; subst; split;
              [cbn; tauto|reflexivity]|]
         end. discriminate.
Qed.

Lemma slot_id_length : forall h, length (slot_id h) = 2.
Proof.
  intros [i|i]; unfold slot_id, keyslot_serialize; cbn;
    repeat match goal with |- context [if ?c then _ else _] => destruct c end; reflexivity.
Qed.

Lemma tag_bytes_length : forall t, length (tag_bytes t) = 6.
Proof. intros [[] [] []]; reflexivity. Qed.

Lemma tag_bytes_shape : forall t,
  tag_bytes t = [xde; version_tag (ht_version t); x0e;
                 algorithm_tag (ht_algorithm t); x0c; mode_tag (ht_mode t)].
Proof. intros [[] [] []]; reflexivity. Qed.

(** ** Lengths *)

Lemma slot_bytes_length : forall a k, slot_sized a k -> length (slot_bytes a k) = 96.
Proof.
  intros a k (H1 & H2 & H3). unfold slot_bytes.
  rewrite keyslot_serialize_id, !app_length, slot_id_length, !zeros_length, H1, H2, H3.
  destruct (nonce_len_bounds a MemoryMode). lia.
Qed.

Lemma concat_const_length : forall {A} (l : list (list A)) n,
  Forall (fun x => length x = n) l -> length (concat l) = n * length l.
Proof.
  induction 1; cbn [concat length]; [lia|]. rewrite app_length, H, IHForall. lia.
Qed.

Lemma slots_length : forall a l, Forall (slot_sized a) l ->
  length (concat (map (slot_bytes a) l)) = 96 * length l.
Proof.
  intros a l H. rewrite concat_const_length with (n := 96).
  - now rewrite map_length.
  - apply Forall_map. eapply Forall_impl; [|exact H].
    intros; now apply slot_bytes_length.
Qed.

Lemma concat_repeat_zeros : forall n k, concat (repeat (zeros n) k) = zeros (n * k).
Proof.
  intros n k; induction k; cbn [repeat concat].
  - now rewrite Nat.mul_0_r.
  - rewrite IHk, <- zeros_app. f_equal. lia.
Qed.

Lemma nonce_padding_length : forall t,
  length (nonce_padding t) = 26 - get_nonce_len (ht_algorithm t) (ht_mode t).
Proof. intros; apply zeros_length. Qed.

Lemma Forall_slot_wf_sized : forall a l, Forall (slot_wf a) l -> Forall (slot_sized a) l.
Proof. intros a l H. eapply Forall_impl; [|exact H]. now intros k [? ?]. Qed.

(** ** Serialization produces [get_size] bytes *)

Lemma serialize_ok : forall h, wf_header h ->
  exists b, serialize h = Ok b /\ length b = get_size (ht_version (h_type h))
            /\ exists rest, b = tag_bytes (h_type h) ++ rest.
Proof.
  intros h [(Hv & Hn & Hk & s & Hs & Hl) | [(Hv & Hn & k & Hk & Hsz & Hh & Hs) |
            (Hv & Hn & l & Hk & Hle & Hf)]];
    unfold serialize; rewrite Hv; unfold nonce_sized in Hn;
    destruct (nonce_len_bounds (ht_algorithm (h_type h)) (ht_mode (h_type h))) as (B1 & B2 & B3);
    destruct (nonce_len_bounds (ht_algorithm (h_type h)) MemoryMode) as (C1 & C2 & C3).
  - unfold serialize_v3. rewrite Hs. eexists; split; [reflexivity|]. split; [|eauto].
    rewrite !app_length, tag_bytes_length, nonce_padding_length, zeros_length, Hl, Hn.
    cbn [get_size]. lia.
  - unfold serialize_v4. rewrite Hk. eexists; split; [reflexivity|]. split; [|eauto].
    destruct Hsz as (E1 & E2 & E3).
    rewrite !app_length, tag_bytes_length, nonce_padding_length, zeros_length, Hn, E1, E2.
    destruct Hs as [-> | ->]; rewrite E3; cbn [get_size]; lia.
  - unfold serialize_v5. rewrite Hk.
    destruct (Nat.leb_spec (length l) 4); [|lia].
    eexists; split; [reflexivity|]. split; [|eauto].
    rewrite !app_length, tag_bytes_length, nonce_padding_length, Hn.
    rewrite slots_length by now apply Forall_slot_wf_sized.
    rewrite concat_repeat_zeros, zeros_length. cbn [get_size]. lia.
Qed.

(** ** Parsing what was serialized *)

Lemma parse_slots_zeros : forall k nl acc n r, 2 * k <= n ->
  parse_slots k nl acc (zeros n ++ r) = (Ok acc, zeros (n - 2 * k) ++ r).
Proof.
  induction k as [|k IH]; intros nl acc n r Hn.
  - cbn [parse_slots]. unfold ret. now rewrite Nat.mul_0_r, Nat.sub_0_r.
  - cbn [parse_slots].
    assert (Hz : zeros n = zeros 2 ++ zeros (n - 2))
      by (rewrite <- zeros_app; f_equal; lia).
    rewrite Hz, <- app_assoc.
    erewrite bind_ok by (apply take_app; reflexivity).
    change (bytes_eqb (firstn 1 (zeros 2)) [xdf]) with false. cbn [negb].
    rewrite IH by lia. do 3 f_equal. lia.
Qed.

Lemma parse_slots_step : forall a k iters acc r, slot_wf a k ->
  parse_slots (S iters) (get_nonce_len a MemoryMode) acc (slot_bytes a k ++ r)
  = parse_slots iters (get_nonce_len a MemoryMode) (acc ++ [k]) r.
Proof.
  intros a k iters acc r ((H1 & H2 & H3) & Hk).
  destruct (parse_slot_id_known _ Hk) as (P1 & P2 & P3).
  cbn [parse_slots]. unfold slot_bytes. rewrite keyslot_serialize_id, <- !app_assoc.
  erewrite bind_ok by (apply take_app; exact P3).
  rewrite P2. change (bytes_eqb [xdf] [xdf]) with true. cbn [negb].
  erewrite bind_ok by (apply take_app; exact H1).
  erewrite bind_ok by (apply take_app; exact H2).
  erewrite bind_ok by (apply take_app; apply zeros_length).
  erewrite bind_ok by (apply take_app; exact H3).
  erewrite bind_ok by (apply take_app; apply zeros_length).
  rewrite P1. cbn [lift_opt]. erewrite bind_ok by reflexivity.
  destruct k; reflexivity.
Qed.

Lemma parse_slots_slots : forall a l iters acc r,
  Forall (slot_wf a) l ->
  parse_slots (length l + iters) (get_nonce_len a MemoryMode) acc
    (concat (map (slot_bytes a) l) ++ r)
  = parse_slots iters (get_nonce_len a MemoryMode) (acc ++ l) r.
Proof.
  induction l as [|k l IH]; intros iters acc r H.
  - cbn. now rewrite app_nil_r.
  - inversion H; subst. cbn [length Nat.add map concat]. rewrite <- app_assoc.
    rewrite parse_slots_step by assumption. rewrite IH by assumption.
    now rewrite <- app_assoc.
Qed.

Definition reread (h : header) : header :=
  match ht_version (h_type h) with
  | V4 => mkHeader (h_type h) (h_nonce h)
            (match h_keyslots h with Some (k :: _) => Some (ks_salt k) | _ => None end)
            (h_keyslots h)
  | V5 => mkHeader (h_type h) (h_nonce h) (Some (zeros 16)) (h_keyslots h)
  | _ => h
  end.

Lemma parse_serialize : forall h b,
  wf_header h -> serialize h = Ok b ->
  exists aad, parse_header (ht_version (h_type h)) b = Ok (reread h, aad)
              /\ create_aad h = Ok aad.
Proof.
  intros h b Hwf Hs.
  assert (Htag : forall v a m rest,
    parse_header v (tag_bytes (mkHT v a m) ++ rest) =
    fst ((f <- parse_fields (mkHT v a m) ;;
          let '(salt, nonce, slots) := f in
          ret (mkHeader (mkHT v a m) nonce (Some salt) slots,
               parse_aad (mkHT v a m) (tag_bytes (mkHT v a m) ++ rest))) rest)).
  { intros v a m rest. unfold parse_header. destruct v, a, m; reflexivity. }
  destruct Hwf as [(Hv & Hn & Hk & s & Hsa & Hl) | [(Hv & Hn & k & Hk & Hsz & Hh & Hsa) |
            (Hv & Hn & l & Hk & Hle & Hf)]];
    unfold serialize in Hs; unfold create_aad, reread; rewrite Hv in *; unfold nonce_sized in Hn;
    destruct h as [[v a m] nonce salt slots]; cbn [h_type ht_version ht_algorithm ht_mode
      h_nonce h_salt h_keyslots] in *; subst v;
    destruct (nonce_len_bounds a m) as (B1 & B2 & B3);
    destruct (nonce_len_bounds a MemoryMode) as (C1 & C2 & C3).
  - subst. unfold serialize_v3 in *. cbn [h_salt h_type h_nonce] in *. apply Ok_inj in Hs; subst b.
    eexists; split; [|reflexivity]. rewrite Htag. unfold parse_fields.
    cbn [ht_version ht_algorithm ht_mode].
    unfold bind. 
    rewrite (take_app 16 s) by assumption.
    rewrite (take_app 16 (zeros 16)) by apply zeros_length.
    rewrite take_app by assumption.
    unfold nonce_padding. cbn [ht_algorithm ht_mode].
    rewrite <- (app_nil_r (zeros (26 - get_nonce_len a m))) at 1.
    rewrite take_app by apply zeros_length. reflexivity.
  - destruct Hsz as (E1 & E2 & E3).
    subst. unfold serialize_v4 in *. cbn [h_salt h_type h_nonce h_keyslots ht_algorithm] in *.
    apply Ok_inj in Hs; subst b.
    assert (Hsalt : match salt with Some s => s | None => ks_salt k end = ks_salt k)
      by (destruct Hsa as [-> | ->]; reflexivity).
    rewrite Hsalt. clear Hsalt Hsa.
    eexists; split; [|reflexivity]. rewrite Htag. unfold parse_fields.
    cbn [ht_version ht_algorithm ht_mode].
    unfold bind.
    rewrite (take_app 16 (ks_salt k)) by assumption.
    rewrite (take_app (get_nonce_len a m)) by assumption.
    unfold nonce_padding. cbn [ht_algorithm ht_mode].
    rewrite (take_app (26 - get_nonce_len a m)) by apply zeros_length.
    rewrite (take_app 48) by assumption.
    rewrite (take_app (get_nonce_len a MemoryMode)) by assumption.
    rewrite <- (app_nil_r (zeros (32 - get_nonce_len a MemoryMode))) at 1.
    rewrite take_app by apply zeros_length.
    unfold ret, fst. do 3 f_equal.
    + do 2 f_equal. destruct k as [h0 ? ? ?]; cbn in *. now subst.
    + unfold parse_aad. cbn [ht_version ht_algorithm].
      set (A := tag_bytes _). set (Z := zeros (32 - _)).
      change (A ++ ks_salt k ++ nonce ++ zeros (26 - get_nonce_len a m)
              ++ ks_enc k ++ ks_nonce k ++ Z)
        with (A ++ ks_salt k ++ nonce ++ zeros (26 - get_nonce_len a m)
              ++ ks_enc k ++ ks_nonce k ++ Z).
      assert (HA : length A = 6) by apply tag_bytes_length.
      replace (firstn 48 _) with (A ++ ks_salt k ++ nonce ++ zeros (26 - get_nonce_len a m)).
      2:{ symmetry. rewrite !app_assoc, <- (app_assoc _ (ks_enc k)), <- (app_assoc _ (ks_enc k ++ _)).
          apply firstn_app_exact. rewrite !app_length, zeros_length. lia. }
      replace (skipn _ _) with Z. { now rewrite <- !app_assoc. }
      rewrite !app_assoc. symmetry. apply skipn_app_exact.
      rewrite !app_length, zeros_length. lia.
  - subst. unfold serialize_v5 in *. cbn [h_salt h_type h_nonce h_keyslots ht_algorithm] in *.
    destruct (Nat.leb_spec (length l) 4); [|lia].
    apply Ok_inj in Hs; subst b.
    eexists; split; [|reflexivity]. rewrite Htag. unfold parse_fields.
    cbn [ht_version ht_algorithm ht_mode].
    unfold bind.
    rewrite (take_app (get_nonce_len a m)) by assumption.
    unfold nonce_padding. cbn [ht_algorithm ht_mode].
    rewrite (take_app (26 - get_nonce_len a m)) by apply zeros_length.
    replace (parse_slots 4 (get_nonce_len a MemoryMode))
      with (parse_slots (length l + (4 - length l)) (get_nonce_len a MemoryMode))
      by (f_equal; lia).
    rewrite parse_slots_slots by assumption.
    rewrite concat_repeat_zeros. rewrite <- (app_nil_r (zeros (96 * _))) at 1.
    rewrite parse_slots_zeros by lia.
    unfold ret, fst. do 3 f_equal.
    unfold parse_aad. cbn [ht_version].
    set (A := tag_bytes _).
    assert (HA : length A = 6) by apply tag_bytes_length.
    match goal with
    | |- firstn 32 (A ++ nonce ++ ?P ++ ?C) = _ =>
        replace (A ++ nonce ++ P ++ C) with ((A ++ nonce ++ P) ++ C)
          by now rewrite <- !app_assoc
    end.
    apply firstn_app_exact. rewrite !app_length, zeros_length. lia.
Qed.

(** ** Parsing arbitrary bytes *)

Lemma take_slice : forall n off full, off + n <= length full ->
  take n (skipn off full) = (Ok (slice off n full), skipn (off + n) full).
Proof.
  intros n off full H. rewrite take_ok by (rewrite skipn_length; lia).
  unfold slice. now rewrite skipn_skipn'.
Qed.

Lemma slice_length : forall off n l, off + n <= length l -> length (slice off n l) = n.
Proof. intros. unfold slice. rewrite firstn_length, skipn_length. lia. Qed.

Definition parsed (t : header_type) (full : bytes)
  : outcome hdr_error (header * bytes) :=
  let nl := get_nonce_len (ht_algorithm t) (ht_mode t) in
  let ml := get_nonce_len (ht_algorithm t) MemoryMode in
  match ht_version t with
  | V1 | V3 =>
      Ok (mkHeader t (slice 38 nl full) (Some (slice 6 16 full)) None, parse_aad t full)
  | V2 =>
      Ok (mkHeader t (slice 22 nl full) (Some (slice 6 16 full)) None, parse_aad t full)
  | V4 =>
      Ok (mkHeader t (slice 22 nl full) (Some (slice 6 16 full))
            (Some [mkSlot (Blake3Balloon 4) (slice 48 48 full) (slice 96 ml full)
                     (slice 6 16 full)]), parse_aad t full)
  | V5 =>
      match fst (parse_slots 4 ml [] (skipn 32 full)) with
      | Ok l => Ok (mkHeader t (slice 6 nl full) (Some (zeros 16)) (Some l), parse_aad t full)
      | Err e => Err e
      | Panic => Panic
      | Diverge => Diverge
      end
  end.

Lemma parse_header_eq : forall v full, length full = get_size v ->
  parse_header v full =
  match parse_algorithm (slice 2 2 full) with
  | None => Err HBadAlgorithm
  | Some a =>
      match parse_mode (slice 4 2 full) with
      | None => Err HBadMode
      | Some m => parsed (mkHT v a m) full
      end
  end.
Proof.
  intros v full Hlen. unfold parse_header, bind.
  assert (Hge : 64 <= length full) by (rewrite Hlen; destruct v; cbn; lia).
  rewrite take_slice by lia. unfold lift_opt.
  destruct (parse_algorithm (slice 2 2 full)) as [a|]; [|reflexivity].
  unfold ret at 1. cbn [Nat.add].
  rewrite take_slice by lia.
  destruct (parse_mode (slice 4 2 full)) as [m|]; [|reflexivity].
  unfold ret at 1. cbn [Nat.add].
  destruct (nonce_len_bounds a m) as (B1 & B2 & B3);
  destruct (nonce_len_bounds a MemoryMode) as (C1 & C2 & C3).
  unfold parse_fields, parsed, bind. cbn [ht_version ht_algorithm ht_mode].
  destruct v; cbn [get_size] in Hlen.
  - rewrite take_slice by lia. cbn [Nat.add].
    rewrite take_slice by lia. cbn [Nat.add].
    rewrite take_slice by lia.
    rewrite take_slice by lia. reflexivity.
  - rewrite take_slice by lia. cbn [Nat.add].
    rewrite take_slice by lia.
    rewrite take_slice by lia.
    rewrite take_slice by lia. reflexivity.
  - rewrite take_slice by lia. cbn [Nat.add].
    rewrite take_slice by lia. cbn [Nat.add].
    rewrite take_slice by lia.
    rewrite take_slice by lia. reflexivity.
  - rewrite take_slice by lia. cbn [Nat.add].
    rewrite take_slice by lia.
    rewrite take_slice by lia.
    replace (22 + get_nonce_len a m + (26 - get_nonce_len a m)) with 48 by lia.
    rewrite take_slice by lia. cbn [Nat.add].
    rewrite take_slice by lia.
    rewrite take_slice by lia. reflexivity.
  - rewrite take_slice by lia.
    rewrite take_slice by lia.
    replace (6 + get_nonce_len a m + (26 - get_nonce_len a m)) with 32 by lia.
    destruct (parse_slots 4 (get_nonce_len a MemoryMode) [] (skipn 32 full)) as [[| | |] ?];
      reflexivity.
Qed.

Lemma parse_slots_skip : forall iters nl acc x y r, x <> xdf ->
  parse_slots (S iters) nl acc (x :: y :: r) = parse_slots iters nl acc r.
Proof.
  intros iters nl acc x y r Hx. cbn [parse_slots].
  erewrite bind_ok by (apply (take_app 2 [x; y]); reflexivity).
  cbn [firstn]. assert (bytes_eqb [x] [xdf] = false) as ->.
  { apply bytes_eqb_neq. congruence. }
  reflexivity.
Qed.

Lemma parse_slots_full : forall iters a acc y r,
  94 <= length r ->
  let nl := get_nonce_len a MemoryMode in
  parse_slots (S iters) nl acc (xdf :: y :: r) =
  match parse_slot_id [xdf; y] with
  | None => (Err HBadKeyslot, skipn 94 r)
  | Some h =>
      parse_slots iters nl
        (acc ++ [mkSlot h (slice 0 48 r) (slice 48 nl r) (slice 72 16 r)])
        (skipn 94 r)
  end.
Proof.
  intros iters a acc y r Hr nl.
  destruct (nonce_len_bounds a MemoryMode) as (C1 & C2 & C3). fold nl in C1, C2, C3.
  cbn [parse_slots].
  erewrite bind_ok by (apply (take_app 2 [xdf; y]); reflexivity).
  cbn [firstn]. change (bytes_eqb [xdf] [xdf]) with true. cbn [negb].
  replace r with (skipn 0 r) at 1 by reflexivity. unfold bind.
  rewrite take_slice by lia. cbn [Nat.add].
  rewrite take_slice by lia.
  rewrite take_slice by lia.
  replace (48 + nl + (24 - nl)) with 72 by lia.
  rewrite take_slice by (unfold SALT_LEN; lia). unfold SALT_LEN. cbn [Nat.add].
  rewrite take_slice by lia. cbn [Nat.add].
  unfold lift_opt.
  destruct (parse_slot_id [xdf; y]); reflexivity.
Qed.

Lemma bytes_2 : forall (r : bytes), 2 <= length r -> exists x y r', r = x :: y :: r'.
Proof. intros [|x [|y r]] H; cbn in H; try lia. eauto. Qed.

(** Outcome of scanning the keyslot area. *)
Lemma parse_slots_total : forall iters a acc r,
  let nl := get_nonce_len a MemoryMode in
  96 * iters <= length r ->
  (exists new, fst (parse_slots iters nl acc r) = Ok (acc ++ new)
     /\ Forall (slot_wf a) new /\ length new <= iters /\ slots_readable iters r)
  \/ (fst (parse_slots iters nl acc r) = Err HBadKeyslot /\ ~ slots_readable iters r).
Proof.
  induction iters as [|iters IH]; intros a acc r nl Hr.
  - left. exists []. cbn. rewrite app_nil_r. repeat split; auto; try constructor.
  - destruct (bytes_2 r) as (x & y & r' & ->); [lia|]. cbn [length] in Hr.
    destruct (nonce_len_bounds a MemoryMode) as (C1 & C2 & C3).
    destruct (Byte.eqb x xdf) eqn:Ex.
    + apply byte_eqb_eq in Ex. subst x.
      unfold nl. rewrite parse_slots_full by lia. fold nl.
      destruct (parse_slot_id [xdf; y]) as [h|] eqn:Eh.
      * pose proof (parse_slot_id_inv _ _ Eh) as (Hk & Hid).
        assert (Hy : In y [xa1; xa2; xa3; xb4; xb5]).
        { unfold known_hash in Hk; cbn in Hk.
          repeat destruct Hk as [<-|Hk]; try contradiction; cbn in Hid;
            inversion Hid; cbn; tauto. }
        set (k := mkSlot h (slice 0 48 r') (slice 48 nl r') (slice 72 16 r')).
        assert (Hkwf : slot_wf a k).
        { split; [|exact Hk]. unfold slot_sized, k; cbn [ks_enc ks_nonce ks_salt].
          fold nl. rewrite !slice_length by (unfold nl; lia). auto. }
        destruct (IH a (acc ++ [k]) (skipn 94 r')) as [(new & N1 & N2 & N3 & N4)|(N1 & N2)].
        { rewrite skipn_length. lia. }
        -- left. exists (k :: new). fold nl in N1. rewrite N1, <- app_assoc.
           repeat split; auto; [cbn; lia|]. now constructor.
        -- right. split; [exact N1|]. intros Hs. inversion Hs; subst; auto.
      * right. split; [reflexivity|]. intros Hs. inversion Hs as [|? ? ? ? Hx|? ? ? Hy]; subst.
        -- congruence.
        -- cbn in Hy. repeat destruct Hy as [<-|Hy]; try contradiction; discriminate.
    + assert (Hx : x <> xdf).
      { intros ->. rewrite byte_eqb_refl in Ex. discriminate. }
      rewrite parse_slots_skip by assumption.
      destruct (IH a acc r') as [(new & N1 & N2 & N3 & N4)|(N1 & N2)]; [lia| |].
      * left. exists new. repeat split; auto. now constructor.
      * right. split; [assumption|]. intros Hs. inversion Hs; subst; auto.
Qed.

Lemma parse_header_total : forall v full, length full = get_size v ->
  (exists a m h,
      slice 2 4 full = [x0e; algorithm_tag a; x0c; mode_tag m]
      /\ (v = V5 -> slots_readable 4 (skipn 32 full))
      /\ parse_header v full = Ok (h, parse_aad (mkHT v a m) full)
      /\ h_type h = mkHT v a m
      /\ ((v = V3 \/ v = V4 \/ v = V5) -> wf_header h /\ reread h = h))
  \/ ((exists e, parse_header v full = Err e)
      /\ (forall a m, slice 2 4 full = [x0e; algorithm_tag a; x0c; mode_tag m] ->
            v = V5 /\ ~ slots_readable 4 (skipn 32 full))).
Proof.
  intros v full Hlen. rewrite parse_header_eq by assumption.
  assert (Hge : 64 <= length full) by (rewrite Hlen; destruct v; cbn; lia).
  assert (Hsplit : slice 2 4 full = slice 2 2 full ++ slice 4 2 full).
  { unfold slice. change 4 with (2 + 2) at 1.
    rewrite (firstn_split 2 2 (skipn 2 full)), skipn_skipn'. reflexivity. }
  assert (Hl2 : length (slice 2 2 full) = 2) by (apply slice_length; lia).
  assert (Happ : forall x y z w, slice 2 4 full = [x; y; z; w] ->
             slice 2 2 full = [x; y] /\ slice 4 2 full = [z; w]).
  { intros x y z w H. rewrite H in Hsplit.
    destruct (slice 2 2 full) as [|p [|q [|]]]; cbn in Hl2; try lia.
    cbn in Hsplit. inversion Hsplit; subst. auto. }
  destruct (parse_algorithm (slice 2 2 full)) as [a|] eqn:Ea.
  2:{ right. split; [eauto|]. intros a m H. apply Happ in H as [H _].
      rewrite H in Ea. destruct a; discriminate. }
  destruct (parse_mode (slice 4 2 full)) as [m|] eqn:Em.
  2:{ right. split; [eauto|]. intros a' m H. apply Happ in H as [_ H].
      rewrite H in Em. destruct m; discriminate. }
  apply parse_algorithm_inv in Ea. apply parse_mode_inv in Em.
  assert (H24 : slice 2 4 full = [x0e; algorithm_tag a; x0c; mode_tag m]).
  { rewrite Hsplit, Ea, Em. destruct a, m; reflexivity. }
  destruct (nonce_len_bounds a m) as (B1 & B2 & B3);
  destruct (nonce_len_bounds a MemoryMode) as (C1 & C2 & C3).
  unfold parsed; cbn [ht_version ht_algorithm ht_mode].
  destruct v; cbn [get_size] in Hlen.
  - left. exists a, m. eexists. repeat split; auto; try discriminate;
    destruct H as [|[|]]; discriminate.
  - left. exists a, m. eexists. repeat split; auto; try discriminate;
    destruct H as [|[|]]; discriminate.
  - left. exists a, m. eexists. split; [exact H24|]. split; [discriminate|].
    split; [reflexivity|]. split; [reflexivity|]. intros _. split; [|reflexivity].
    left. repeat split; cbn [h_type h_nonce ht_algorithm ht_mode].
    + unfold nonce_sized. cbn [h_type h_nonce ht_algorithm ht_mode].
      apply slice_length. lia.
    + eexists. split; [reflexivity|]. apply slice_length. lia.
  - left. exists a, m. eexists. split; [exact H24|]. split; [discriminate|].
    split; [reflexivity|]. split; [reflexivity|]. intros _. split; [|reflexivity].
    right. left. split; [reflexivity|]. split.
    + unfold nonce_sized. cbn [h_type h_nonce ht_algorithm ht_mode].
      apply slice_length. lia.
    + eexists. split; [reflexivity|]. cbn [ks_salt ks_hash h_salt].
      split; [|split; [reflexivity|now right]].
      unfold slot_sized. cbn [h_type ht_algorithm ks_enc ks_nonce ks_salt].
      rewrite !slice_length by lia. auto.
  - destruct (parse_slots_total 4 a [] (skipn 32 full)) as [(new & N1 & N2 & N3 & N4)|(N1 & N2)].
    { rewrite skipn_length. lia. }
    + left. exists a, m. rewrite N1. eexists.
      split; [exact H24|]. split; [auto|]. split; [reflexivity|]. split; [reflexivity|].
      intros _. split; [|reflexivity].
      right. right. split; [reflexivity|]. split.
      * unfold nonce_sized. cbn [h_type h_nonce ht_algorithm ht_mode].
        apply slice_length. lia.
      * exists new. repeat split; auto.
    + right. rewrite N1. split; [eauto|]. auto.
Qed.

(** ** The reader-level parser *)

Lemma parse_header_not_panic : forall v full, length full = get_size v ->
  parse_header v full <> Panic /\ parse_header v full <> Diverge.
Proof.
  intros v full H.
  destruct (parse_header_total v full H) as [(a & m & h & _ & _ & -> & _)|((e & ->) & _)];
    split; discriminate.
Qed.

(** [deserialize] on an arbitrary device: the content and log are untouched, and
    success means that the bytes at the cursor parse. *)
Lemma deserialize_spec : forall d o d', deserialize d = (o, d') ->
  d_data d' = d_data d /\ d_log d' = d_log d /\ (d_plan d = [] -> d_plan d' = [])
  /\ match o with
     | Ok (h, aad) =>
         let v := ht_version (h_type h) in
         let full := firstn (get_size v) (skipn (d_pos d) (d_data d)) in
         length full = get_size v
         /\ firstn 2 full = serialize_version v
         /\ parse_header v full = Ok (h, aad)
         /\ d_pos d' = d_pos d + get_size v
     | Err _ => True
     | _ => False
     end.
Proof.
  intros d o d' H. unfold deserialize in H.
  apply bind_inv in H as [(vb & d1 & H1 & H)|[(e & H1 & ->)|[(H1 & ->)|(H1 & ->)]]];
    apply map_err_inv in H1 as [(x & H1 & Hx)|[(e' & H1 & Hx)|[(H1 & Hx)|(H1 & Hx)]]];
    inversion Hx; subst; clear Hx;
    apply dev_read_exact_spec in H1 as (A1 & A2 & A3 & A4); try contradiction; [|auto].
  destruct A4 as (A4 & A5 & A6).
  apply bind_inv in H as [(u & d2 & H1 & H)|[(e & H1 & ->)|[(H1 & ->)|(H1 & ->)]]];
    apply map_err_inv in H1 as [(y & H1 & Hx)|[(e' & H1 & Hx)|[(H1 & Hx)|(H1 & Hx)]]];
    inversion Hx; subst; clear Hx;
    apply dev_seek_back_spec in H1 as (B1 & B2 & B3 & B4); try contradiction.
  2:{ rewrite B2, B3. repeat split; auto. intros; eapply plan_step_nil; eauto. }
  destruct B4 as (B4 & B5).
  unfold lift_opt in H.
  set (pre := firstn 2 (skipn (d_pos d) (d_data d))) in *.
  destruct (parse_version pre) as [v|] eqn:Ev.
  2:{ cbn in H. inversion H; subst. rewrite B2, B3. repeat split; auto.
      intros; eapply plan_step_nil; eauto. }
  unfold ret in H at 1. unfold bind in H at 1.
  apply bind_inv in H as [(full & d3 & H1 & H)|[(e & H1 & ->)|[(H1 & ->)|(H1 & ->)]]];
    apply map_err_inv in H1 as [(z & H1 & Hx)|[(e' & H1 & Hx)|[(H1 & Hx)|(H1 & Hx)]]];
    inversion Hx; subst; clear Hx;
    apply dev_read_exact_spec in H1 as (C1 & C2 & C3 & C4); try contradiction.
  2:{ rewrite C1, C2, B2, B3. repeat split; auto.
      intros; apply C3; eapply plan_step_nil; eauto. }
  destruct C4 as (C4 & C5 & C6).
  assert (Hpos : d_pos d2 = d_pos d) by lia.
  rewrite B2, A1, Hpos in C4. subst z.
  unfold lift in H. inversion H; subst; clear H.
  split; [congruence|]. split; [congruence|].
  split. { intros Hp. apply C3. eapply plan_step_nil; eauto. }
  rewrite B2, A1, Hpos in C5.
  set (full := firstn (get_size v) (skipn (d_pos d) (d_data d))) in *.
  assert (Hlen : length full = get_size v).
  { unfold full. rewrite firstn_length, skipn_length. lia. }
  destruct (parse_header_total v full Hlen) as [(a & m & h & P1 & P2 & P3 & P4 & P5)|((e & P1) & _)].
  - rewrite P3. rewrite P4. cbn [ht_version]. fold full.
    split; [assumption|]. split.
    { apply parse_version_inv in Ev. rewrite <- Ev. unfold full, pre.
      rewrite firstn_firstn. f_equal. destruct v; reflexivity. }
    split; [assumption|]. lia.
  - now rewrite P1.
Qed.

(** On a well-behaved device, parsing is a function of the bytes at the
    cursor. *)
Lemma deserialize_ok : forall d v full h aad,
  d_plan d = [] ->
  full = firstn (get_size v) (skipn (d_pos d) (d_data d)) ->
  length full = get_size v ->
  firstn 2 full = serialize_version v ->
  parse_header v full = Ok (h, aad) ->
  deserialize d = (Ok (h, aad), set_pos (d_pos d + get_size v) d).
Proof.
  intros d v full h aad Hp Hfull Hlen Hver Hparse.
  assert (Hroom : d_pos d + get_size v <= length (d_data d)).
  { rewrite Hfull, firstn_length, skipn_length in Hlen. destruct v; cbn [get_size] in *; lia. }
  assert (Hsz : 2 <= get_size v) by (destruct v; cbn; lia).
  unfold deserialize.
  erewrite bind_ok by (apply map_err_ok; apply dev_read_exact_ok; [assumption|lia]).
  erewrite bind_ok by (apply map_err_ok; apply dev_seek_back_ok; [exact Hp|cbn; lia]).
  assert (Hv2 : firstn 2 (skipn (d_pos d) (d_data d)) = serialize_version v).
  { rewrite <- Hver, Hfull, firstn_firstn. f_equal. lia. }
  rewrite Hv2, parse_serialize_version. cbn [lift_opt].
  erewrite bind_ok by reflexivity.
  replace (set_pos (d_pos (set_pos (d_pos d + 2) d) - 2) (set_pos (d_pos d + 2) d)) with d.
  2:{ destruct d; unfold set_pos; cbn. f_equal. lia. }
  erewrite bind_ok by (apply map_err_ok; apply dev_read_exact_ok; [assumption|lia]).
  rewrite <- Hfull. unfold lift. now rewrite Hparse.
Qed.

Lemma deserialize_fail : forall d,
  d_plan d = [] -> (forall t, ~ readable t (skipn (d_pos d) (d_data d))) ->
  exists e d', deserialize d = (Err e, d').
Proof.
  intros d Hp Hno. destruct (deserialize d) as [o d'] eqn:H.
  apply deserialize_spec in H as (A & B & C & D).
  destruct o as [[h aad]|e| |]; try contradiction; [|eauto].
  exfalso. cbv zeta in D. destruct D as (D1 & D2 & D3 & D4).
  set (v := ht_version (h_type h)) in *.
  set (l := skipn (d_pos d) (d_data d)) in *.
  destruct (parse_header_total v (firstn (get_size v) l) D1)
    as [(a & m & h' & P1 & P2 & P3 & P4 & P5)|((e & P1) & _)]; [|congruence].
  apply (Hno (mkHT v a m)). unfold readable. cbn [ht_version ht_algorithm ht_mode].
  assert (Hsz : 64 <= get_size v) by (destruct v; cbn; lia).
  assert (Hll : get_size v <= length l) by (rewrite firstn_length in D1; lia).
  split; [|split].
  - exists (skipn 6 l).
    rewrite <- (firstn_skipn 6 l) at 1. f_equal.
    replace (firstn 6 l) with (firstn 2 (firstn (get_size v) l) ++ slice 2 4 (firstn (get_size v) l)).
    + rewrite D2, P1. destruct v; reflexivity.
    + unfold slice. rewrite <- (firstn_split 2 4), firstn_firstn. f_equal. lia.
  - exact Hll.
  - intros ->. apply P2. reflexivity.
Qed.

Lemma readable_accepts : forall d t,
  d_plan d = [] -> readable t (skipn (d_pos d) (d_data d)) ->
  exists h aad, deserialize d = (Ok (h, aad), set_pos (d_pos d + get_size (ht_version t)) d)
    /\ h_type h = t.
Proof.
  intros d [v a m] Hp ((rest & Hl) & Hsz & Hs). cbn [ht_version ht_algorithm ht_mode] in *.
  set (l := skipn (d_pos d) (d_data d)) in *.
  assert (H64 : 64 <= get_size v) by (destruct v; cbn; lia).
  assert (Hlen : length (firstn (get_size v) l) = get_size v)
    by (rewrite firstn_length; lia).
  destruct (parse_header_total v (firstn (get_size v) l) Hlen)
    as [(a' & m' & h & P1 & P2 & P3 & P4 & P5)|((e & P1) & P2)].
  - assert (Htag : slice 2 4 (firstn (get_size v) l) = [x0e; algorithm_tag a; x0c; mode_tag m]).
    { unfold slice. rewrite firstn_skipn_comm, firstn_firstn. cbn [Nat.add].
      rewrite Nat.min_l by lia. rewrite Hl. reflexivity. }
    rewrite P1 in Htag. inversion Htag as [[Ha Hm]].
    assert (a' = a) by (destruct a, a'; cbn in Ha; congruence).
    assert (m' = m) by (destruct m, m'; cbn in Hm; congruence). subst a' m'.
    exists h, (parse_aad (mkHT v a m) (firstn (get_size v) l)). split; [|assumption].
    eapply deserialize_ok; eauto. fold l.
    rewrite firstn_firstn, Nat.min_l by lia. rewrite Hl. destruct v; reflexivity.
  - exfalso. destruct (P2 a m) as (-> & P3).
    { unfold slice. rewrite firstn_skipn_comm, firstn_firstn. cbn [Nat.add].
      rewrite Nat.min_l by lia. rewrite Hl. reflexivity. }
    apply P3. apply Hs. reflexivity.
Qed.
