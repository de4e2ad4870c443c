(** Crashes during the header rewrite. *)
From Coq Require Import List Arith NArith ZArith Lia Bool.
From Verif Require Import Bytes Outcome IO Primitives Crypto Header Stream KeyModel EncDec KeyOps.
From Verif Require Import BytesFacts IOSpec IOFacts HeaderSpec HeaderFacts HeaderProofs.
From Verif Require Import StreamSpec StreamFacts StreamProofs FileSpec FileFacts FileProofs.
From Verif Require Import KeySpec KeyFacts KeyProofs DecSim KeyResults.
Local Open Scope nat_scope.

(** Anything of the right length that starts with an identifier is a keyslot. *)
Lemma parse_slots_any : forall a h X iters acc r, known_hash h -> length X = 96 -> firstn 2 X = slot_id h ->
  exists k, slot_wf a k /\
  parse_slots (S iters) (get_nonce_len a MemoryMode) acc (X ++ r)
  = parse_slots iters (get_nonce_len a MemoryMode) (acc ++ [k]) r.
Proof.
  intros a h X iters acc r Hh HX Hid.
  destruct (parse_slot_id_known h Hh) as (P1 & P2 & P3).
  destruct X as [|x [|y X]]; cbn [length] in HX; try lia. cbn [firstn] in Hid.
  rewrite <- Hid in P1, P2. cbn [firstn] in P2. injection P2 as ->.
  change ((xdf :: y :: X) ++ r) with (xdf :: y :: (X ++ r)).
  pose proof (parse_slots_full iters a acc y (X ++ r)) as F. cbv zeta in F.
  rewrite F by (rewrite app_length; lia). rewrite P1.
  rewrite skipn_app_exact by lia. eexists. split; [|reflexivity].
  destruct (nonce_len_bounds a MemoryMode) as (_ & B & _).
  split; [|exact Hh]. unfold slot_sized. cbn [ks_enc ks_nonce ks_salt].
  rewrite !slice_length by (rewrite app_length; lia). auto.
Qed.

(** The keyslot area [r] has keyslots [l]. *)
Definition area_parses (a : algorithm) (r : bytes) (l : list keyslot) : Prop :=
  fst (parse_slots 4 (get_nonce_len a MemoryMode) [] r) = Ok l.

Lemma area_header : forall h slots l l' b area' data p, 
  v5_header (dev_at data p) h slots ->
  wf_v5 (with_slots h l') -> serialize (with_slots h l') = Ok b ->
  data = firstn p data ++ (head_bytes h ++ area (ht_algorithm (h_type h)) l') ++ skipn (p + 416) data ->
  length area' = 384 -> area_parses (ht_algorithm (h_type h)) area' l ->
  let data' := firstn p data ++ (head_bytes h ++ area') ++ skipn (p + 416) data in
  exists aad, create_aad h = Ok aad
    /\ deserialize (dev_at data' p) = (Ok (with_slots h l, aad), dev_at data' (p + 416)).
Proof.
  intros h slots l l' b area' data p V W S Hdata La Pa data'.
  pose proof (v5_room _ _ _ V) as Hr. cbn [dev_at d_pos d_data] in Hr.
  destruct (serialize_layout _ _ _ W S) as (Hb & Hh).
  destruct (parse_serialize (with_slots h l') b) as (aad & P & A); [right; right; exact W|exact S|].
  assert (Ha : create_aad h = Ok aad).
  { destruct V as (V & _). unfold create_aad, with_slots in *. cbn [h_type h_keyslots h_nonce] in A.
    rewrite V in *. exact A. }
  exists aad. split; [exact Ha|].
  pose proof V as (V5' & K & aad0 & d0 & D0).
  assert (Lp : length (firstn p data) = p) by (rewrite firstn_length; lia).
  assert (Hf : firstn 416 (skipn p data') = head_bytes h ++ area').
  { unfold data'. rewrite skipn_app_exact by lia. apply firstn_app_exact. rewrite app_length. lia. }
  rewrite (deserialize_ok (dev_at data' p) V5 (head_bytes h ++ area') (with_slots h l) aad eq_refl).
  - reflexivity.
  - cbn [get_size dev_at d_pos d_data]. now rewrite Hf.
  - rewrite app_length, La, Hh. reflexivity.
  - unfold head_bytes. rewrite <- !app_assoc. unfold tag_bytes. rewrite V5'. reflexivity.
  - assert (V5w : ht_version (h_type (with_slots h l')) = V5) by exact V5'. rewrite V5w in P.
    assert (Lb : length b = 416).
    { destruct (serialize_ok (with_slots h l') (or_intror (or_intror W))) as (b' & S' & L' & _).
      rewrite S in S'. apply Ok_inj in S'. subst b'. now rewrite V5w in L'. }
    rewrite parse_header_eq in P by exact Lb.
    rewrite parse_header_eq by (rewrite app_length, La, Hh; reflexivity).
    assert (Sl : forall o n, o + n <= 32 -> slice o n (head_bytes h ++ area') = slice o n b).
    { intros o n Hon. rewrite <- (slice_firstn o n 32 (head_bytes h ++ area')) by lia.
      rewrite <- (slice_firstn o n 32 b) by lia. rewrite Hb.
      rewrite !firstn_app_exact by lia. reflexivity. }
    rewrite !Sl by lia.
    destruct (parse_algorithm (slice 2 2 b)) as [pa|] eqn:Pal; [|discriminate P].
    destruct (parse_mode (slice 4 2 b)) as [pm|] eqn:Pm; [|discriminate P].
    unfold parsed in *. cbn [ht_version ht_algorithm ht_mode] in *.
    destruct (fst (parse_slots 4 _ [] (skipn 32 b))) as [lb| | |]; try discriminate P.
    apply Ok_inj in P.
    assert (Ht : mkHT V5 pa pm = h_type h).
    { apply (f_equal (fun x => h_type (fst x))) in P. cbn [fst h_type] in P. rewrite P, reread_type. reflexivity. }
    assert (Hpa : pa = ht_algorithm (h_type h)) by (now rewrite <- Ht).
    unfold area_parses in Pa. rewrite <- Hpa in Pa.
    rewrite skipn_app_exact by lia. rewrite Pa.
    assert (Hn : h_nonce h = slice 6 (get_nonce_len pa pm) b).
    { apply (f_equal (fun x => h_nonce (fst x))) in P. cbn [fst h_nonce] in P. rewrite P, reread_nonce. reflexivity. }
    rewrite Ht in *. f_equal. f_equal.
    + assert (Hnl : get_nonce_len pa pm <= 24) by apply nonce_len_bounds.
      rewrite Sl by lia. rewrite <- Hn.
      pose proof (v5_header_wf _ _ _ V) as (_ & R). unfold reread in R. rewrite V5' in R.
      unfold with_slots. f_equal. rewrite <- R. reflexivity.
    + apply (f_equal snd) in P. cbn [snd] in P. rewrite <- P. unfold parse_aad. rewrite V5'.
      rewrite Hb. rewrite !firstn_app_exact by lia. reflexivity.
Qed.

Lemma slots_then : forall a l r m acc, Forall (slot_wf a) l -> length l <= m ->
  parse_slots m (get_nonce_len a MemoryMode) acc (concat (map (slot_bytes a) l) ++ r)
  = parse_slots (m - length l) (get_nonce_len a MemoryMode) (acc ++ l) r.
Proof.
  intros a l r m acc W L. replace m with (length l + (m - length l)) at 1 by lia. now apply parse_slots_slots.
Qed.

Lemma zeros_then : forall a m acc n, 2 * m <= n ->
  fst (parse_slots m (get_nonce_len a MemoryMode) acc (zeros n)) = Ok acc.
Proof.
  intros a m acc n H. pose proof (parse_slots_zeros m (get_nonce_len a MemoryMode) acc n [] H) as P.
  rewrite app_nil_r in P. now rewrite P.
Qed.

Lemma slot_bytes_id : forall a k, slot_wf a k ->
  length (slot_bytes a k) = 96 /\ firstn 2 (slot_bytes a k) = slot_id (ks_hash k).
Proof.
  intros a k (S & _). split; [now apply slot_bytes_length|]. unfold slot_bytes.
  rewrite keyslot_serialize_id. rewrite firstn_app_exact; [reflexivity|]. now rewrite slot_id_length.
Qed.

Lemma mixed_id : forall a k0 k1 m, slot_wf a k0 -> slot_wf a k1 -> m <= 96 ->
  let X := firstn m (slot_bytes a k1) ++ skipn m (slot_bytes a k0) in
  length X = 96 /\ exists h, known_hash h /\ firstn 2 X = slot_id h.
Proof.
  intros a k0 k1 m W0 W1 Hm X. destruct (slot_bytes_id _ _ W0) as (L0 & I0), (slot_bytes_id _ _ W1) as (L1 & I1).
  split; [unfold X; rewrite app_length, firstn_length, skipn_length; lia|].
  destruct (parse_slot_id_known _ (proj2 W0)) as (_ & Q0 & _), (parse_slot_id_known _ (proj2 W1)) as (_ & Q1 & _).
  destruct m as [|[|m]].
  - exists (ks_hash k0). split; [apply W0|]. exact I0.
  - exists (ks_hash k0). split; [apply W0|]. unfold X. rewrite <- I0.
    rewrite <- I0 in Q0. rewrite <- I1 in Q1.
    destruct (slot_bytes a k0) as [|x0 [|y0 s0]]; cbn [length] in L0; try lia.
    destruct (slot_bytes a k1) as [|x1 s1]; cbn [length] in L1; try lia.
    cbn [firstn skipn app] in *. destruct s1; cbn [firstn] in Q1; congruence.
  - exists (ks_hash k1). split; [apply W1|]. unfold X. rewrite <- I1.
    rewrite firstn_app. rewrite firstn_firstn, Nat.min_l by lia.
    rewrite firstn_length, Nat.min_l by lia. cbn [Nat.sub]. now rewrite app_nil_r.
Qed.

Lemma firstn_slot : forall a k m, slot_wf a k -> 2 <= m <= 96 ->
  let X := firstn m (slot_bytes a k) ++ zeros (96 - m) in
  length X = 96 /\ exists h, known_hash h /\ firstn 2 X = slot_id h.
Proof.
  intros a k m W Hm X. destruct (slot_bytes_id _ _ W) as (L & I).
  split; [unfold X; rewrite app_length, firstn_length, zeros_length; lia|].
  exists (ks_hash k). split; [apply W|]. unfold X. rewrite <- I.
  rewrite firstn_app. rewrite firstn_firstn, Nat.min_l by lia.
  rewrite firstn_length, Nat.min_l by lia. replace (2 - m) with 0 by lia. cbn [firstn]. now rewrite app_nil_r.
Qed.

(** Mixing two texts that agree at the start. *)
Definition mix {A} (n : nat) (new old : list A) : list A := firstn n new ++ skipn n old.

Lemma mix_app_l : forall {A} n (x new old : list A), n <= length x -> mix n (x ++ new) (x ++ old) = x ++ old.
Proof.
  intros A n x new old H. unfold mix. rewrite firstn_app, skipn_app. replace (n - length x) with 0 by lia.
  cbn [firstn skipn]. rewrite app_nil_r, app_assoc, firstn_skipn. reflexivity.
Qed.
Lemma mix_app_r : forall {A} n (x new old : list A), length x <= n ->
  mix n (x ++ new) (x ++ old) = x ++ mix (n - length x) new old.
Proof.
  intros A n x new old H. unfold mix. rewrite firstn_app, skipn_app.
  rewrite firstn_all2 by lia. rewrite (skipn_all2 x) by lia. now rewrite <- app_assoc.
Qed.
Lemma mix_mid : forall {A} n (x y r s : list A), length x = length y -> n <= length x ->
  mix n (x ++ r) (y ++ s) = mix n x y ++ s.
Proof.
  intros A n x y r s L H. unfold mix. rewrite firstn_app, skipn_app.
  replace (n - length x) with 0 by lia. replace (n - length y) with 0 by lia.
  cbn [firstn skipn]. rewrite app_nil_r. now rewrite app_assoc.
Qed.
Lemma mix_past : forall {A} n (x y r s : list A), length x = length y -> length x <= n ->
  mix n (x ++ r) (y ++ s) = x ++ mix (n - length x) r s.
Proof.
  intros A n x y r s L H. unfold mix. rewrite firstn_app, skipn_app.
  rewrite firstn_all2 by lia. rewrite (skipn_all2 y) by lia. rewrite <- app_assoc. cbn [app]. now rewrite L.
Qed.
Lemma mix_same : forall {A} n (x : list A), mix n x x = x.
Proof. intros. apply firstn_skipn. Qed.
Lemma mix_length : forall {A} n (x y : list A), length x = length y -> length (mix n x y) = length y.
Proof. intros A n x y L. unfold mix. rewrite app_length, firstn_length, skipn_length. lia. Qed.

(** *** Change *)
Lemma change_area : forall a l1 k0 k l2 n,
  Forall (slot_wf a) (l1 ++ k0 :: l2) -> slot_wf a k -> length (l1 ++ k0 :: l2) <= 4 ->
  exists l, area_parses a (mix n (area a (l1 ++ k :: l2)) (area a (l1 ++ k0 :: l2))) l
    /\ forall x, In x (l1 ++ l2) -> In x l.
Proof.
  intros a l1 k0 k l2 n W Wk L. apply Forall_app in W as (W1 & W2). inversion W2 as [|? ? Wk0 W3]; subst.
  pose proof L as L'. rewrite app_length in L'. cbn [length] in L'.
  rewrite !area_app by (rewrite app_length; cbn [length]; lia). cbn [map concat length]. rewrite <- !app_assoc.
  set (Z := zeros _). set (A1 := concat (map (slot_bytes a) l1)). set (A2 := concat (map (slot_bytes a) l2)).
  assert (LA1 : length A1 = 96 * length l1) by (apply slots_length, Forall_slot_wf_sized, W1).
  destruct (slot_bytes_id _ _ Wk0) as (Lk0 & _), (slot_bytes_id _ _ Wk) as (Lk & _).
  assert (Z4 : 2 * (4 - length l1 - S (length l2)) <= 96 * (4 - length l1 - S (length l2))) by lia.
  assert (G : forall X h, length X = 96 -> known_hash h -> firstn 2 X = slot_id h ->
    exists l, area_parses a (A1 ++ X ++ A2 ++ Z) l /\ forall x, In x (l1 ++ l2) -> In x l).
  { intros X h LX Kh IX. unfold area_parses, A1. rewrite slots_then by (try assumption; lia).
    replace (4 - length l1) with (S (3 - length l1)) by lia.
    destruct (parse_slots_any a h X (3 - length l1) ([] ++ l1) (A2 ++ Z) Kh LX IX) as (kx & _ & ->).
    unfold A2. rewrite slots_then by (try assumption; lia).
    replace (3 - length l1 - length l2) with (4 - length l1 - S (length l2)) by lia.
    unfold Z. rewrite zeros_then by lia. eexists. split; [reflexivity|].
    intros x Hx. cbn [app]. rewrite !in_app_iff in *. tauto. }
  destruct (le_lt_dec n (length A1)) as [H1|H1].
  - rewrite mix_app_l by exact H1. apply (G (slot_bytes a k0) (ks_hash k0)); [exact Lk0|apply Wk0|].
    now apply slot_bytes_id.
  - rewrite mix_app_r by lia. destruct (le_lt_dec (n - length A1) 96) as [H2|H2].
    + rewrite mix_mid by lia. destruct (mixed_id a k0 k (n - length A1) Wk0 Wk H2) as (LX & h & Kh & IX).
      apply (G _ h LX Kh IX).
    + rewrite mix_past by lia. rewrite mix_same. apply (G (slot_bytes a k) (ks_hash k)); [exact Lk|apply Wk|].
      now apply slot_bytes_id.
Qed.

(** *** Add *)
Lemma add_area : forall a l1 k n,
  Forall (slot_wf a) l1 -> slot_wf a k -> length l1 < 4 -> n <> 96 * length l1 + 1 ->
  exists l, area_parses a (mix n (area a (l1 ++ [k])) (area a l1)) l /\ forall x, In x l1 -> In x l.
Proof.
  intros a l1 k n W1 Wk L Hn.
  rewrite !area_app by (rewrite app_length; cbn [length]; lia). unfold area. cbn [map concat length].
  rewrite app_nil_r.
  replace (96 * (4 - length l1)) with (96 + 96 * (4 - length l1 - 1)) by lia. rewrite zeros_app.
  set (Z := zeros (96 * (4 - length l1 - 1))). set (A1 := concat (map (slot_bytes a) l1)).
  assert (LA1 : length A1 = 96 * length l1) by (apply slots_length, Forall_slot_wf_sized, W1).
  destruct (slot_bytes_id _ _ Wk) as (Lk & Ik).
  assert (G0 : exists l, area_parses a (A1 ++ zeros 96 ++ Z) l /\ forall x, In x l1 -> In x l).
  { unfold area_parses, A1. rewrite slots_then by (try assumption; lia). unfold Z. rewrite <- zeros_app.
    rewrite zeros_then by lia. eexists. split; [reflexivity|]. auto. }
  assert (G : forall X h, length X = 96 -> known_hash h -> firstn 2 X = slot_id h ->
    exists l, area_parses a (A1 ++ X ++ Z) l /\ forall x, In x l1 -> In x l).
  { intros X h LX Kh IX. unfold area_parses, A1. rewrite slots_then by (try assumption; lia).
    replace (4 - length l1) with (S (3 - length l1)) by lia.
    destruct (parse_slots_any a h X (3 - length l1) ([] ++ l1) Z Kh LX IX) as (kx & _ & ->).
    unfold Z. rewrite zeros_then by lia. eexists. split; [reflexivity|].
    intros x Hx. cbn [app]. rewrite in_app_iff. tauto. }
  destruct (le_lt_dec n (length A1)) as [H1|H1].
  - rewrite mix_app_l by exact H1. exact G0.
  - rewrite mix_app_r by lia. destruct (le_lt_dec (n - length A1) 96) as [H2|H2].
    + rewrite mix_mid by (rewrite ?zeros_length; lia).
      destruct (firstn_slot a k (n - length A1) Wk ltac:(lia)) as (LX & h & Kh & IX).
      unfold mix. replace (skipn (n - length A1) (zeros 96)) with (zeros (96 - (n - length A1)))
        by (symmetry; apply skipn_repeat).
      apply (G _ h LX Kh IX).
    + rewrite mix_past by (rewrite ?zeros_length; lia). rewrite mix_same.
      apply (G (slot_bytes a k) (ks_hash k) Lk (proj2 Wk) Ik).
Qed.

(** *** Delete *)
Lemma parse_slots_acc : forall m a acc r l, fst (parse_slots m (get_nonce_len a MemoryMode) acc r) = Ok l ->
  96 * m <= length r -> exists new, l = acc ++ new.
Proof.
  intros m a acc r l H L. destruct (parse_slots_total m a acc r L) as [(new & P & _)|(P & _)]; cbv zeta in P; rewrite P in H.
  - apply Ok_inj in H. eauto.
  - discriminate H.
Qed.

(** Old keyslots [k0 :: l2] being overwritten by [l2] and zeros. *)
Lemma delete_rest : forall a c l2 k0 m acc n,
  Forall (slot_wf a) (k0 :: l2) -> c = length l2 -> S c <= m -> m <= 4 ->
  ~ (96 * c < n <= 96 * c + 2 * (m - 1 - c)) ->
  let z := zeros (96 * (m - S c)) in
  exists l, fst (parse_slots m (get_nonce_len a MemoryMode) acc
       (mix n (concat (map (slot_bytes a) l2) ++ zeros 96 ++ z)
              (slot_bytes a k0 ++ concat (map (slot_bytes a) l2) ++ z))) = Ok l
    /\ forall x, In x (acc ++ l2) -> In x l.
Proof.
  intros a c l2. revert c. induction l2 as [|k1 l2 IH]; intros c k0 m acc n W Hc Hm Hm4 Hn z.
  - cbn [length] in Hc. subst c. cbn [map concat app]. inversion W as [|? ? Wk _]; subst.
    destruct (slot_bytes_id _ _ Wk) as (Lk & Ik).
    destruct (le_lt_dec n 96) as [H1|H1].
    + rewrite mix_mid by (rewrite ?zeros_length; lia).
      destruct n as [|n].
      * unfold mix. cbn [firstn skipn app]. destruct m as [|m]; [lia|].
        destruct (parse_slots_any a (ks_hash k0) (slot_bytes a k0) m acc z (proj2 Wk) Lk Ik) as (kx & _ & ->).
        unfold z. rewrite zeros_then by lia. eexists. split; [reflexivity|].
        intros x Hx. rewrite app_nil_r in Hx. apply in_or_app. now left.
      * unfold mix. replace (firstn (S n) (zeros 96)) with (zeros (S n))
          by (unfold zeros; rewrite firstn_repeat, Nat.min_l by lia; reflexivity).
        destruct (le_lt_dec (2 * m) (S n)) as [H2|H2].
        -- rewrite <- app_assoc. rewrite parse_slots_zeros by lia. cbn [fst].
           eexists. split; [reflexivity|]. intros x Hx. now rewrite app_nil_r in Hx.
        -- (* only the last pair is cut *)
           assert (S n = 2 * m - 1) as Hc by lia.
           destruct m as [|m]; [lia|].
           replace (S n) with (2 * m + 1) by lia. rewrite zeros_app, <- !app_assoc.
           assert (E0 : exists y t, skipn (2 * m + 1) (slot_bytes a k0) = y :: t).
           { destruct (skipn (2 * m + 1) (slot_bytes a k0)) as [|y t] eqn:Es; [|eauto].
             apply (f_equal (@length byte)) in Es. rewrite skipn_length, Lk in Es. cbn [length] in Es. lia. }
           destruct E0 as (y & t & ->).
           replace (S m) with (m + 1) by lia.
           assert (P : forall r ac, parse_slots (m + 1) (get_nonce_len a MemoryMode) ac (zeros (2 * m) ++ r)
                       = parse_slots 1 (get_nonce_len a MemoryMode) ac r).
           { clear. induction m as [|m IHm]; intros r ac; [reflexivity|].
             replace (2 * S m) with (S (S (2 * m))) by lia.
             change (zeros (S (S (2 * m))) ++ r) with (x00 :: x00 :: zeros (2 * m) ++ r).
             change (S m + 1) with (S (m + 1)). rewrite parse_slots_skip by discriminate. apply IHm. }
           rewrite P. change (zeros 1 ++ (y :: t) ++ z) with (x00 :: y :: (t ++ z)).
           rewrite parse_slots_skip by discriminate. cbn [parse_slots]. eexists. split; [reflexivity|].
           intros x Hx. now rewrite app_nil_r in Hx.
    + rewrite mix_past by (rewrite ?zeros_length; lia). rewrite mix_same.
      unfold z. rewrite <- zeros_app. rewrite zeros_then by lia. eexists. split; [reflexivity|].
      intros x Hx. now rewrite app_nil_r in Hx.
  - cbn [length] in Hc. cbn [map concat]. inversion W as [|? ? Wk0 W']; subst.
    inversion W' as [|? ? Wk1 W2]; subst.
    destruct (slot_bytes_id _ _ Wk0) as (Lk0 & Ik0), (slot_bytes_id _ _ Wk1) as (Lk1 & Ik1).
    destruct m as [|m]; [lia|]. rewrite <- !app_assoc.
    destruct (le_lt_dec n 96) as [H1|H1].
    + rewrite mix_mid by lia. unfold mix. destruct (mixed_id a k0 k1 n Wk0 Wk1 H1) as (LX & h & Kh & IX).
      destruct (parse_slots_any a h _ m acc (slot_bytes a k1 ++ concat (map (slot_bytes a) l2) ++ z) Kh LX IX)
        as (kx & _ & ->).
      change (slot_bytes a k1 ++ concat (map (slot_bytes a) l2) ++ z)
        with (slot_bytes a k1 ++ (concat (map (slot_bytes a) l2) ++ z)).
      rewrite app_assoc. change (slot_bytes a k1 ++ concat (map (slot_bytes a) l2)) with (concat (map (slot_bytes a) (k1 :: l2))).
      rewrite slots_then by (try assumption; cbn [length]; lia).
      unfold z. rewrite zeros_then by (cbn [length]; lia). eexists. split; [reflexivity|].
      intros x Hx. rewrite !in_app_iff in *. tauto.
    + rewrite mix_past by lia.
      pose proof (parse_slots_step a k1 m acc
        (mix (n - length (slot_bytes a k1)) (concat (map (slot_bytes a) l2) ++ zeros 96 ++ z)
             (slot_bytes a k1 ++ concat (map (slot_bytes a) l2) ++ z)) Wk1) as Hstep.
      rewrite Hstep. rewrite Lk1.
      destruct (IH (length l2) k1 m (acc ++ [k1]) (n - 96) W' eq_refl ltac:(lia) ltac:(lia)) as (l & Hl & Hin).
      { lia. }
      replace (m - S (length l2)) with (S m - S (S (length l2))) in Hl by lia.
      exists l. split; [exact Hl|]. intros x Hx'. apply Hin. rewrite !in_app_iff in *. cbn [In] in *. tauto.
Qed.

Lemma delete_area : forall a l1 k0 l2 n, let c := length (l1 ++ k0 :: l2) in
  Forall (slot_wf a) (l1 ++ k0 :: l2) -> c <= 4 ->
  ~ (96 * (c - 1) < n <= 96 * (c - 1) + 2 * (4 - c)) ->
  exists l, area_parses a (mix n (area a (l1 ++ l2)) (area a (l1 ++ k0 :: l2))) l
    /\ forall x, In x (l1 ++ l2) -> In x l.
Proof.
  intros a l1 k0 l2 n c W L Hn. unfold c in *. clear c. pose proof L as L'. rewrite app_length in *. cbn [length] in *.
  apply Forall_app in W as (W1 & W2). inversion W2 as [|? ? Wk0 W3]; subst.
  rewrite !area_app by (rewrite app_length; cbn [length]; lia). cbn [map concat length].
  replace (96 * (4 - length l1 - length l2)) with (96 + 96 * (4 - length l1 - S (length l2))) by lia.
  rewrite zeros_app, <- !app_assoc.
  set (A1 := concat (map (slot_bytes a) l1)).
  assert (LA1 : length A1 = 96 * length l1) by (apply slots_length, Forall_slot_wf_sized, W1).
  destruct (le_lt_dec n (length A1)) as [H1|H1].
  - rewrite mix_app_l by exact H1.
    exists (l1 ++ k0 :: l2). split; [|intros x Hx; rewrite in_app_iff in *; cbn [In]; tauto].
    unfold area_parses, A1. rewrite slots_then by (try assumption; lia).
    change (slot_bytes a k0 ++ concat (map (slot_bytes a) l2) ++ zeros (96 * (4 - length l1 - S (length l2))))
      with (slot_bytes a k0 ++ (concat (map (slot_bytes a) l2) ++ zeros (96 * (4 - length l1 - S (length l2))))).
    rewrite app_assoc. change (slot_bytes a k0 ++ concat (map (slot_bytes a) l2)) with (concat (map (slot_bytes a) (k0 :: l2))).
    rewrite slots_then by (try assumption; cbn [length]; lia). rewrite zeros_then by (cbn [length]; lia). reflexivity.
  - rewrite mix_app_r by lia.
    destruct (delete_rest a (length l2) l2 k0 (4 - length l1) ([] ++ l1) (n - length A1) W2 eq_refl) as (l & Hl & Hin); try lia.
    exists l. split; [|exact Hin]. unfold area_parses, A1. rewrite slots_then by (try assumption; lia). exact Hl.
Qed.

Definition keyslot_eq_dec : forall x y : keyslot, {x = y} + {x <> y}.
Proof.
  intros [h e n s] [h' e' n' s'].
  assert (D : {h = h'} + {h <> h'}) by (destruct h as [z|z], h' as [z'|z']; try (right; discriminate);
    (destruct (Z.eq_dec z z') as [->|N]; [left; reflexivity|right; congruence])).
  destruct D as [->|]; [|right; congruence]. destruct (bytes_eq_dec e e') as [->|]; [|right; congruence].
  destruct (bytes_eq_dec n n') as [->|]; [|right; congruence].
  destruct (bytes_eq_dec s s') as [->|]; [left; reflexivity|right; congruence].
Defined.

Lemma area_self : forall a l, Forall (slot_wf a) l -> length l <= 4 -> area_parses a (area a l) l.
Proof.
  intros a l W L. unfold area_parses, area. rewrite slots_then by assumption. rewrite zeros_then by lia. reflexivity.
Qed.

(** *** The file *)
Lemma area_length : forall a l, Forall (slot_wf a) l -> length l <= 4 -> length (area a l) = 384.
Proof.
  intros a l W L. unfold area. rewrite app_length, slots_length by (now apply Forall_slot_wf_sized). rewrite zeros_length. lia.
Qed.

Lemma torn_layout : forall p n data h A A', length (firstn p data) = p -> length (head_bytes h) = 32 -> length A = 384 ->
  length A' = 384 -> n <= 416 ->
  torn p n (firstn p data ++ (head_bytes h ++ A) ++ skipn (p + 416) data)
           (firstn p data ++ (head_bytes h ++ A') ++ skipn (p + 416) data)
  = firstn p data ++ (head_bytes h ++ mix (n - 32) A' A) ++ skipn (p + 416) data.
Proof.
  intros p n data h A A' Lp Lh LA LA' Hn. unfold torn.
  change (firstn (p + n) ?x ++ skipn (p + n) ?y) with (mix (p + n) x y).
  rewrite mix_app_r by lia. f_equal. rewrite Lp. replace (p + n - p) with n by lia.
  rewrite mix_mid by (rewrite !app_length; lia). f_equal.
  destruct (le_lt_dec n 32).
  - rewrite mix_app_l by lia. f_equal. replace (n - 32) with 0 by lia. reflexivity.
  - rewrite mix_app_r by lia. now rewrite Lh.
Qed.

Lemma crash_holds : forall E op w w' n, env_ok E -> not_verify op -> no_short (d_plan (w_in w)) ->
  run_op E op w = (Ok tt, w') -> n <= 416 ->
  let p := d_pos (w_in w) in
  let data := d_data (w_in w) in
  let data' := d_data (w_in w') in
  exists h slots slots',
    let a := ht_algorithm (h_type h) in
    v5_header (w_in w) h slots /\ v5_header (dev_at data' p) (with_slots h slots') slots'
    /\ (canonical_at data p h -> ~ bad_cut op (length slots) n ->
        exists slotsn,
          v5_header (dev_at (torn p n data data') p) (with_slots h slotsn) slotsn
          /\ same_outside p 416 data (torn p n data data')
          /\ (forall k, In k slots -> In k slots' -> In k slotsn)
          /\ forall pw i mk, first_open E a pw slots i mk ->
               (exists k, In k slots /\ In k slots' /\ slot_opens E a pw k mk) ->
               (forall k m, In k slotsn -> slot_opens E a pw k m -> m = mk) ->
               same_decryption E pw (dev_at data p) pw (dev_at (torn p n data data') p)).
Proof.
  intros E op w w' n HE Hnv Hp H Hn p data data'.
  destruct (op_written E op w w' HE Hnv Hp H)
    as (h & slots & i & key & mk & k & nw & b & aad & P & L & Md & W & S & Lb & D & _ & O & A & Ds & V' & Tr).
  destruct P as (V & F & Z & P4 & P5).
  exists h, slots, (edited op i nw slots). cbv zeta.
  split; [exact V|]. split; [exact V'|]. intros Hc Hb.
  pose proof (canonical_layout _ _ _ V Hc) as C1.
  pose proof (written_layout _ _ _ _ _ V W S Lb) as C2. rewrite <- D in C2.
  pose proof (v5_header_slots _ _ _ V) as (H4 & Hs).
  pose proof (v5_header_slots _ _ _ V') as (H4' & Hs'). cbn [with_slots h_type] in Hs'.
  destruct (serialize_layout _ _ _ W S) as (_ & Hh).
  pose proof (v5_room _ _ _ V) as Hr. fold data p in C1, C2, Hr. fold data' in C2.
  set (a := ht_algorithm (h_type h)) in *.
  pose proof (area_length _ _ Hs H4) as La. pose proof (area_length _ _ Hs' H4') as La'.
  assert (Lp : length (firstn p data) = p) by (rewrite firstn_length; lia).
  assert (G : exists l, area_parses a (mix (n - 32) (area a (edited op i nw slots)) (area a slots)) l
              /\ forall x, In x slots -> In x (edited op i nw slots) -> In x l).
  { destruct F as (Hnth & _). destruct (nth_split _ _ _ Hnth) as (Hsp & Hi).
    destruct op as [old new ha|old new ha|old|pw]; [| | |contradiction]; cbn [edited bad_cut] in *.
    - specialize (P4 _ _ _ eq_refl). apply Forall_app in Hs' as (_ & Hk). inversion Hk as [|? ? Hk1 _]; subst.
      destruct (add_area a slots nw (n - 32) Hs Hk1 P4) as (l & Pl & Il).
      { lia. }
      exists l. split; [exact Pl|]. auto.
    - apply Forall_app in Hs' as (_ & Hk). inversion Hk as [|? ? Hk1 _]; subst.
      set (l1 := firstn i slots) in *. set (l2 := skipn (Datatypes.S i) slots) in *. clearbody l1 l2. subst slots.
      destruct (keyslot_eq_dec k nw) as [->|Hne].
      + exists (l1 ++ nw :: l2). rewrite mix_same. split; [|auto].
        apply area_self; assumption.
      + destruct (change_area a l1 k nw l2 (n - 32) Hs Hk1 H4) as (l & Pl & Il).
        exists l. split; [exact Pl|]. intros x X1 X2. apply Il.
        rewrite in_app_iff in *. cbn [In] in *.
        destruct X1 as [X1|[X1|X1]]; auto. destruct X2 as [X2|[X2|X2]]; auto. congruence.
    - set (l1 := firstn i slots) in *. set (l2 := skipn (Datatypes.S i) slots) in *. clearbody l1 l2. subst slots.
      destruct (delete_area a l1 k l2 (n - 32) Hs H4) as (l & Pl & Il).
      { intros X. apply Hb. lia. }
      exists l. split; [exact Pl|]. auto. }
  destruct G as (l & Pl & Il). exists l.
  assert (Ht : torn p n data data'
               = firstn p data ++ (head_bytes h ++ mix (n - 32) (area a (edited op i nw slots)) (area a slots))
                 ++ skipn (p + 416) data).
  { rewrite C2. rewrite C1 at 1. apply torn_layout; assumption. }
  assert (Lm : length (mix (n - 32) (area a (edited op i nw slots)) (area a slots)) = 384)
    by (rewrite mix_length; congruence).
  pose proof (v5_header_wf _ _ _ V) as (Wh & _). pose proof V as (V5' & K & _).
  destruct (serialize_ok h (or_intror (or_intror Wh))) as (b0 & S0 & _).
  rewrite <- (with_slots_self h slots K) in Wh, S0.
  destruct (area_header h slots l slots b0 _ data p (v5_header_calm _ _ _ V) Wh S0 C1 Lm Pl) as (aad' & A' & Dt).
  rewrite <- Ht in Dt. rewrite A in A'. apply Ok_inj in A'. subst aad'.
  assert (So : same_outside p 416 data (torn p n data data')).
  { rewrite Ht. unfold same_outside. rewrite !app_length, Lp, Hh, Lm, skipn_length. split; [lia|].
    split; [apply firstn_app_exact; lia|]. rewrite app_assoc. apply skipn_app_exact.
    rewrite !app_length. lia. }
  split.
  { split; [exact V5'|]. split; [reflexivity|]. eauto. }
  split; [exact So|]. split; [exact Il|].
  intros pw j m Fj (kc & K1 & K2 & K3) Hall.
  assert (Hpad : padding_zero data p h).
  { destruct Hc as (_ & Hpz & _). fold data p in Hpz. unfold padding_zero. cbv zeta.
    unfold slice in *. rewrite skipn_firstn_comm, firstn_firstn, skipn_skipn' in Hpz.
    rewrite Nat.min_l in Hpz by (destruct (nonce_len_bounds (ht_algorithm (h_type h)) (ht_mode (h_type h))) as (_ & B & _); lia).
    replace (p + 6 + get_nonce_len (ht_algorithm (h_type h)) (ht_mode (h_type h)))
      with (p + (6 + get_nonce_len (ht_algorithm (h_type h)) (ht_mode (h_type h)))) by lia. exact Hpz. }
  destruct (first_open_all E a pw l m kc) as (jn & Fn); auto.
  eapply (op_same_dec E (w_in w)); eauto.
Qed.
