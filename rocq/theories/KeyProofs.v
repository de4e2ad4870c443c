(** Proofs about the key operations. *)
From Coq Require Import List Arith NArith ZArith Lia Bool.
From Verif Require Import Bytes Outcome IO Primitives Crypto Header Stream KeyModel EncDec KeyOps.
From Verif Require Import BytesFacts IOSpec IOFacts HeaderSpec HeaderFacts HeaderProofs.
From Verif Require Import StreamSpec StreamFacts StreamProofs FileSpec FileFacts FileProofs.
From Verif Require Import KeySpec KeyFacts.
Local Open Scope nat_scope.

(** ** What an operation does *)

Lemma wf_v5_slots : forall h slots, wf_v5 h -> length slots <= 4 ->
  Forall (slot_wf (ht_algorithm (h_type h))) slots -> wf_v5 (with_slots h slots).
Proof.
  intros h slots (A & B & _) H1 H2. unfold wf_v5, nonce_sized, with_slots in *.
  cbn [h_type h_nonce h_keyslots]. parts; auto. eauto.
Qed.

Lemma rewrite_header_spec : forall h slots w o w',
  wf_v5 (with_slots h slots) -> rewrite_header h slots w = (o, w') ->
  w_out w' = w_out w /\ w_hdr w' = w_hdr w /\ w_tr w' = w_tr w
  /\ plan_suffix (w_in w) (w_in w')
  /\ exists b n, serialize (with_slots h slots) = Ok b /\ length b = 416 /\ n <= 416
       /\ wrote (w_in w) (w_in w') (firstn n b)
       /\ (o = Ok tt \/ o = Err KHeaderWrite /\ n = 0 /\ d_plan (w_in w) <> [])
       /\ (o = Ok tt -> no_short (d_plan (w_in w)) -> n = 416).
Proof.
  intros h slots w o w' W H.
  destruct (serialize_ok (with_slots h slots)) as (b & Hb & Hl & _); [right; right; exact W|].
  destruct W as (Wv & _). rewrite Wv in Hl. cbn [get_size] in Hl.
  unfold rewrite_header in H. fold (with_slots h slots) in H.
  assert (Hw : exists o1 d1, header_write (with_slots h slots) (w_in w) = (o1, d1)
            /\ plan_suffix (w_in w) d1 /\ exists n, n <= 416 /\ wrote (w_in w) d1 (firstn n b)
            /\ (o1 = Ok tt \/ o1 = Err HWrite /\ n = 0 /\ d_plan (w_in w) <> [])
            /\ (o1 = Ok tt -> no_short (d_plan (w_in w)) -> n = 416)).
  { unfold header_write.
    erewrite bind_ok by (unfold lift; rewrite Hb; reflexivity).
    destruct (dev_write b (w_in w)) as [o1 d1] eqn:Hd.
    pose proof (dev_write_spec _ _ _ _ Hd) as (P & S).
    destruct o1 as [n|e| |]; try contradiction.
    - exists (Ok tt), d1. split; [erewrite bind_ok by (apply map_err_ok; exact Hd); reflexivity|].
      split; [now apply plan_step_suffix|]. exists n. destruct S as (S1 & S2 & S3 & S4).
      parts; auto; [lia|]. intros _ G. rewrite <- Hl. eapply dev_write_no_short; eauto.
    - exists (Err HWrite), d1. split; [erewrite bind_err by (apply map_err_err; exact Hd); reflexivity|].
      split; [now apply plan_step_suffix|]. exists 0. destruct S as (S1 & S2).
      parts; auto; [lia| |discriminate]. right. parts; auto. rewrite S2. discriminate. }
  destruct Hw as (o1 & d1 & Hw & P & n & N1 & N2 & N3 & N4).
  assert (Hx : o = match o1 with Ok u => Ok u | Err _ => Err KHeaderWrite | Panic => Panic | Diverge => Diverge end
             /\ w' = mkWorld d1 (w_out w) (w_hdr w) (w_rng w) (w_tr w)).
  { unfold map_err, on_in, zoom in H. rewrite Hw in H. destruct o1; inversion H; auto. }
  destruct Hx as (-> & ->). cbn [w_in w_out w_hdr w_rng w_tr].
  parts; auto. exists b, n. parts; auto.
  - destruct N3 as [->|(-> & N3)]; auto.
  - destruct N3 as [->|(-> & N3)]; auto. discriminate.
Qed.

(** What it takes for an operation to go through. *)
Definition op_pre (E : env) (op : key_op) (d : dev) (r : rng) (h : header)
  (slots : list keyslot) (i : nat) (key mk : bytes) (k : keyslot) : Prop :=
  v5_header d h slots
  /\ found E (ht_algorithm (h_type h)) (op_old op) slots i key mk k /\ mk <> zeros 32
  /\ (forall x y ha, op = OpAdd x y ha -> length slots < 4)
  /\ (forall new ha, op_new op = Some (new, ha) ->
        exists key', hash E ha new (draw r 0 16) = Ok key').

Lemma v5_header_wf : forall d h slots, v5_header d h slots -> wf_v5 h /\ reread h = h.
Proof. intros d h slots (A & _ & aad & d' & B). eapply v5_deserialize_wf; eauto. Qed.

Lemma v5_header_unique : forall d h slots h' slots',
  v5_header d h slots -> v5_header d h' slots' -> h = h' /\ slots = slots'.
Proof.
  intros d h slots h' slots' (A & B & aad & d1 & C) (A' & B' & aad' & d1' & C').
  rewrite C in C'. inversion C'; subst. split; [reflexivity|congruence].
Qed.

Lemma v5_header_slots : forall d h slots, v5_header d h slots ->
  length slots <= 4 /\ Forall (slot_wf (ht_algorithm (h_type h))) slots.
Proof.
  intros d h slots H. pose proof (v5_header_wf _ _ _ H) as ((_ & _ & l & Hl & A & B) & _).
  destruct H as (_ & H & _). rewrite H in Hl. injection Hl as ->. auto.
Qed.

(** The common first half of every operation. *)
Definition opened_with (E : env) (old : bytes) (K : header -> list keyslot -> bytes * nat -> M world key_error unit)
  : M world key_error unit :=
  hs <- open_header ;;
  let '(h, slots) := hs in
  mk <- on_tr (decrypt_v5_master_key_with_index E slots old (ht_algorithm (h_type h))) ;;
  K h slots mk.

Lemma opened_with_spec : forall E old K w o w', env_ok E ->
  opened_with E old K w = (o, w') ->
  (exists e, o = Err e /\ w_out w' = w_out w /\ w_hdr w' = w_hdr w
     /\ plan_suffix (w_in w) (w_in w') /\ untouched (w_in w) (w_in w')
     /\ sealed (w_tr w') = sealed (w_tr w)
     /\ (d_plan (w_in w) = [] -> forall h slots i key mk k,
           v5_header (w_in w) h slots -> found E (ht_algorithm (h_type h)) old slots i key mk k ->
           mk = zeros 32))
  \/ exists h slots i key mk k w1,
       v5_header (w_in w) h slots /\ found E (ht_algorithm (h_type h)) old slots i key mk k
       /\ mk <> zeros 32 /\ length mk = 32
       /\ w_out w1 = w_out w /\ w_hdr w1 = w_hdr w /\ w_rng w1 = w_rng w
       /\ w_tr w1 = w_tr w ++ [Opened (mkCall (ht_algorithm (h_type h)) key (ks_nonce k) [] mk (ks_enc k))]
       /\ plan_suffix (w_in w) (w_in w1)
       /\ d_data (w_in w1) = d_data (w_in w) /\ d_log (w_in w1) = d_log (w_in w)
       /\ d_pos (w_in w1) = d_pos (w_in w)
       /\ K h slots (mk, i) w1 = (o, w').
Proof.
  intros E old K w o w' HE H. unfold opened_with in H.
  destruct (open_header w) as [oh w1] eqn:Hh.
  pose proof (open_header_spec _ _ _ Hh) as (A1 & A2 & A3 & A4 & A5 & A6 & A7 & A8).
  destruct oh as [[h slots]|e| |]; try contradiction.
  2:{ erewrite bind_err in H by exact Hh. inversion H; subst. left. exists e.
      unfold untouched. destruct A8 as (_ & A8). parts; auto; try congruence.
      intros Hn h slots i key mk k Hv. exfalso. eapply A8; eauto. }
  erewrite bind_ok in H by exact Hh. cbv beta iota in H.
  destruct A8 as (B1 & B2 & B3 & B4).
  assert (Hv : v5_header (w_in w) h slots) by (split; [|split]; auto).
  pose proof (v5_header_slots _ _ _ Hv) as (_ & Hs). apply Forall_slot_wf_sized in Hs.
  destruct (decrypt_v5_master_key_with_index E slots old (ht_algorithm (h_type h)) (w_tr w1)) as [om t1] eqn:Hm.
  pose proof (dmk_spec _ _ _ _ _ _ _ HE Hs Hm)
    as [(i & k & key & mk & F & L & Z & -> & ->)|(Eo & St & Hz)].
  - erewrite bind_ok in H by (apply zoom_eq; exact Hm).
    right. exists h, slots, i, key, mk, k. eexists.
    do 4 (split; [assumption|]). 
    repeat match goal with |- _ /\ K _ _ _ _ = _ => split; [|exact H] | |- _ /\ _ => split end;
      cbn [w_in w_out w_hdr w_rng w_tr]; auto. now rewrite A4.
  - assert (Hx : exists e, om = Err e) by (destruct Eo as [->| ->]; eauto).
    destruct Hx as (e & ->).
    erewrite bind_err in H by (apply zoom_eq; exact Hm). inversion H; subst.
    left. exists e. cbn [w_in w_out w_hdr w_rng w_tr]. unfold untouched.
    parts; auto; try congruence.
    intros _ h' slots' i key mk k Hv' F. destruct (v5_header_unique _ _ _ _ _ Hv Hv') as (-> & ->).
    eauto.
Qed.

Definition not_verify (op : key_op) : Prop := match op with OpVerify _ => False | _ => True end.

Lemma edited_wf : forall (P : keyslot -> Prop) op i new slots,
  Forall P slots -> (op_new op <> None -> P new) -> Forall P (edited op i new slots).
Proof.
  intros P op i new slots H Hn. destruct op; cbn [edited op_new] in *.
  - apply Forall_app. split; [exact H|]. constructor; [apply Hn; discriminate|constructor].
  - rewrite <- (firstn_skipn i slots) in H. apply Forall_app in H as (H1 & H2).
    apply Forall_app. split; [exact H1|]. constructor; [apply Hn; discriminate|].
    replace (S i) with (i + 1) by lia. rewrite <- skipn_skipn'.
    rewrite <- (firstn_skipn 1 (skipn i slots)) in H2. now apply Forall_app in H2 as (_ & H2).
  - rewrite <- (firstn_skipn i slots) in H. apply Forall_app in H as (H1 & H2).
    apply Forall_app. split; [exact H1|].
    replace (S i) with (i + 1) by lia. rewrite <- skipn_skipn'.
    rewrite <- (firstn_skipn 1 (skipn i slots)) in H2. now apply Forall_app in H2 as (_ & H2).
  - exact H.
Qed.

Lemma edited_length : forall op i new slots, i < length slots ->
  length (edited op i new slots)
  = match op with
    | OpAdd _ _ _ => S (length slots) | OpDelete _ => length slots - 1 | _ => length slots
    end.
Proof.
  intros op i new slots H. destruct op; cbn [edited]; rewrite ?app_length; cbn [length];
    rewrite ?firstn_length, ?skipn_length; lia.
Qed.

Lemma replace_nth_eq : forall {A} i (x : A) l, i < length l ->
  replace_nth i x l = firstn i l ++ x :: skipn (S i) l.
Proof.
  intros A i x l. revert i. induction l as [|y l IH]; intros [|i] H; cbn in *; try lia; auto.
  f_equal. apply IH. lia.
Qed.

Lemma remove_nth_eq : forall {A} i (l : list A), i < length l ->
  remove_nth i l = firstn i l ++ skipn (S i) l.
Proof.
  intros A i l. revert i. induction l as [|y l IH]; intros [|i] H; cbn in *; try lia; auto.
  f_equal. apply IH. lia.
Qed.

Lemma encrypt_master_key_ok : forall E mk key nonce a tr, env_ok E ->
  length key = 32 -> length nonce = get_nonce_len a MemoryMode -> length mk = 32 ->
  exists enc, aead_enc E a key nonce [] mk = Some enc /\ length enc = 48
    /\ encrypt_master_key E mk key nonce a tr
       = (Ok enc, tr ++ [Sealed (mkCall a key nonce [] mk enc)]).
Proof.
  intros E mk key nonce a tr HE Hk Hn Hm.
  destruct (aead_enc E a key nonce [] mk) as [enc|] eqn:He.
  2:{ exfalso. revert He. apply (aead_total E HE); auto; cbn [length]; [lia|].
      rewrite Hm. unfold BLOCK_SIZE. lia. }
  pose proof (aead_length _ HE _ _ _ _ _ _ He) as Hl.
  exists enc. split; [reflexivity|]. split; [lia|]. unfold encrypt_master_key.
  erewrite bind_ok by (unfold map_err, lift, ciphers_initialize; rewrite Hk; reflexivity).
  erewrite bind_ok.
  2:{ apply map_err_ok. unfold ciphers_encrypt. cbn [ci_alg ci_key]. rewrite Hn, Nat.eqb_refl, He. reflexivity. }
  unfold ret. rewrite vec_to_arr_id by (unfold ENCRYPTED_MASTER_KEY_LEN; lia). reflexivity.
Qed.

Lemma op_cases : forall E op w o w', env_ok E -> run_op E op w = (o, w') ->
  w_out w' = w_out w /\ w_hdr w' = w_hdr w /\ plan_suffix (w_in w) (w_in w') /\
  ((exists e, o = Err e /\ untouched (w_in w) (w_in w')
      /\ (d_plan (w_in w) = [] -> forall h slots i key mk k,
            ~ op_pre E op (w_in w) (w_rng w) h slots i key mk k))
   \/ (~ not_verify op /\ o = Ok tt /\ untouched (w_in w) (w_in w')
       /\ exists h slots i key mk k, op_pre E op (w_in w) (w_rng w) h slots i key mk k)
   \/ (not_verify op /\ exists h slots i key mk k new b n,
         op_pre E op (w_in w) (w_rng w) h slots i key mk k /\ length mk = 32
         /\ made E (ht_algorithm (h_type h)) mk (w_rng w) op new
         /\ wf_v5 (with_slots h (edited op i new slots))
         /\ serialize (with_slots h (edited op i new slots)) = Ok b /\ length b = 416 /\ n <= 416
         /\ wrote (w_in w) (w_in w') (firstn n b)
         /\ (o = Ok tt \/ o = Err KHeaderWrite /\ n = 0 /\ d_plan (w_in w) <> [])
         /\ (o = Ok tt -> no_short (d_plan (w_in w)) -> n = 416)
         /\ sealed (w_tr w') = sealed (w_tr w)
              ++ match op_new op with
                 | Some (p, ha) =>
                     match hash E ha p (ks_salt new) with
                     | Ok key' => [mkCall (ht_algorithm (h_type h)) key' (ks_nonce new) [] mk (ks_enc new)]
                     | _ => []
                     end
                 | None => []
                 end)).
Proof.
  intros E op w o w' HE H.
  assert (Hpre : forall h slots i key mk k, 
      v5_header (w_in w) h slots -> found E (ht_algorithm (h_type h)) (op_old op) slots i key mk k ->
      length slots <= 4 /\ Forall (slot_wf (ht_algorithm (h_type h))) slots /\ i < length slots /\ wf_v5 h).
  { intros h slots i key mk k Hv F. pose proof (v5_header_slots _ _ _ Hv) as (A & B).
    parts; auto; [|eapply v5_header_wf; eauto].
    destruct F as (F & _). apply nth_error_Some. rewrite F. discriminate. }
  (* the last step, common to the writing operations *)
  assert (Hfin : forall h slots i key mk k w1 wd new cs,
     not_verify op ->
     op_pre E op (w_in w) (w_rng w) h slots i key mk k -> length mk = 32 ->
     made E (ht_algorithm (h_type h)) mk (w_rng w) op new ->
     (op_new op <> None -> slot_wf (ht_algorithm (h_type h)) new) ->
     w_out w1 = w_out w -> w_hdr w1 = w_hdr w -> plan_suffix (w_in w) (w_in w1) ->
     d_data (w_in w1) = d_data (w_in w) -> d_log (w_in w1) = d_log (w_in w) ->
     d_pos (w_in w1) = d_pos (w_in w) ->
     wd = w1 -> sealed (w_tr w1) = sealed (w_tr w) ++ cs ->
     cs = match op_new op with
                 | Some (p, ha) =>
                     match hash E ha p (ks_salt new) with
                     | Ok key' => [mkCall (ht_algorithm (h_type h)) key' (ks_nonce new) [] mk (ks_enc new)]
                     | _ => []
                     end
                 | None => []
                 end ->
     rewrite_header h (edited op i new slots) w1 = (o, w') ->
     w_out w' = w_out w /\ w_hdr w' = w_hdr w /\ plan_suffix (w_in w) (w_in w') /\
     (not_verify op /\ exists h slots i key mk k new b n,
         op_pre E op (w_in w) (w_rng w) h slots i key mk k /\ length mk = 32
         /\ made E (ht_algorithm (h_type h)) mk (w_rng w) op new
         /\ wf_v5 (with_slots h (edited op i new slots))
         /\ serialize (with_slots h (edited op i new slots)) = Ok b /\ length b = 416 /\ n <= 416
         /\ wrote (w_in w) (w_in w') (firstn n b)
         /\ (o = Ok tt \/ o = Err KHeaderWrite /\ n = 0 /\ d_plan (w_in w) <> [])
         /\ (o = Ok tt -> no_short (d_plan (w_in w)) -> n = 416)
         /\ sealed (w_tr w') = sealed (w_tr w) ++ match op_new op with
                 | Some (p, ha) =>
                     match hash E ha p (ks_salt new) with
                     | Ok key' => [mkCall (ht_algorithm (h_type h)) key' (ks_nonce new) [] mk (ks_enc new)]
                     | _ => []
                     end
                 | None => []
                 end)).
  { intros h slots i key mk k w1 wd new cs Hnv Hop Hlm Hmade Hwf O1 O2 O3 O4 O5 O6 _ Htr Hcs Hr.
    pose proof Hop as (P1 & P2 & P3 & P4 & P5).
    destruct (Hpre _ _ _ _ _ _ P1 P2) as (Q1 & Q2 & Q3 & Q4).
    assert (W : wf_v5 (with_slots h (edited op i new slots))).
    { apply wf_v5_slots; auto.
      - rewrite edited_length by assumption. destruct op; try lia. specialize (P4 _ _ _ eq_refl). lia.
      - now apply edited_wf. }
    destruct (rewrite_header_spec _ _ _ _ _ W Hr) as (R1 & R2 & R3 & R4 & b & n & R5 & R6 & R7 & R8 & R9 & R10).
    split; [congruence|]. split; [congruence|]. split; [eapply plan_suffix_trans; eauto|].
    split; [exact Hnv|]. exists h, slots, i, key, mk, k, new, b, n.
    split; [exact Hop|]. split; [exact Hlm|]. split; [exact Hmade|]. split; [exact W|].
    split; [exact R5|]. split; [exact R6|]. split; [exact R7|]. split.
    { destruct R8 as (X1 & X2 & X3). unfold wrote. rewrite <- O4, <- O5, <- O6. auto. }
    split.
    { destruct R9 as [R9|(R9 & R9' & R9'')]; [now left|right]. parts; auto.
      intros Hn. apply R9''. eapply plan_suffix_nil; eauto. }
    split.
    { intros Ho Hs. apply R10; auto. eapply plan_suffix_no_short; eauto. }
    rewrite R3, Htr. now rewrite Hcs. }
  assert (Hcopen : forall w1 c, w_tr w1 = w_tr w ++ [Opened c] -> sealed (w_tr w1) = sealed (w_tr w)).
  { intros w1 c ->. unfold sealed. rewrite flat_map_app. cbn. now rewrite app_nil_r. }
  destruct op as [old new ha|old new ha|old|pw]; cbn [run_op op_old] in *.
  - (* add *)
    change (key_add E old new ha) with (opened_with E old (fun h slots mk =>
       if length slots =? 4 then err KTooManyKeyslots
       else
         salt <- gen_salt ;;
         nonce <- gen_nonce (ht_algorithm (h_type h)) MemoryMode ;;
         key_new <- map_err (fun _ => KKeyHash) (lift (hash E ha new salt)) ;;
         enc <- on_tr (encrypt_master_key E (fst mk) key_new nonce (ht_algorithm (h_type h))) ;;
         rewrite_header h (slots ++ [mkSlot ha enc nonce salt]))) in H.
    apply opened_with_spec in H; [|exact HE].
    destruct H as [(e & -> & A1 & A2 & A3 & A4 & A5 & A6)
                  |(h & slots & i & key & mk & k & w1 & Hv & F & Z & Hl & O1 & O2 & O3 & O4 & O5 & O6 & O7 & O8 & H)].
    { parts; auto. left. exists e. parts; auto.
      intros Hn h slots i key mk k (P1 & P2 & P3 & _). apply P3. eapply A6; eauto. }
    destruct (Hpre _ _ _ _ _ _ Hv F) as (Q1 & Q2 & Q3 & Q4).
    assert (Hp0 : forall e w2, o = Err e -> w' = w2 -> w_out w2 = w_out w1 -> w_hdr w2 = w_hdr w1 ->
       w_in w2 = w_in w1 ->
       (length slots = 4 \/ hash E ha new (draw (w_rng w) 0 16) = Err tt) ->
       w_out w' = w_out w /\ w_hdr w' = w_hdr w /\ plan_suffix (w_in w) (w_in w') /\
        exists e, o = Err e /\ untouched (w_in w) (w_in w')
      /\ (d_plan (w_in w) = [] -> forall h slots i key mk k,
            ~ op_pre E (OpAdd old new ha) (w_in w) (w_rng w) h slots i key mk k)).
    { intros e w2 -> -> E1 E2 E3 Hc. rewrite E1, E2, E3. parts; auto. exists e. unfold untouched. parts; auto.
      intros _ h' slots' i' key' mk' k' (P1 & P2 & P3 & P4 & P5).
      destruct (v5_header_unique _ _ _ _ _ Hv P1) as (-> & ->).
      destruct Hc as [Hc|Hc]; [specialize (P4 _ _ _ eq_refl); lia|].
      destruct (P5 _ _ eq_refl) as (x & Hx). congruence. }
    destruct (length slots =? 4) eqn:E4.
    { apply Nat.eqb_eq in E4. unfold err in H.
      destruct (Hp0 KTooManyKeyslots w1) as (X1 & X2 & X3 & X4); auto; try congruence. }
    apply Nat.eqb_neq in E4.
    erewrite bind_ok in H by apply fill_bytes_eq.
    erewrite bind_ok in H by apply fill_bytes_eq.
    cbn [w_in w_out w_hdr w_rng w_tr adv fst] in H. rewrite draw_shift, O3 in H.
    change (SALT_LEN + 0) with 16 in H. change SALT_LEN with 16 in H.
    destruct (hash_cases E ha new (draw (w_rng w) 0 16)) as [(key' & Hk)|Hk].
    2:{ erewrite bind_err in H by (unfold map_err, lift; rewrite Hk; reflexivity).
        injection H as Ho Hw'. symmetry in Ho, Hw'.
        destruct (Hp0 _ _ Ho Hw') as (X1 & X2 & X3 & X4); auto. }
    pose proof (hash_length _ _ _ _ _ HE Hk) as Hlk.
    erewrite bind_ok in H by (unfold map_err, lift; rewrite Hk; reflexivity).
    destruct (encrypt_master_key_ok E mk key' (draw (w_rng w) 16 (get_nonce_len (ht_algorithm (h_type h)) MemoryMode))
      (ht_algorithm (h_type h)) (w_tr w1) HE Hlk (draw_length _ _ _) Hl) as (enc & En1 & En2 & En3).
    erewrite bind_ok in H by (apply zoom_eq; exact En3).
    match type of H with rewrite_header _ _ ?ww = _ => set (w2 := ww) in H end.
    set (nw := mkSlot ha enc (draw (w_rng w) 16 (get_nonce_len (ht_algorithm (h_type h)) MemoryMode)) (draw (w_rng w) 0 16)) in *.
    destruct (Hfin h slots i key mk k w2 w2 nw [mkCall (ht_algorithm (h_type h)) key' (ks_nonce nw) [] mk enc])
      as (X1 & X2 & X3 & X4); auto; cbn [w2 w_in w_out w_hdr w_rng w_tr adv]; auto.
    + exact I.
    + split; [exact Hv|]. split; [exact F|]. split; [exact Z|]. split.
      * intros _ _ _ _. lia.
      * intros p hh Hp. injection Hp as <- <-. eauto.
    + unfold made. cbn [op_new nw ks_hash ks_salt ks_nonce]. parts; auto. exists key'. auto.
    + intros _. split; [|eapply hash_known; eauto]. unfold slot_sized, nw. cbn [ks_enc ks_nonce ks_salt]. rewrite !draw_length. auto.
    + rewrite O4. unfold sealed. rewrite !flat_map_app. cbn. now rewrite app_nil_r.
    + cbn [op_new]. subst nw. cbn [ks_salt ks_enc ks_nonce]. rewrite Hk. reflexivity.
    + parts; auto.
  - (* change *)
    change (key_change E old new ha) with (opened_with E old (fun h slots mk =>
         salt <- gen_salt ;;
         key_new <- map_err (fun _ => KKeyHash) (lift (hash E ha new salt)) ;;
         nonce <- gen_nonce (ht_algorithm (h_type h)) MemoryMode ;;
         enc <- on_tr (encrypt_master_key E (fst mk) key_new nonce (ht_algorithm (h_type h))) ;;
         if snd mk <? length slots then
           rewrite_header h (replace_nth (snd mk) (mkSlot ha enc nonce salt) slots)
         else panic)) in H.
    apply opened_with_spec in H; [|exact HE].
    destruct H as [(e & -> & A1 & A2 & A3 & A4 & A5 & A6)
                  |(h & slots & i & key & mk & k & w1 & Hv & F & Z & Hl & O1 & O2 & O3 & O4 & O5 & O6 & O7 & O8 & H)].
    { parts; auto. left. exists e. parts; auto.
      intros Hn h slots i key mk k (P1 & P2 & P3 & _). apply P3. eapply A6; eauto. }
    destruct (Hpre _ _ _ _ _ _ Hv F) as (Q1 & Q2 & Q3 & Q4).
    erewrite bind_ok in H by apply fill_bytes_eq.
    cbn [w_in w_out w_hdr w_rng w_tr adv fst snd] in H. rewrite O3 in H. change SALT_LEN with 16 in H.
    destruct (hash_cases E ha new (draw (w_rng w) 0 16)) as [(key' & Hk)|Hk].
    2:{ erewrite bind_err in H by (unfold map_err, lift; rewrite Hk; reflexivity).
        injection H as <- <-. cbn [w_in w_out w_hdr adv]. parts; auto. left. exists KKeyHash.
        unfold untouched. cbn [w_in]. parts; auto.
        intros _ h' slots' i' key' mk' k' (P1 & P2 & P3 & P4 & P5).
        destruct (P5 _ _ eq_refl) as (x & Hx). congruence. }
    pose proof (hash_length _ _ _ _ _ HE Hk) as Hlk.
    erewrite bind_ok in H by (unfold map_err, lift; rewrite Hk; reflexivity).
    erewrite bind_ok in H by apply fill_bytes_eq.
    cbn [w_in w_out w_hdr w_rng w_tr adv] in H. rewrite O3, draw_shift in H. change (16 + 0) with 16 in H.
    destruct (encrypt_master_key_ok E mk key' (draw (w_rng w) 16 (get_nonce_len (ht_algorithm (h_type h)) MemoryMode))
      (ht_algorithm (h_type h)) (w_tr w1) HE Hlk (draw_length _ _ _) Hl) as (enc & En1 & En2 & En3).
    erewrite bind_ok in H by (apply zoom_eq; exact En3).
    destruct (Nat.ltb_spec i (length slots)) as [_|]; [|lia].
    rewrite replace_nth_eq in H by assumption.
    match type of H with rewrite_header _ _ ?ww = _ => set (w2 := ww) in H end.
    set (nw := mkSlot ha enc (draw (w_rng w) 16 (get_nonce_len (ht_algorithm (h_type h)) MemoryMode)) (draw (w_rng w) 0 16)) in *.
    destruct (Hfin h slots i key mk k w2 w2 nw [mkCall (ht_algorithm (h_type h)) key' (ks_nonce nw) [] mk enc])
      as (X1 & X2 & X3 & X4); auto; cbn [w2 w_in w_out w_hdr w_rng w_tr adv]; auto.
    + exact I.
    + split; [exact Hv|]. split; [exact F|]. split; [exact Z|]. split.
      * intros x y hh Hx. discriminate Hx.
      * intros p hh Hp. injection Hp as <- <-. eauto.
    + unfold made. cbn [op_new nw ks_hash ks_salt ks_nonce]. parts; auto. exists key'. auto.
    + intros _. split; [|eapply hash_known; eauto]. unfold slot_sized, nw. cbn [ks_enc ks_nonce ks_salt]. rewrite !draw_length. auto.
    + rewrite O4. unfold sealed. rewrite !flat_map_app. cbn. now rewrite app_nil_r.
    + cbn [op_new]. subst nw. cbn [ks_salt ks_enc ks_nonce]. rewrite Hk. reflexivity.
    + parts; auto.
  - (* delete *)
    change (key_delete E old) with (opened_with E old (fun h slots mk =>
         if snd mk <? length slots then rewrite_header h (remove_nth (snd mk) slots)
         else panic)) in H.
    apply opened_with_spec in H; [|exact HE].
    destruct H as [(e & -> & A1 & A2 & A3 & A4 & A5 & A6)
                  |(h & slots & i & key & mk & k & w1 & Hv & F & Z & Hl & O1 & O2 & O3 & O4 & O5 & O6 & O7 & O8 & H)].
    { parts; auto. left. exists e. parts; auto.
      intros Hn h slots i key mk k (P1 & P2 & P3 & _). apply P3. eapply A6; eauto. }
    destruct (Hpre _ _ _ _ _ _ Hv F) as (Q1 & Q2 & Q3 & Q4). cbn [snd] in H.
    destruct (Nat.ltb_spec i (length slots)) as [_|]; [|lia].
    rewrite remove_nth_eq in H by assumption.
    destruct (Hfin h slots i key mk k w1 w1 k []) as (X1 & X2 & X3 & X4); auto.
    + exact I.
    + split; [exact Hv|]. split; [exact F|]. split; [exact Z|]. split.
      * intros x y hh Hx. discriminate Hx.
      * intros p hh Hp. discriminate Hp.
    + exact I.
    + intros Hx. now elim Hx.
    + rewrite app_nil_r. eauto.
    + parts; auto.
  - (* verify *)
    unfold key_verify in H.
    destruct (deserialize (w_in w)) as [od d1] eqn:Hd.
    pose proof (deserialize_suffix _ _ _ Hd) as Hp.
    pose proof (deserialize_spec _ _ _ Hd) as (S1 & S2 & S3 & S4).
    destruct od as [[h aad]|e| |]; try contradiction.
    2:{ erewrite bind_err in H by (apply map_err_err, zoom_eq; exact Hd).
        inversion H; subst. cbn [w_in w_out w_hdr w_rng w_tr]. parts; auto. left. exists KHeaderDeserialize.
        unfold untouched. cbn [w_in]. parts; auto.
        intros _ h slots i key mk k ((_ & _ & aad & d' & Hx) & _). congruence. }
    erewrite bind_ok in H by (apply map_err_ok, zoom_eq; exact Hd). cbn [fst] in H.
    destruct (below_v5 (ht_version (h_type h))) eqn:Hb.
    { inversion H; subst. cbn [w_in w_out w_hdr w_rng w_tr]. parts; auto. left. exists KUnsupported.
      unfold untouched. cbn [w_in]. parts; auto.
      intros _ h' slots i key mk k ((Hv & _ & aad' & d' & Hx) & _). rewrite Hx in Hd. inversion Hd; subst.
      rewrite Hv in Hb. discriminate. }
    assert (Hv : ht_version (h_type h) = V5) by (destruct (ht_version (h_type h)); auto; discriminate).
    destruct (v5_deserialize_wf _ _ _ _ Hd Hv) as ((_ & _ & l & Hl & _) & _).
    rewrite Hl in H.
    assert (Hvh : v5_header (w_in w) h l) by (split; [|split]; eauto).
    pose proof (v5_header_slots _ _ _ Hvh) as (_ & Hs). apply Forall_slot_wf_sized in Hs.
    set (w2 := mkWorld d1 (w_out w) (w_hdr w) (w_rng w) (w_tr w)) in *.
    destruct (decrypt_v5_master_key_with_index E l pw (ht_algorithm (h_type h)) (w_tr w2)) as [om t1] eqn:Hm.
    pose proof (dmk_spec _ _ _ _ _ _ _ HE Hs Hm)
      as [(i & k & key & mk & F & L & Z & -> & ->)|(Eo & St & Hz)].
    + erewrite bind_ok in H by (apply zoom_eq; exact Hm). inversion H; subst.
      cbn [w_in w_out w_hdr w_rng w_tr w2]. parts; auto. right. left. unfold untouched. cbn [w_in].
      parts; auto. exists h, l, i, key, mk, k. split; [exact Hvh|]. split; [exact F|]. split; [exact Z|].
      split; intros; discriminate.
    + assert (Hx : exists e, om = Err e) by (destruct Eo as [->| ->]; eauto).
      destruct Hx as (e & ->).
      erewrite bind_err in H by (apply zoom_eq; exact Hm). inversion H; subst.
      cbn [w_in w_out w_hdr w_rng w_tr w2]. parts; auto. left. exists e.
      unfold untouched. cbn [w_in]. parts; auto.
      intros _ h' slots' i key mk k (P1 & P2 & P3 & _).
      destruct (v5_header_unique _ _ _ _ _ Hvh P1) as (-> & ->). apply P3. eapply Hz; eauto.
Qed.
