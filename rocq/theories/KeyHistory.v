(** Histories of key operations. *)
From Coq Require Import List Arith NArith ZArith Lia Bool.
From Verif Require Import Bytes Outcome IO Primitives Crypto Header Stream KeyModel EncDec KeyOps.
From Verif Require Import BytesFacts IOSpec IOFacts HeaderSpec HeaderFacts HeaderProofs.
From Verif Require Import StreamSpec StreamFacts StreamProofs FileSpec FileFacts FileProofs.
From Verif Require Import KeySpec KeyFacts KeyProofs DecSim KeyResults.
Local Open Scope nat_scope.

Lemma hash_is_known_iff : forall ha, hash_is_known ha = true <-> known_hash ha.
Proof.
  intros [z|z]; unfold hash_is_known, known_hash; cbn [In]; split.
  - intros H. apply andb_prop in H as (A & B). apply Z.leb_le in A, B.
    assert (z = 1 \/ z = 2 \/ z = 3)%Z as [-> | [-> | ->]] by lia; auto 6.
  - intros [H|[H|[H|[H|[H|[]]]]]]; inversion H; reflexivity.
  - intros H. apply andb_prop in H as (A & B). apply Z.leb_le in A, B.
    assert (z = 4 \/ z = 5)%Z as [-> | ->] by lia; auto 6.
  - intros [H|[H|[H|[H|[H|[]]]]]]; inversion H; reflexivity.
Qed.

Lemma index_of_spec : forall pw l,
  match index_of pw l with
  | Some i => nth_error l i = Some pw /\ forall j q, j < i -> nth_error l j = Some q -> pw <> q
  | None => ~ In pw l
  end.
Proof.
  intros pw l. induction l as [|q l IH]; cbn [index_of]; [intros []|].
  destruct (bytes_eqb pw q) eqn:Eq.
  - apply bytes_eqb_eq in Eq. subst. split; [reflexivity|]. intros; lia.
  - apply bytes_eqb_neq in Eq. destruct (index_of pw l) as [i|]; cbn [option_map].
    + destruct IH as (A & B). split; [exact A|]. intros [|j] q' Hj Hn; cbn in Hn; [congruence|].
      apply (B j q'); [lia|exact Hn].
    + intros [->|H]; [now apply Eq|contradiction].
Qed.

Lemma Forall2_nth : forall {A B} (R : A -> B -> Prop) l l' i a, Forall2 R l l' -> nth_error l i = Some a ->
  exists b, nth_error l' i = Some b /\ R a b.
Proof.
  intros A B R l l' i a H. revert i. induction H as [|x y l l' Hxy H IH]; intros [|i] Hn; cbn in *; try discriminate.
  - injection Hn as <-. eauto.
  - eauto.
Qed.
Lemma Forall2_nth_r : forall {A B} (R : A -> B -> Prop) l l' i b, Forall2 R l l' -> nth_error l' i = Some b ->
  exists a, nth_error l i = Some a /\ R a b.
Proof.
  intros A B R l l' i a H. revert i. induction H as [|x y l l' Hxy H IH]; intros [|i] Hn; cbn in *; try discriminate.
  - injection Hn as <-. eauto.
  - eauto.
Qed.
Lemma Forall2_firstn : forall {A B} (R : A -> B -> Prop) l l' n, Forall2 R l l' -> Forall2 R (firstn n l) (firstn n l').
Proof. intros A B R l l' n H. revert n. induction H; intros [|n]; cbn; auto. Qed.
Lemma Forall2_skipn : forall {A B} (R : A -> B -> Prop) l l' n, Forall2 R l l' -> Forall2 R (skipn n l) (skipn n l').
Proof. intros A B R l l' n H. revert n. induction H; intros [|n]; cbn; auto. Qed.
Lemma Forall2_len : forall {A B} (R : A -> B -> Prop) l l', Forall2 R l l' -> length l = length l'.
Proof. intros A B R l l' H. induction H; cbn; congruence. Qed.

(** The file [data] with body [body] whose keyslots were made for [l]. *)
Definition keyed (E : env) (h : header) (mk body data : bytes) (l : list bytes) : Prop :=
  exists slots b, wf_v5 (with_slots h slots) /\ serialize (with_slots h slots) = Ok b
    /\ data = b ++ body /\ Forall2 (holds E (ht_algorithm (h_type h)) mk) l slots.

Lemma keyed_header : forall E h mk body data l, h_salt h = Some (zeros 16) -> keyed E h mk body data l ->
  exists slots aad, v5_header (dev_at data 0) (with_slots h slots) slots
    /\ deserialize (dev_at data 0) = (Ok (with_slots h slots, aad), dev_at data 416)
    /\ create_aad h = Ok aad /\ length slots <= 4
    /\ Forall2 (holds E (ht_algorithm (h_type h)) mk) l slots
    /\ exists b, length b = 416 /\ data = b ++ body /\ serialize (with_slots h slots) = Ok b
         /\ wf_v5 (with_slots h slots).
Proof.
  intros E h mk body data l Hs (slots & b & W & S & -> & F).
  destruct (serialize_ok (with_slots h slots) (or_intror (or_intror W))) as (b' & S' & L & _).
  rewrite S in S'. apply Ok_inj in S'. subst b'.
  destruct (parse_serialize (with_slots h slots) b (or_intror (or_intror W)) S) as (aad & _ & A).
  pose proof W as (V & _ & l' & K & L4 & _). cbn [with_slots h_type h_keyslots] in V, K. injection K as <-.
  cbn [with_slots h_type] in L. rewrite V in L. cbn [get_size] in L.
  assert (D : deserialize (dev_at (b ++ body) 0) = (Ok (with_slots h slots, aad), dev_at (b ++ body) 416)).
  { rewrite (deserialize_run (with_slots h slots) b aad).
    - rewrite L. f_equal. f_equal. f_equal. unfold reread. cbn [with_slots h_type]. rewrite V.
      unfold with_slots. cbn [h_type h_nonce h_keyslots]. now rewrite Hs.
    - right; right; exact W.
    - exact S.
    - exact A.
    - exists body. reflexivity.
    - reflexivity. }
  exists slots, aad. split; [|split; [exact D|split]].
  - split; [exact V|]. split; [reflexivity|]. eauto.
  - unfold create_aad, with_slots in *. cbn [h_type h_keyslots h_nonce] in A. rewrite V in *. exact A.
  - split; [exact L4|]. split; [exact F|]. exists b. auto.
Qed.

(** A keyslot of [l] that [pw] opens was made for [pw], or there is a crossing. *)
Lemma opens_made : forall E h mk data slots l pw k m i ps,
  v5_header (dev_at data 0) (with_slots h slots) slots ->
  Forall2 (holds E (ht_algorithm (h_type h)) mk) l slots ->
  (forall q, In q l -> In q ps) -> In pw ps ->
  nth_error slots i = Some k -> slot_opens E (ht_algorithm (h_type h)) pw k m ->
  crossed E ps data \/ nth_error l i = Some pw.
Proof.
  intros E h mk data slots l pw k m i ps V F Hl Hpw Hn (kp & Hk & Hd).
  destruct (Forall2_nth_r _ _ _ _ _ F Hn) as (q & Hq & Ho).
  destruct (bytes_eq_dec pw q) as [->|Hne]; [now right|]. left.
  pose proof Ho as (kq & Hkq & He).
  exists (with_slots h slots), slots, k, pw, q, mk.
  split; [exact V|]. split; [eapply nth_error_In; eauto|]. split; [exact Hpw|].
  split; [apply Hl; eapply nth_error_In; eauto|]. split; [exact Hne|]. split; [exact Ho|].
  destruct (bytes_eq_dec kp kq) as [->|Hk2].
  - left. split; [congruence|]. eauto.
  - right. exists kp, kq, m. auto.
Qed.

Lemma first_matches : forall E h mk data slots l pw ps, env_ok E ->
  v5_header (dev_at data 0) (with_slots h slots) slots ->
  Forall2 (holds E (ht_algorithm (h_type h)) mk) l slots ->
  (forall q, In q l -> In q ps) -> In pw ps ->
  crossed E ps data
  \/ match index_of pw l with
     | Some i => first_open E (ht_algorithm (h_type h)) pw slots i mk
     | None => forall i m, ~ first_open E (ht_algorithm (h_type h)) pw slots i m
     end.
Proof.
  intros E h mk data slots l pw ps HE V F Hl Hpw.
  set (a := ht_algorithm (h_type h)) in *.
  assert (Hno : crossed E ps data \/ forall i k m, nth_error slots i = Some k -> slot_opens E a pw k m ->
                nth_error l i = Some pw).
  { assert (G : forall n, n <= length slots -> crossed E ps data \/
       forall i k m, i < n -> nth_error slots i = Some k -> slot_opens E a pw k m -> nth_error l i = Some pw).
    { induction n as [|n IH]; intros Hn; [right; intros; lia|].
      destruct (IH ltac:(lia)) as [C|IH']; [now left|].
      destruct (nth_error slots n) as [k|] eqn:Ek; [|apply nth_error_None in Ek; lia].
      destruct (slot_opens_dec E a pw k) as [(m & Ho)|Hc].
      - destruct (opens_made E h mk data slots l pw k m n ps V F Hl Hpw Ek Ho) as [C|Hq]; [now left|].
        right. intros i k' m' Hi Hn' Ho'. destruct (Nat.eq_dec i n) as [->|]; [exact Hq|].
        eapply IH'; eauto. lia.
      - right. intros i k' m' Hi Hn' Ho'. destruct (Nat.eq_dec i n) as [->|]; [|eapply IH'; eauto; lia].
        rewrite Ek in Hn'. injection Hn' as <-. exfalso. eapply Hc; eauto. }
    destruct (G (length slots) ltac:(lia)) as [C|G']; [now left|]. right. intros i k m Hn Ho.
    eapply G'; eauto. apply nth_error_Some. congruence. }
  destruct Hno as [C|Hno]; [now left|]. right.
  pose proof (index_of_spec pw l) as Hi. destruct (index_of pw l) as [i|].
  - destruct Hi as (Hi & Hfirst). destruct (Forall2_nth _ _ _ _ _ F Hi) as (k & Hk & key & Hkey & Henc).
    exists k. split; [exact Hk|]. split; [exists key; split; [exact Hkey|eapply aead_correct; eauto]|].
    intros j k' Hj Hk' m Ho. apply (Hfirst j pw Hj); [|reflexivity]. exact (Hno j k' m Hk' Ho).
  - intros i m (k & Hk & Ho & _). apply Hi. eapply nth_error_In. exact (Hno i k m Hk Ho).
Qed.

Lemma search_matches : forall E h mk data slots l pw ps, env_ok E ->
  v5_header (dev_at data 0) (with_slots h slots) slots ->
  Forall2 (holds E (ht_algorithm (h_type h)) mk) l slots ->
  (forall q, In q l -> In q ps) -> In pw ps -> kdf_total E pw ->
  crossed E ps data
  \/ match index_of pw l with
     | Some i => exists key k, found E (ht_algorithm (h_type h)) pw slots i key mk k
     | None => forall i key m k, ~ found E (ht_algorithm (h_type h)) pw slots i key m k
     end.
Proof.
  intros E h mk data slots l pw ps HE V F Hl Hpw Hkdf.
  destruct (first_matches E h mk data slots l pw ps HE V F Hl Hpw) as [C|Hm]; [now left|]. right.
  assert (Ka : kdf_accepts E pw slots).
  { intros ks Hks. pose proof (v5_header_slots _ _ _ V) as (_ & Ws). rewrite Forall_forall in Ws.
    destruct (Ws _ Hks) as ((_ & _ & Ls) & Kn). now apply Hkdf. }
  destruct (index_of pw l) as [i|].
  - eapply first_open_found; eauto.
  - intros i key m k Fd. apply found_first_open in Fd. eapply Hm; eauto.
Qed.

Lemma run_on_eq : forall E x data o w', run_op E (fst x) (mkWorld (dev_at data 0) (dev_of []) (dev_of []) (snd x) []) = (o, w') ->
  run_on E x data = (o, d_data (w_in w')).
Proof. intros E x data o w' H. unfold run_on. now rewrite H. Qed.

Lemma holds_wf_hash : forall E ha pw s, (exists key, hash E ha pw s = Ok key) -> known_hash ha.
Proof. intros E ha pw s (key & H). eapply hash_known; eauto. Qed.

(** One operation, whatever its outcome. *)
Lemma follow_step : forall E x h mk body data l ps, env_ok E -> h_salt h = Some (zeros 16) ->
  keyed E h mk body data l ->
  (forall q, In q l -> In q ps) -> (forall q, In q (passwords [x]) -> In q ps) ->
  crossed E ps data
  \/ ((exists e, fst (run_on E x data) = Err e) /\ snd (run_on E x data) = data)
  \/ (fst (run_on E x data) = Ok tt
      /\ exists l', list_step (fst x) l = Some l' /\ keyed E h mk body (snd (run_on E x data)) l').
Proof.
  intros E [op r] h mk body data l ps HE Hs Kd Hl Hx. cbn [fst snd] in *.
  destruct (keyed_header _ _ _ _ _ _ Hs Kd) as (slots & aad & V & D & A & L4 & F & b & Lb & Hdata & S & W).
  assert (Hold : In (op_old op) ps) by (apply Hx; cbn; now left).
  destruct (first_matches E h mk data slots l (op_old op) ps HE V F Hl Hold) as [C|Hm]; [now left|]. right.
  set (w := mkWorld (dev_at data 0) (dev_of []) (dev_of []) r []).
  destruct (run_op E op w) as (o, w') eqn:R.
  rewrite (run_on_eq E (op, r) data o w' R). cbn [fst snd].
  pose proof (Forall2_len _ _ _ F) as Lls.
  set (hh := with_slots h slots) in *.
  assert (Post : forall h' slots' i key mk' k, op_pre E op (w_in w) (w_rng w) h' slots' i key mk' k ->
            h' = hh /\ slots' = slots /\ mk' = mk /\ index_of (op_old op) l = Some i /\ list_step op l <> None).
  { intros h' slots' i key mk' k (V' & F' & _ & P4 & P5).
    destruct (v5_header_unique _ _ _ _ _ V V') as (<- & <-).
    apply found_first_open in F'.
    destruct (index_of (op_old op) l) as [j|] eqn:Hj; [|exfalso; eapply Hm; eauto].
    destruct (first_open_unique _ _ _ _ _ _ _ _ Hm F') as (-> & ->).
    do 4 (split; [reflexivity|]). unfold list_step. rewrite Hj.
    destruct op as [p q ha|p q ha|p|p]; try discriminate; cbn [op_new] in *.
    - specialize (P4 _ _ _ eq_refl). destruct (length l <? 4) eqn:E4; [|apply Nat.ltb_ge in E4; lia]. cbn [andb].
      destruct (P5 _ _ eq_refl) as (kk & Hkk). apply hash_known in Hkk. apply hash_is_known_iff in Hkk. rewrite Hkk. discriminate.
    - destruct (P5 _ _ eq_refl) as (kk & Hkk). apply hash_known in Hkk. apply hash_is_known_iff in Hkk. rewrite Hkk. discriminate. }
  pose proof (op_cases E op w o w' HE R) as (_ & _ & _ & C).
  destruct C as [(e & -> & (U & _) & N)|[(Nv & -> & (U & _) & h' & slots' & i & key & mk' & k & P)|(Nv & h' & slots' & i & key & mk' & k & new & b' & n & P & Lm & Md & W' & S' & Lb' & Ln & Wr & Ho & Hfull & _)]].
  - left. split; [eauto|exact U].
  - right. destruct (Post _ _ _ _ _ _ P) as (_ & _ & _ & Hi & Hne). destruct op; try (now contradiction Nv).
    unfold list_step in *. cbn [op_old] in *. rewrite Hi in *. split; [reflexivity|].
    exists l. split; [reflexivity|]. rewrite U. exact Kd.
  - right. destruct (Post _ _ _ _ _ _ P) as (-> & -> & -> & Hi & Hne).
    assert (o = Ok tt) as ->.
    { destruct Ho as [Ho|(_ & _ & Hp)]; [exact Ho|]. now contradiction Hp. }
    split; [reflexivity|].
    specialize (Hfull eq_refl (no_short_nil (w_in w) eq_refl)). subst n. rewrite firstn_all2 in Wr by lia.
    destruct Wr as (Wr & _). cbn [w w_in dev_at d_data d_pos] in Wr. rewrite write_at_0 in Wr.
    assert (Hd' : d_data (w_in w') = b' ++ body).
    { rewrite Wr, Hdata. rewrite skipn_app_exact by lia. reflexivity. }
    change (with_slots hh (edited op i new slots)) with (with_slots h (edited op i new slots)) in *.
    assert (K' : forall l', Forall2 (holds E (ht_algorithm (h_type h)) mk) l' (edited op i new slots) ->
              keyed E h mk body (d_data (w_in w')) l').
    { intros l' F'. exists (edited op i new slots), b'. auto. }
    unfold list_step in *. rewrite Hi in *.
    destruct op as [p q ha|p q ha|p|p]; [| | |contradiction]; cbn [edited op_old op_new] in *.
    + destruct ((length l <? 4) && hash_is_known ha)%bool; [|now contradiction Hne].
      eexists. split; [reflexivity|]. apply K'. apply Forall2_app; [exact F|]. constructor; [|constructor]. apply Md.
    + destruct (hash_is_known ha); [|now contradiction Hne].
      eexists. split; [reflexivity|]. apply K'. apply Forall2_app; [now apply Forall2_firstn|].
      constructor; [apply Md|now apply Forall2_skipn].
    + eexists. split; [reflexivity|]. apply K'. apply Forall2_app; [now apply Forall2_firstn|now apply Forall2_skipn].
Qed.

(** Without failures of the KDF and with a usable master key, the outcome is the
    one the list predicts. *)
Lemma history_step : forall E x h mk body data l ps, env_ok E -> h_salt h = Some (zeros 16) ->
  keyed E h mk body data l -> mk <> zeros 32 ->
  (forall q, In q l -> In q ps) -> (forall q, In q (passwords [x]) -> In q ps /\ kdf_total E q) ->
  crossed E ps data
  \/ match list_step (fst x) l with
     | Some l' => fst (run_on E x data) = Ok tt /\ keyed E h mk body (snd (run_on E x data)) l'
     | None => (exists e, fst (run_on E x data) = Err e) /\ snd (run_on E x data) = data
     end.
Proof.
  intros E [op r] h mk body data l ps HE Hs Kd Hz Hl Hx. cbn [fst snd] in *.
  destruct (follow_step E (op, r) h mk body data l ps HE Hs Kd Hl (fun q Hq => proj1 (Hx q Hq)))
    as [C|[(He & Hd)|(Ho & l' & Hst & K')]]; [now left| |]; cbn [fst] in *.
  2:{ right. rewrite Hst. auto. }
  destruct (keyed_header _ _ _ _ _ _ Hs Kd) as (slots & aad & V & D & A & L4 & F & b & Lb & Hdata & S & W).
  destruct (Hx (op_old op)) as (Hold & Hkold); [cbn; now left|].
  destruct (search_matches E h mk data slots l (op_old op) ps HE V F Hl Hold Hkold) as [C|Hm]; [now left|]. right.
  destruct (list_step op l) as [l'|] eqn:Es; [|auto]. exfalso.
  set (w := mkWorld (dev_at data 0) (dev_of []) (dev_of []) r []).
  destruct (run_op E op w) as (o, w') eqn:R.
  rewrite (run_on_eq E (op, r) data o w' R) in He. cbn [fst snd] in He. destruct He as (e & ->).
  pose proof (Forall2_len _ _ _ F) as Lls. pose proof Es as Hne. unfold list_step in Hne.
  destruct (index_of (op_old op) l) as [i|] eqn:Hi; [|discriminate Hne]. destruct Hm as (key & k & Hf).
  assert (P : op_pre E op (w_in w) (w_rng w) (with_slots h slots) slots i key mk k).
  { unfold op_pre. split; [exact V|]. split; [exact Hf|]. split; [exact Hz|]. split.
    - intros p q ha ->. destruct (length l <? 4) eqn:E4; [|discriminate Hne]. apply Nat.ltb_lt in E4. lia.
    - intros new ha Hn. apply (Hx new); [cbn; right; rewrite Hn; now left| |apply draw_length].
      apply hash_is_known_iff. destruct op; cbn [op_new] in Hn; try discriminate Hn; injection Hn as -> ->.
      + destruct (length l <? 4); cbn [andb] in Hne; [|discriminate Hne]. destruct (hash_is_known ha); [reflexivity|discriminate Hne].
      + destruct (hash_is_known ha); [reflexivity|discriminate Hne]. }
  pose proof (op_cases E op w _ w' HE R) as (_ & _ & _ & [(e' & _ & _ & N)|[(_ & X & _)|(_ & h' & s' & i' & key' & mk' & k' & new & b' & n & _ & _ & _ & _ & _ & _ & _ & _ & Ho & _)]]).
  - exact (N eq_refl _ _ _ _ _ _ P).
  - discriminate X.
  - destruct Ho as [X|(_ & _ & X)]; [discriminate X|]. now contradiction X.
Qed.

Lemma list_step_in : forall op l l' q, list_step op l = Some l' -> In q l' ->
  In q l \/ exists ha, op_new op = Some (q, ha).
Proof.
  intros op l l' q H Hq. unfold list_step in H. destruct (index_of (op_old op) l) as [i|]; [|discriminate H].
  assert (Fi : forall n x, In x (firstn n l) -> In x l).
  { intros n x Hx. rewrite <- (firstn_skipn n l). apply in_or_app. now left. }
  assert (Sk : forall n x, In x (skipn n l) -> In x l).
  { intros n x Hx. rewrite <- (firstn_skipn n l). apply in_or_app. now right. }
  destruct op as [p n ha|p n ha|p|p]; cbn [op_new].
  - destruct ((length l <? 4) && hash_is_known ha)%bool; [|discriminate H]. injection H as <-.
    apply in_app_or in Hq as [Hq|[<-|[]]]; eauto.
  - destruct (hash_is_known ha); [|discriminate H]. injection H as <-.
    apply in_app_or in Hq as [Hq|[<-|Hq]]; eauto. left. exact (Sk (S i) q Hq).
  - injection H as <-. apply in_app_or in Hq as [Hq|Hq]; eauto. left. exact (Sk (S i) q Hq).
  - injection H as <-. auto.
Qed.

Lemma history_run : forall E ops h mk body data l ps, env_ok E -> h_salt h = Some (zeros 16) ->
  keyed E h mk body data l -> mk <> zeros 32 ->
  (forall q, In q l -> In q ps) -> (forall q, In q (passwords ops) -> In q ps /\ kdf_total E q) ->
  (exists n, n <= length ops /\ crossed E ps (snd (run_all E (firstn n ops) data)))
  \/ (Forall2 agrees (fst (run_all E ops data)) (fst (list_run ops l))
      /\ keyed E h mk body (snd (run_all E ops data)) (snd (list_run ops l))
      /\ forall q, In q (snd (list_run ops l)) -> In q ps).
Proof.
  intros E ops. induction ops as [|x ops IH]; intros h mk body data l ps HE Hs Kd Hz Hl Hx.
  - right. split; [constructor|]. auto.
  - assert (Hx1 : forall q, In q (passwords [x]) -> In q ps /\ kdf_total E q).
    { intros q Hq. apply Hx. unfold passwords in *. cbn [flat_map] in *. rewrite app_nil_r in Hq.
      apply in_or_app. now left. }
    assert (Hx2 : forall q, In q (passwords ops) -> In q ps /\ kdf_total E q).
    { intros q Hq. apply Hx. unfold passwords in *. cbn [flat_map]. apply in_or_app. now right. }
    destruct (history_step E x h mk body data l ps HE Hs Kd Hz Hl Hx1) as [C|Hst].
    + left. exists 0. split; [lia|exact C].
    + cbn [run_all list_run].
      destruct (list_step (fst x) l) as [l'|] eqn:Es.
      * destruct Hst as (H1 & H2).
        assert (Hl' : forall q, In q l' -> In q ps).
        { intros q Hq. destruct (list_step_in _ _ _ _ Es Hq) as [|(ha & Hn)]; [auto|].
          apply Hx1. cbn. right. rewrite Hn. now left. }
        destruct (IH h mk body _ l' ps HE Hs H2 Hz Hl' Hx2) as [(n & Hn & C)|(R1 & R2)].
        -- left. exists (S n). split; [cbn [length]; lia|]. cbn [firstn run_all snd]. exact C.
        -- right. cbn [fst snd]. split; [constructor; [exact H1|exact R1]|exact R2].
      * destruct Hst as (H1 & H2).
        destruct (IH h mk body data l ps HE Hs Kd Hz Hl Hx2) as [(n & Hn & C)|(R1 & R2)].
        -- left. exists (S n). split; [cbn [length]; lia|]. cbn [firstn run_all snd]. rewrite H2. exact C.
        -- right. cbn [fst snd]. rewrite H2. split; [constructor; [exact H1|exact R1]|exact R2].
Qed.

Lemma follow_run : forall E ops h mk body data l ps, env_ok E -> h_salt h = Some (zeros 16) ->
  keyed E h mk body data l ->
  (forall q, In q l -> In q ps) -> (forall q, In q (passwords ops) -> In q ps) ->
  (exists n, n <= length ops /\ crossed E ps (snd (run_all E (firstn n ops) data)))
  \/ exists l', follow ops (fst (run_all E ops data)) l = Some l'
      /\ keyed E h mk body (snd (run_all E ops data)) l'
      /\ forall q, In q l' -> In q ps.
Proof.
  intros E ops. induction ops as [|x ops IH]; intros h mk body data l ps HE Hs Kd Hl Hx.
  - right. exists l. auto.
  - assert (Hx1 : forall q, In q (passwords [x]) -> In q ps).
    { intros q Hq. apply Hx. unfold passwords in *. cbn [flat_map] in *. rewrite app_nil_r in Hq.
      apply in_or_app. now left. }
    assert (Hx2 : forall q, In q (passwords ops) -> In q ps).
    { intros q Hq. apply Hx. unfold passwords in *. cbn [flat_map]. apply in_or_app. now right. }
    cbn [run_all follow fst snd].
    destruct (follow_step E x h mk body data l ps HE Hs Kd Hl Hx1) as [C|[((e & He) & Hd)|(Ho & l' & Hst & K')]].
    + left. exists 0. split; [lia|exact C].
    + destruct (IH h mk body data l ps HE Hs Kd Hl Hx2) as [(n & Hn & C)|(l' & R)].
      * left. exists (S n). split; [cbn [length]; lia|]. cbn [firstn run_all snd]. rewrite Hd. exact C.
      * right. exists l'. rewrite He, Hd. exact R.
    + assert (Hl' : forall q, In q l' -> In q ps).
      { intros q Hq. destruct (list_step_in _ _ _ _ Hst Hq) as [|(ha & Hn)]; [auto|].
        apply Hx1. cbn. right. rewrite Hn. now left. }
      destruct (IH h mk body _ l' ps HE Hs K' Hl' Hx2) as [(n & Hn & C)|(l2 & R)].
      * left. exists (S n). split; [cbn [length]; lia|]. cbn [firstn run_all snd]. exact C.
      * right. exists l2. rewrite Ho, Hst. exact R.
Qed.

Lemma run_all_all : forall E ops data, run_all E (firstn (length ops) ops) data = run_all E ops data.
Proof. intros. now rewrite firstn_all. Qed.

Lemma sealed_body_slots : forall E bs h l aad mk p ct cs,
  sealed_body E bs h aad mk p ct cs -> sealed_body E bs (with_slots h l) aad mk p ct cs.
Proof. intros. assumption. Qed.

(** A freshly encrypted file is keyed for its password, and what being keyed for
    a list means for decryption. *)
Lemma encrypt_keyed : forall E req w w', env_ok E ->
  ht_version (er_header_type req) = V5 -> er_detached req = false ->
  d_plan (w_in w) = [] -> d_plan (w_out w) = [] -> d_data (w_out w) = [] ->
  encrypt_execute E req w = (Ok tt, w') ->
  exists h ct, h_salt h = Some (zeros 16)
    /\ keyed E h (draw (w_rng w) 16 32) ct (d_data (w_out w')) [er_raw_key req]
    /\ length (d_data (w_out w')) = 416 + length ct /\ skipn 416 (d_data (w_out w')) = ct
    /\ forall data l pw ps,
         keyed E h (draw (w_rng w) 16 32) ct data l -> In pw ps -> (forall q, In q l -> In q ps) ->
         crossed E ps data
         \/ (length data = 416 + length ct /\ skipn 416 data = ct
             /\ (exists h' slots, v5_header (dev_at data 0) h' slots /\ length slots = length l /\ length slots <= 4)
             /\ forall v, w_in v = dev_at data 0 -> d_plan (w_out v) = [] ->
                  if existsb (bytes_eqb pw) l
                  then exists v', decrypt_execute E false pw v = (Ok tt, v')
                         /\ wrote (w_out v) (w_out v') (d_data (w_in w))
                  else exists e v', decrypt_execute E false pw v = (Err e, v') /\ w_out v' = w_out v).
Proof.
  intros E req w w' HE Hv Hdt Hi Ho Hnil H.
  apply encrypt_ok_inv in H; [|exact HE|unfold BLOCK_SIZE; lia]. cbv zeta in H. rewrite Hdt in H.
  destruct H as (key & wr & b & aad & ct & cs & k & A1 & A2 & A3 & A4 & A5 & A6 & A7 & A8 & A9 & A10 & A11 & A12 & W1 & W2 & W3).
  rewrite (A11 (no_short_nil _ Hi)) in A8. rewrite (W3 (no_short_nil _ Ho)), firstn_all in W1.
  destruct W1 as (W1 & _). cbn [set_pos d_data d_pos] in W1. rewrite Hnil, write_at_empty in W1.
  set (h0 := e_header req (w_rng w) wr) in *.
  set (h := mkHeader (h_type h0) (h_nonce h0) (Some (zeros 16)) (h_keyslots h0)).
  set (slot0 := mkSlot (er_hashing_algorithm req) wr (e_mk_nonce (ht_algorithm (er_header_type req)) (w_rng w)) (e_salt (w_rng w))).
  pose proof (hash_known _ _ _ _ _ A1) as Kh.
  pose proof (e_header_wf_v5 req (w_rng w) wr Hv Kh A3) as Wf. fold h0 in Wf.
  assert (Wh0 : wf_v5 h0).
  { destruct Wf as [(X & _)|[(X & _)|X]]; [| |exact X]; unfold h0, e_header in X; cbn [h_type] in X; rewrite Hv in X; discriminate X. }
  assert (Lb : length b = 416).
  { destruct (serialize_ok h0 Wf) as (b1 & S1 & L1 & _). rewrite A6 in S1. apply Ok_inj in S1. subst b1.
    unfold h0, e_header in L1. cbn [h_type] in L1. now rewrite Hv in L1. }
  exists h, ct. split; [reflexivity|]. split; [|split; [|split]].
  { exists [slot0], b. split; [|split; [|split]].
    - destruct Wh0 as (X1 & X2 & X3). split; [exact X1|]. split; [exact X2|]. exact X3.
    - rewrite <- A6. unfold serialize, h, h0, e_header, with_slots. cbn [h_type]. rewrite Hv. reflexivity.
    - exact W1.
    - constructor; [|constructor]. exists key. auto. }
  { rewrite W1, app_length. lia. }
  { rewrite W1. apply skipn_app_exact. lia. }
  intros data l pw ps R2 Hpw R3.
  destruct (keyed_header _ _ _ _ _ _ (eq_refl : h_salt h = _) R2) as (slots & aad' & V & D & A & L4 & F & b' & Lb' & Hdata & S & W).
  assert (Haad : aad' = aad).
  { assert (X : create_aad h = create_aad h0).
    { unfold create_aad, h, h0, e_header. cbn [h_type]. rewrite Hv. reflexivity. }
    rewrite X, A7 in A. now apply Ok_inj in A. }
  subst aad'.
  destruct (first_matches E h (draw (w_rng w) 16 32) data slots l pw ps HE V F R3 Hpw) as [C|Hm]; [now left|].
  right. split.
  { rewrite Hdata, app_length. lia. }
  split.
  { rewrite Hdata. apply skipn_app_exact. lia. }
  split.
  { exists (with_slots h slots), slots. split; [exact V|]. split; [|exact L4]. symmetry. eapply Forall2_len; eauto. }
  intros v Hin Hout. pose proof (index_of_spec pw l) as Hidx.
  destruct (existsb (bytes_eqb pw) l) eqn:Eb.
  - apply existsb_exists in Eb as (q & Hq & Eq). apply bytes_eqb_eq in Eq. subst q.
    destruct (index_of pw l) as [i|]; [|contradiction].
    apply (decrypt_embedded_honest E BLOCK_SIZE pw (with_slots h slots) b' aad (draw (w_rng w) 16 32)
             (d_data (w_in w)) ct cs v HE); auto.
    + unfold BLOCK_SIZE; lia.
    + right; right; exact W.
    + unfold create_aad, with_slots in *. cbn [h_type h_nonce] in *.
      assert (X : ht_version (h_type h) = V5) by exact Hv. rewrite X in *. exact A.
    + apply (unlocks_first_open E pw (with_slots h slots) slots); eauto.
    + rewrite Hin. reflexivity.
    + rewrite Hin. exact Hdata.
  - destruct (decrypt_execute E false pw v) as (o, v') eqn:Hd.
    destruct (index_of pw l) as [i|].
    { exfalso. destruct Hidx as (Hidx & _). apply nth_error_In in Hidx.
      assert (X : existsb (bytes_eqb pw) l = true) by (apply existsb_exists; exists pw; split; [exact Hidx|apply bytes_eqb_refl]).
      rewrite Eb in X. discriminate X. }
    pose proof (wrong_key_holds E false pw v o v' HE Hd) as (Wk & _).
    destruct Wk as ((e & ->) & Wo); [|eauto].
    intros h' aad'' d' Hh. cbn [header_source] in Hh. rewrite Hin, D in Hh.
    assert (h' = with_slots h slots) as ->.
    { apply (f_equal fst) in Hh. cbn [fst] in Hh. apply Ok_inj in Hh. now inversion Hh. }
    intros m Hu. apply (unlocks_first_open _ _ _ slots) in Hu as (i & Fi); [|exact Hv|reflexivity].
    exact (Hm _ _ Fi).
Qed.

(** C31, the list following the outcomes *)
Lemma history_follow_holds : forall E req w w' ops pw, env_ok E ->
  ht_version (er_header_type req) = V5 -> er_detached req = false ->
  d_plan (w_in w) = [] -> d_plan (w_out w) = [] -> d_data (w_out w) = [] ->
  encrypt_execute E req w = (Ok tt, w') ->
  let data0 := d_data (w_out w') in
  let data := snd (run_all E ops data0) in
  (exists n, n <= length ops
     /\ crossed E (pw :: er_raw_key req :: passwords ops) (snd (run_all E (firstn n ops) data0)))
  \/ exists l, follow ops (fst (run_all E ops data0)) [er_raw_key req] = Some l
      /\ length data = length data0 /\ skipn 416 data = skipn 416 data0
      /\ (exists h slots, v5_header (dev_at data 0) h slots /\ length slots = length l /\ length slots <= 4)
      /\ forall v, w_in v = dev_at data 0 -> d_plan (w_out v) = [] ->
           if existsb (bytes_eqb pw) l
           then exists v', decrypt_execute E false pw v = (Ok tt, v')
                  /\ wrote (w_out v) (w_out v') (d_data (w_in w))
           else exists e v', decrypt_execute E false pw v = (Err e, v') /\ w_out v' = w_out v.
Proof.
  intros E req w w' ops pw HE Hv Hdt Hi Ho Hnil H data0 data.
  destruct (encrypt_keyed E req w w' HE Hv Hdt Hi Ho Hnil H) as (h & ct & Hs & Kd & Ld & Sd & Dec).
  set (ps := pw :: er_raw_key req :: passwords ops).
  destruct (follow_run E ops h (draw (w_rng w) 16 32) ct data0 [er_raw_key req] ps HE Hs Kd)
    as [C|(l & R1 & R2 & R3)].
  { intros q [<-|[]]. right. now left. }
  { intros q Hq. right. right. exact Hq. }
  { left. exact C. }
  fold data in R2. destruct (Dec data l pw ps R2 (or_introl eq_refl) R3) as [C|(D1 & D2 & D3 & D4)].
  { left. exists (length ops). split; [lia|]. rewrite firstn_all. exact C. }
  right. exists l. split; [exact R1|]. split; [unfold data0; lia|]. split; [unfold data0; congruence|]. split; assumption.
Qed.

(** C31, predicting the outcomes as well *)
Lemma history_holds : forall E req w w' ops pw, env_ok E ->
  ht_version (er_header_type req) = V5 -> er_detached req = false ->
  d_plan (w_in w) = [] -> d_plan (w_out w) = [] -> d_data (w_out w) = [] ->
  encrypt_execute E req w = (Ok tt, w') ->
  draw (w_rng w) 16 32 <> zeros 32 ->
  (forall q, In q (passwords ops) -> kdf_total E q) ->
  let data0 := d_data (w_out w') in
  let data := snd (run_all E ops data0) in
  let l := snd (list_run ops [er_raw_key req]) in
  (exists n, n <= length ops
     /\ crossed E (pw :: er_raw_key req :: passwords ops) (snd (run_all E (firstn n ops) data0)))
  \/ (Forall2 agrees (fst (run_all E ops data0)) (fst (list_run ops [er_raw_key req]))
      /\ length data = length data0 /\ skipn 416 data = skipn 416 data0
      /\ (exists h slots, v5_header (dev_at data 0) h slots /\ length slots = length l /\ length slots <= 4)
      /\ forall v, w_in v = dev_at data 0 -> d_plan (w_out v) = [] ->
           if existsb (bytes_eqb pw) l
           then exists v', decrypt_execute E false pw v = (Ok tt, v')
                  /\ wrote (w_out v) (w_out v') (d_data (w_in w))
           else exists e v', decrypt_execute E false pw v = (Err e, v') /\ w_out v' = w_out v).
Proof.
  intros E req w w' ops pw HE Hv Hdt Hi Ho Hnil H Hz Hk data0 data l.
  destruct (encrypt_keyed E req w w' HE Hv Hdt Hi Ho Hnil H) as (h & ct & Hs & Kd & Ld & Sd & Dec).
  set (ps := pw :: er_raw_key req :: passwords ops).
  destruct (history_run E ops h (draw (w_rng w) 16 32) ct data0 [er_raw_key req] ps HE Hs Kd Hz)
    as [C|(R1 & R2 & R3)].
  { intros q [<-|[]]. right. now left. }
  { intros q Hq. split; [right; right; exact Hq|]. apply Hk. exact Hq. }
  { left. exact C. }
  fold data l in R2, R3. destruct (Dec data l pw ps R2 (or_introl eq_refl) R3) as [C|(D1 & D2 & D3 & D4)].
  { left. exists (length ops). split; [lia|]. rewrite firstn_all. exact C. }
  right. split; [exact R1|]. split; [unfold data0; lia|]. split; [unfold data0; congruence|]. split; assumption.
Qed.
