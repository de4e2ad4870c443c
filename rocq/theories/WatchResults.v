(** Proofs of C102 and C103. *)
From Coq Require Import List Arith NArith ZArith Lia Bool String.
From Verif Require Import Bytes Outcome IO IOFacts Primitives Crypto Header HeaderSpec HeaderFacts HeaderProofs
  KeyModel Stream EncDec KeyOps FileFacts KeyFacts CliToolsProofs WorldFrames.
From Verif Require Import Overwrite Hash FS Erase Archive.
From Verif Require Import ChoiceSpec Watch WatchSpec WatchProofs.
Import ListNotations.
Local Open Scope nat_scope.
Local Open Scope list_scope.

Lemma same_programs :
  (forall E bs det raw, same_steps (decrypt_execute_w E bs det raw) (decrypt_execute_bs E bs det raw))
  /\ (forall E Z pick bs sched req,
        same_steps (unpack_execute_w E Z pick bs sched req) (unpack_execute_bs E Z pick bs sched req))
  /\ (forall E old new ha, same_steps (key_add_w E old new ha) (key_add E old new ha))
  /\ (forall E old new ha, same_steps (key_change_w E old new ha) (key_change E old new ha))
  /\ (forall E old, same_steps (key_delete_w E old) (key_delete E old))
  /\ (forall E raw, same_steps (key_verify_w E raw) (key_verify E raw)).
Proof.
  split; [exact st_decrypt|]. split; [exact st_unpack|]. split; [exact st_add|].
  split; [exact st_change|]. split; [exact st_delete|exact st_verify].
Qed.

(** ** The header is told *)

Lemma skip_goes size d : d_plan d = [] -> exists d', skip_empty_header size d = (Ok tt, d').
Proof.
  intros P. unfold skip_empty_header, bind, or_else.
  destruct (dev_read_exact size d) as [o d1] eqn:R. pose proof (dev_read_exact_spec _ _ _ _ R) as (_ & _ & P1 & SP).
  specialize (P1 P).
  assert (RW : exists d2, map_err (fun _ : io_error => DecRewindDataReader) dev_rewind d1 = (Ok tt, d2)).
  { unfold map_err, dev_rewind, dev_seek_start, next_ev. rewrite P1. eexists. reflexivity. }
  destruct o as [b|[e b]| |]; try contradiction.
  - destruct (negb (all_zero b)); [exact RW|]. eexists. reflexivity.
  - destruct SP as (k & _ & _ & _ & _ & _ & EO). rewrite (EO P). cbn [fst snd]. unfold ret.
    destruct (negb (all_zero _)); [exact RW|]. eexists. reflexivity.
Qed.

Lemma read_header_goes (det : bool) w h aad d' : d_plan (w_in w) = [] ->
  deserialize (if det then w_hdr w else w_in w) = (Ok (h, aad), d') ->
  exists w1, read_header det w = (Ok (h, aad), w1).
Proof.
  intros P D. unfold read_header. destruct det.
  - unfold bind, map_err, on_hdr, on_in, zoom. rewrite D. cbn [w_in w_out w_hdr w_rng w_tr fst].
    destruct (skip_goes (get_size (ht_version (h_type h))) (w_in w) P) as (d2 & ->). eexists. reflexivity.
  - unfold map_err, on_in, zoom. rewrite D. eexists. reflexivity.
Qed.

Lemma header_told E bs (det : bool) raw w t :
  d_plan (w_in w) = [] -> d_plan (w_hdr w) = [] ->
  let d := if det then w_hdr w else w_in w in
  (exists rest, events (decrypt_execute_w E bs det raw) w = HeaderTold t :: rest)
  <-> readable t (skipn (d_pos d) (d_data d)).
Proof.
  intros P1 P2 d. assert (PD : d_plan d = []) by (subst d; destruct det; assumption).
  destruct (parser_total d) as [_ PT]. specialize (PT PD t). rewrite <- PT. clear PT.
  destruct (decrypt_notes E bs det raw w) as [[-> NO]|(h & aad & d' & w1 & rest & D & _ & -> & _)].
  - split; [intros (rest & X); discriminate|]. intros (h & aad & d' & D & _).
    destruct (read_header_goes det w _ _ _ P1 D) as (w1 & X). exfalso. exact (NO _ _ _ X).
  - split.
    + intros (rest' & X). injection X as <- _. exists h, aad, d'. split; [exact D|reflexivity].
    + intros (h2 & aad2 & d2 & D2 & <-). unfold d in D2. rewrite D in D2. injection D2 as <- <- <-. exists rest. reflexivity.
Qed.

Lemma header_once E bs det raw w :
  let ev := events (decrypt_execute_w E bs det raw) w in
  (ev = [] \/ exists t rest, ev = HeaderTold t :: rest /\ count is_told rest = 0)
  /\ (fst (decrypt_execute_bs E bs det raw w) = Ok tt -> ev <> []).
Proof.
  intros ev. split.
  - destruct (decrypt_notes E bs det raw w) as [[X _]|(h & aad & d' & w1 & rest & _ & _ & X & W)]; [left; exact X|].
    right. exists (h_type h), rest. split; [exact X|apply W].
  - intros OK. subst ev.
    destruct (decrypt_notes E bs det raw w) as [[_ NO]|(h & aad & d' & w1 & rest & _ & _ & X & W)];
      [|rewrite X; discriminate].
    exfalso. pose proof (st_decrypt E bs det raw w []) as S. rewrite <- S in OK. cbn [fst] in OK.
    rewrite decrypt_w_split in OK. unfold bind at 1, plainly, zoom in OK. cbn [fst snd] in OK.
    destruct (read_header det w) as [o w1]. destruct o as [[h aad]|e| |]; try discriminate.
    exact (NO _ _ _ eq_refl).
Qed.

(** ** The work *)

Lemma decrypt_work E bs det raw w :
  let ev := events (decrypt_execute_w E bs det raw) w in
  let n := List.length (d_data (w_in w)) in
  affordable [raw] ev /\ count is_stretch ev <= 4
  /\ count is_check ev <= 5 + n / (bs + 16) /\ checked_bytes ev <= 4 * 48 + n.
Proof.
  intros ev n. subst ev.
  destruct (decrypt_notes E bs det raw w) as [[-> _]|(h & aad & d' & w1 & rest & _ & _ & -> & W)].
  - repeat split; try (cbn; lia); contradiction.
  - destruct W as (W1 & W2 & W3 & W4 & _). fold n in W3, W4. split.
    { intros h' pw salt [X|X]; [discriminate|exact (W1 _ _ _ X)]. }
    unfold count in *. cbn [filter is_stretch is_check checked_bytes]. lia.
Qed.

Lemma slots_of_open w h slots w1 : open_header w = (Ok (h, slots), w1) -> Forall slot_good slots /\ List.length slots <= 4.
Proof.
  intros H. apply open_header_spec in H as (_ & _ & _ & _ & _ & _ & _ & _ & K & (aad & d' & D) & _).
  exact (parsed_slots _ _ _ _ D _ K).
Qed.

Lemma any_tr w t : @any world w -> any (mkWorld (w_in w) (w_out w) (w_hdr w) (w_rng w) t).
Proof. intros; exact Logic.I. Qed.

(** Any program that opens the header first *)
Lemma opened_work {A} pws n (k : header * list keyslot -> M (world * list event) key_error A) :
  (forall h slots, Forall slot_good slots -> List.length slots <= 4 ->
     adds any (within pws n 4 192) (k (h, slots))) ->
  forall w o w' ev, bind (plainly open_header) k (w, []) = (o, (w', ev)) -> within pws n 4 192 ev.
Proof.
  intros H w o w' ev R. unfold bind, plainly, zoom in R. cbn [fst snd] in R.
  destruct (open_header w) as [o1 w1] eqn:EO.
  assert (Z : within pws n 4 192 []) by (apply (within_more pws pws 0 0 0); [apply within_nil|apply incl_refl|lia|lia|lia]).
  destruct o1 as [[h slots]|e| |]; try (injection R as _ _ <-; exact Z).
  destruct (slots_of_open _ _ _ _ EO) as [F L].
  destruct (H h slots F L _ _ _ _ _ Logic.I R) as (_ & ev' & -> & W). exact W.
Qed.

Lemma ad_found pws E slots raw a : In raw pws -> Forall slot_good slots -> List.length slots <= 4 ->
  adds any (within pws 4 4 192) (on_tr_w (decrypt_v5_master_key_with_index_w E slots raw a)).
Proof.
  intros HI F L. apply ad_on_tr; [intros; apply any_tr; exact Logic.I|].
  apply (ad_more _ _ (List.length slots) (List.length slots) (48 * List.length slots)); try lia.
  apply ad_index; assumption.
Qed.

Lemma known_listed h : (exists k, In (h, k) kdf_table) -> known_hash h.
Proof. intros (k & H). unfold known_hash. cbn in H |- *. intuition congruence. Qed.

Lemma work_of pws n w (m : M (world * list event) key_error unit) :
  (forall o w' ev, m (w, []) = (o, (w', ev)) -> within pws n 4 192 ev) ->
  affordable pws (events m w) /\ count is_stretch (events m w) <= n /\ count is_check (events m w) <= 4
  /\ checked_bytes (events m w) <= 4 * 48 /\ count is_told (events m w) = 0.
Proof.
  intros H. unfold events. destruct (m (w, [])) as [o [w' ev]]. exact (H _ _ _ eq_refl).
Qed.

Lemma key_work E old new ha w : (exists k, In (ha, k) kdf_table) ->
  (forall m, m = key_add_w E old new ha \/ m = key_change_w E old new ha ->
     affordable [old; new] (events m w) /\ count is_stretch (events m w) <= 5
     /\ count is_check (events m w) <= 4 /\ checked_bytes (events m w) <= 4 * 48 /\ count is_told (events m w) = 0)
  /\ (forall m, m = key_delete_w E old \/ m = key_verify_w E old ->
     affordable [old] (events m w) /\ count is_stretch (events m w) <= 4
     /\ count is_check (events m w) <= 4 /\ checked_bytes (events m w) <= 4 * 48 /\ count is_told (events m w) = 0).
Proof.
  intros KH. apply known_listed in KH. split; intros m [->| ->]; apply work_of; intros o w' ev R.
  - revert R. unfold key_add_w. apply opened_work. intros h slots F L.
    apply (ad_more _ _ (4 + (0 + (0 + (1 + (0 + 0))))) (4 + (0 + (0 + (0 + (0 + 0))))) (192 + (0 + (0 + (0 + (0 + 0)))))); try lia.
    apply ad_bind; [apply ad_found; [left; reflexivity|exact F|exact L]|intros mk].
    destruct (List.length slots =? 4); [apply (ad_more _ _ 0 0 0); [apply ad_err|lia|lia|lia]|].
    apply ad_bind; [apply ad_plainly, any_kept|intros salt].
    apply ad_bind; [apply ad_plainly, any_kept|intros nonce].
    apply ad_bind; [apply ad_map_err, ad_hash; [right; left; reflexivity|exact KH]|intros kn].
    apply ad_bind; [apply ad_plainly, any_kept|intros enc]. apply ad_plainly, any_kept.
  - revert R. unfold key_change_w. apply opened_work. intros h slots F L.
    apply (ad_more _ _ (4 + (0 + (1 + (0 + (0 + 0))))) (4 + (0 + (0 + (0 + (0 + 0))))) (192 + (0 + (0 + (0 + (0 + 0)))))); try lia.
    apply ad_bind; [apply ad_found; [left; reflexivity|exact F|exact L]|intros mk].
    apply ad_bind; [apply ad_plainly, any_kept|intros salt].
    apply ad_bind; [apply ad_map_err, ad_hash; [right; left; reflexivity|exact KH]|intros kn].
    apply ad_bind; [apply ad_plainly, any_kept|intros nonce].
    apply ad_bind; [apply ad_plainly, any_kept|intros enc].
    destruct (snd mk <? List.length slots); [apply ad_plainly, any_kept|apply ad_panic].
  - revert R. unfold key_delete_w. apply opened_work. intros h slots F L.
    apply (ad_more _ _ (4 + 0) (4 + 0) (192 + 0)); try lia.
    apply ad_bind; [apply ad_found; [left; reflexivity|exact F|exact L]|intros mk].
    destruct (snd mk <? List.length slots); [apply ad_plainly, any_kept|apply ad_panic].
  - unfold key_verify_w in R. unfold bind at 1, plainly, zoom, map_err, on_in, zoom in R. cbn [fst snd] in R.
    assert (Z : within [old] 4 4 192 []) by (apply (within_more [old] [old] 0 0 0); [apply within_nil|apply incl_refl|lia|lia|lia]).
    destruct (deserialize (w_in w)) as [o1 d1] eqn:ED.
    destruct o1 as [[h aad]|e| |]; try (injection R as _ _ <-; exact Z). cbn [fst] in R.
    destruct (below_v5 (ht_version (h_type h))); [injection R as _ _ <-; exact Z|].
    destruct (h_keyslots h) as [slots|] eqn:HK; [|injection R as _ _ <-; exact Z].
    destruct (parsed_slots _ _ _ _ ED _ HK) as [F L].
    assert (AD : adds any (within [old] (4 + 0) (4 + 0) (192 + 0))
        (bind (on_tr_w (decrypt_v5_master_key_with_index_w E slots old (ht_algorithm (h_type h)))) (fun _ => ret tt))).
    { apply ad_bind; [apply ad_found; [left; reflexivity|exact F|exact L]|intros mk; apply ad_ret]. }
    destruct (AD _ _ _ _ _ Logic.I R) as (_ & ev' & -> & W). exact W.
Qed.

(** ** Unpacking *)

Lemma accepted_length es : forall answers,
  List.length (accepted es answers) = List.length (filter (fun b => b) (firstn (List.length es) answers)).
Proof.
  unfold accepted. induction es as [|e es IH]; intros [|b bs]; try reflexivity.
  cbn [combine filter List.length firstn snd]. destruct b; cbn [map List.length]; rewrite IH; reflexivity.
Qed.

Lemma told_paths : forall ps, filter is_told (map PathAsked ps) = map PathAsked ps.
Proof. induction ps as [|p ps IH]; cbn [map filter is_told]; [reflexivity|]. rewrite IH. reflexivity. Qed.

Lemma told_none : forall l, count is_told l = 0 -> filter is_told l = [].
Proof. intros l H. unfold count in H. destruct (filter is_told l); [reflexivity|discriminate]. Qed.

Lemma archive_notes Z sched req h s l o s' l' :
  unpack_archive_w Z sched req h (s, l) = (o, (s', l')) ->
  (l' = l /\ forall a, o <> Ok a)
  \/ exists ps answers, ur_ask req ps = Some answers
       /\ l' = l ++ map PathAsked ps ++ [CountTold (List.length (filter (fun b => b) (firstn (List.length ps) answers)))].
Proof.
  unfold unpack_archive_w. cbv zeta. cbn [fst snd]. intros R.
  destruct (run_handle (ow_dev dev_rewind) h s) as [[o1 h1] s1].
  destruct o1 as [u|e| |]; try (injection R as <- _ <-; left; split; [reflexivity|discriminate]).
  destruct (z_decode Z (s_data s1 (h_ino h))) as [zs|]; try (injection R as <- _ <-; left; split; [reflexivity|discriminate]).
  destruct (ur_ask req (map fst (entities (ur_out req) zs))) as [answers|] eqn:EA;
    try (injection R as <- _ <-; left; split; [reflexivity|discriminate]).
  right. exists (map fst (entities (ur_out req) zs)), answers. split; [exact EA|].
  unfold plainly, zoom in R. cbn [fst snd] in R.
  match type of R with context [let '(_, _) := ?m s1 in _] => destruct (m s1) as [o2 s2] end.
  injection R as _ _ <-. rewrite accepted_length, map_map, map_length. reflexivity.
Qed.

Lemma unpack_run E Z pick bs sched req a o a' ev :
  unpack_execute_w E Z pick bs sched req (a, []) = (o, (a', ev)) ->
  (affordable [ur_raw_key req] ev /\ count is_stretch ev <= 4)
  /\ (filter is_told ev = [] \/ (exists t, filter is_told ev = [HeaderTold t]) \/ told_order req ev)
  /\ (o = Ok tt -> told_order req ev).
Proof.
  intros R. unfold unpack_execute_w in R. unfold bind at 1, plainly at 1, zoom in R. cbn [fst snd] in R.
  assert (Z0 : affordable [ur_raw_key req] [] /\ count is_stretch [] <= 4) by (split; [intros ? ? ? []|cbn; lia]).
  destruct (map_err UnStorage (on_sys (create_temp_file pick)) a) as [o1 a1].
  destruct o1 as [tmp|e| |];
    try (injection R as <- _ <-; split; [exact Z0|split; [left; reflexivity|discriminate]]).
  destruct tmp as [h0|p]; [|injection R as <- _ <-; split; [exact Z0|split; [left; reflexivity|discriminate]]].
  unfold bind at 1 in R. unfold run_world in R. cbv zeta in R. cbn [fst snd] in R.
  set (det := match ur_hdr req with Some _ => true | None => false end) in *.
  set (w := mkWorld _ _ _ _ _) in R.
  pose proof (decrypt_work E bs det (ur_raw_key req) w) as (A1 & A2 & _ & _).
  pose proof (header_once E bs det (ur_raw_key req) w) as (T1 & T2).
  pose proof (st_decrypt E bs det (ur_raw_key req) w []) as S.
  unfold events in A1, A2, T1, T2.
  destruct (decrypt_execute_w E bs det (ur_raw_key req) (w, [])) as [o2 [w2 l2]]. cbn [fst snd] in *.
  rewrite <- S in T2. cbn [fst] in T2. clear S.
  assert (T : filter is_told l2 = [] \/ exists t, filter is_told l2 = [HeaderTold t]).
  { destruct T1 as [->|(t & rest & -> & C)]; [left; reflexivity|right; exists t].
    cbn [filter is_told]. rewrite (told_none _ C). reflexivity. }
  assert (DONE : forall ev', ev' = l2 -> (affordable [ur_raw_key req] ev' /\ count is_stretch ev' <= 4)
    /\ (filter is_told ev' = [] \/ (exists t, filter is_told ev' = [HeaderTold t]) \/ told_order req ev')).
  { intros ev' ->. split; [split; assumption|]. tauto. }
  destruct o2 as [u|e| |]; try (injection R as <- _ <-; destruct (DONE l2 eq_refl) as [D1 D2];
    split; [exact D1|split; [exact D2|discriminate]]).
  destruct u. unfold bind at 1, plainly at 1, zoom in R. cbn [fst snd] in R.
  match type of R with context [map_err UnStorage (on_sys (file_len ?f)) ?x] =>
    destruct (map_err UnStorage (on_sys (file_len f)) x) as [o3 a3] end.
  destruct o3 as [cap|e| |]; try (injection R as <- _ <-; destruct (DONE l2 eq_refl) as [D1 D2];
    split; [exact D1|split; [exact D2|discriminate]]).
  unfold bind at 1, on_sys_w in R. cbn [fst snd] in R.
  match type of R with context [unpack_archive_w Z sched req ?r ?x] =>
    destruct (unpack_archive_w Z sched req r x) as [o4 [s4 l4]] eqn:EU end.
  assert (ORD : forall t ps answers, filter is_told l2 = [HeaderTold t] -> ur_ask req ps = Some answers ->
    l4 = l2 ++ map PathAsked ps ++ [CountTold (List.length (filter (fun b => b) (firstn (List.length ps) answers)))] ->
    told_order req l4).
  { intros t ps answers T0 EA ->. exists t, ps, answers. split; [exact EA|].
    rewrite !filter_app, told_paths, T0. reflexivity. }
  assert (L4 : affordable [ur_raw_key req] l4 /\ count is_stretch l4 <= 4).
  { apply archive_notes in EU as [[-> _]|(ps & answers & EA & ->)]; [split; assumption|].
    assert (NS : count is_stretch (map PathAsked ps ++ [CountTold (List.length (filter (fun b => b) (firstn (List.length ps) answers)))]) = 0).
    { clear. unfold count. rewrite filter_app. cbn [filter is_stretch]. rewrite app_nil_r.
      induction ps as [|p ps IH]; [reflexivity|exact IH]. }
    split; [|rewrite count_app, NS; lia].
    intros h pw salt I. apply in_app_iff in I as [I|I]; [exact (A1 _ _ _ I)|].
    exfalso. apply in_app_iff in I as [I|[I|[]]]; [|discriminate].
    apply in_map_iff in I as (p & X & _). discriminate. }
  assert (T4 : (filter is_told l4 = [] \/ (exists t, filter is_told l4 = [HeaderTold t]) \/ told_order req l4)
     /\ ((exists h2, o4 = Ok h2) -> told_order req l4)).
  { apply archive_notes in EU as [[-> NO]|(ps & answers & EA & X)].
    - split; [tauto|]. intros (h2 & ->). exfalso. exact (NO h2 eq_refl).
    - assert (X2 : exists t, filter is_told l2 = [HeaderTold t]).
      { destruct T1 as [->|(t & rest & -> & C)]; [exfalso; exact (T2 eq_refl eq_refl)|].
        exists t. cbn [filter is_told]. rewrite (told_none _ C). reflexivity. }
      destruct X2 as (t & X2). pose proof (ORD t ps answers X2 EA X) as TO. split; [right; right; exact TO|intros _; exact TO]. }
  destruct T4 as [T4 T5].
  destruct o4 as [h2|e| |]; try (injection R as <- _ <-; split; [exact L4|split; [exact T4|discriminate]]).
  unfold plainly, zoom in R. cbn [fst snd] in R.
  match type of R with context [let '(_, _) := ?m ?x in _] => destruct (m x) as [o5 a5] end.
  injection R as <- _ <-. split; [exact L4|]. split; [exact T4|]. intros _. apply T5. eexists. reflexivity.
Qed.

Lemma unpack_notes E Z pick bs sched req a :
  let ev := events (unpack_execute_w E Z pick bs sched req) a in
  (affordable [ur_raw_key req] ev /\ count is_stretch ev <= 4)
  /\ (filter is_told ev = [] \/ (exists t, filter is_told ev = [HeaderTold t]) \/ told_order req ev)
  /\ (fst (unpack_execute_bs E Z pick bs sched req a) = Ok tt -> told_order req ev).
Proof.
  intros ev. subst ev. unfold events. pose proof (st_unpack E Z pick bs sched req a []) as S. rewrite <- S. cbn [fst].
  destruct (unpack_execute_w E Z pick bs sched req (a, [])) as [o [a' ev]] eqn:R. exact (unpack_run _ _ _ _ _ _ _ _ _ _ R).
Qed.
