(** The claims of C92, from the lemmas of WipeProofs.v. *)
From Coq Require Import List Arith NArith ZArith Lia Bool String.
From Verif Require Import Bytes BytesFacts Outcome IO IOFacts Primitives Crypto Header KeyModel Stream EncDec
  KeyOps Hash Wipe WipeSpec WipeLib WipeProofs.
Import ListNotations.
Local Open Scope nat_scope.
Local Open Scope list_scope.

Lemma encrypt_keys E bs req w : keys_wiped (memory_after (encrypt_execute_m E bs req) w).
Proof.
  apply settled_keys. exact (proj1 (tame_start _ _ w (tame_encrypt nobody E bs req))).
Qed.
Lemma decrypt_keys E bs det raw w : keys_wiped (memory_after (decrypt_execute_m E bs det raw) w).
Proof.
  apply settled_keys. exact (proj1 (tame_start _ _ w (tame_decrypt_any nobody E bs det raw))).
Qed.
Lemma never_all {S E A} (m : M (S * memory) E A) s : tame nobody Never m -> all_wiped (memory_after m s).
Proof.
  intros T. destruct (tame_start _ _ s T) as [F N]. exact (settled_all _ F N).
Qed.
Lemma key_commands E old new ha w :
  all_wiped (memory_after (key_add_m E old new ha) w)
  /\ all_wiped (memory_after (key_change_m E old new ha) w)
  /\ all_wiped (memory_after (key_delete_m E old) w)
  /\ all_wiped (memory_after (key_verify_m E old) w).
Proof.
  split; [apply never_all, tame_add|]. split; [apply never_all, tame_keychange|].
  split; apply never_all; [apply tame_delete|apply tame_verify].
Qed.

Lemma is_ok_false {E A} (o : outcome E A) : is_ok o = false -> forall a, o <> Ok a.
Proof. intros H a ->. discriminate. Qed.
Lemma same_outcome {S E A} (m : M (S * memory) E A) m0 s :
  same_run m m0 -> fst (m (s, [])) = fst (m0 s).
Proof. intros H. rewrite <- (H s []). reflexivity. Qed.

Lemma encrypt_content E bs req w :
  all_wiped (memory_after (encrypt_execute_m E bs req) w)
  \/ (fst (encrypt_execute_bs E bs req w) <> Ok tt
      /\ all_but_one_wiped bs (memory_after (encrypt_execute_m E bs req) w)).
Proof.
  destruct (tame_start _ _ w (tame_encrypt nobody E bs req)) as [F N].
  destruct (on_failure_spec _ _ _ F N) as [H|[H1 H2]]; [left; exact H|right].
  split; [|exact H2]. rewrite <- (same_outcome _ _ w (same_encrypt E bs req)).
  apply is_ok_false, H1.
Qed.

Lemma bind_good {S E A B} (m : M S E A) (f : A -> M S E B) s b s' :
  bind m f s = (Ok b, s') -> exists a s1, m s = (Ok a, s1) /\ f a s1 = (Ok b, s').
Proof.
  unfold bind. destruct (m s) as [[a|e| |] s1]; try discriminate. intros H. exists a, s1. auto.
Qed.
Lemma header_step_mode det w h aad w' : stream_file det w ->
  header_step det w = (Ok (h, aad), w') -> ht_mode (h_type h) = StreamMode.
Proof.
  intros H R. unfold header_step in R. destruct det.
  - apply bind_good in R as (x & w1 & R1 & R2).
    apply bind_good in R2 as (y & w2 & R2 & R3). unfold ret in R3. injection R3 as -> <-.
    unfold map_err, on_hdr, zoom in R1.
    destruct (deserialize (w_hdr w)) as [[z|e| |] d'] eqn:Ed; try discriminate.
    injection R1 as -> _. exact (H _ _ _ Ed).
  - unfold map_err, on_in, zoom in R.
    destruct (deserialize (w_in w)) as [[z|e| |] d'] eqn:Ed; try discriminate.
    injection R as -> _. exact (H _ _ _ Ed).
Qed.
Lemma decrypt_content E bs det raw w : env_ok E -> stream_file det w ->
  all_wiped (memory_after (decrypt_execute_m E bs det raw) w)
  \/ (fst (decrypt_execute_bs E bs det raw w) <> Ok tt
      /\ all_but_one_wiped bs (memory_after (decrypt_execute_m E bs det raw) w)).
Proof.
  intros ok H.
  assert (P : post nobody (OnFailure bs) [] (is_ok (fst (decrypt_execute_m E bs det raw (w, []))))
                (memory_after (decrypt_execute_m E bs det raw) w)).
  { unfold memory_after. rewrite decrypt_parts. unfold bind at 1 3, alloc. cbn [fst snd].
    unfold owning_protected.
    destruct ((ha <- thru (header_step det);; rest_m E bs (List.length (@nil cell)) raw ha)
                (w, [] ++ [mkCell Key raw true])) as [o [s1 k1]] eqn:R. cbn [fst snd].
    apply post_protected with (x := raw); [intros j []|].
    unfold bind, thru in R. cbn [fst snd] in R.
    destruct (header_step det w) as [[ha|e| |] w1] eqn:Eh.
    - refine (tame_rest (also nobody 0) E bs 0 raw ha ok (or_intror eq_refl) _ _ _ _ _ _ _ R).
      + destruct ha as [h aad]. exact (header_step_mode _ _ _ _ _ H Eh).
      + exact (also_below nobody [] (mkCell Key raw true) (fun j (f : nobody j) => match f with end)).
    - injection R as <- <- <-.
      refine (tame_err (S := world) (A := unit) _ _ e w1 _ _ _ _ (also_below nobody [] (mkCell Key raw true) (fun j (f : nobody j) => match f with end)) eq_refl).
    - injection R as <- <- <-.
      refine (tame_panic (S := world) (E := dec_error) (A := unit) _ _ w1 _ _ _ _ (also_below nobody [] (mkCell Key raw true) (fun j (f : nobody j) => match f with end)) eq_refl).
    - injection R as <- <- <-.
      refine (tame_diverge (S := world) (E := dec_error) (A := unit) _ _ w1 _ _ _ _ (also_below nobody [] (mkCell Key raw true) (fun j (f : nobody j) => match f with end)) eq_refl). }
  apply post_start in P as [F N].
  destruct (on_failure_spec _ _ _ F N) as [Ho|[H1 H2]]; [left; exact Ho|right].
  split; [|exact H2]. rewrite <- (same_outcome _ _ w (same_decrypt E bs det raw)).
  apply is_ok_false, H1.
Qed.

(** ** What stays *)

Lemma update_length f : forall k i, List.length (update i f k) = List.length k.
Proof. induction k as [|c k IH]; intros [|i]; cbn; [reflexivity|reflexivity|reflexivity|now rewrite IH]. Qed.
Lemma update_other f : forall k i j, i <> j -> nth_error (update i f k) j = nth_error k j.
Proof.
  induction k as [|c k IH]; intros [|i] [|j] H; cbn; try reflexivity; [congruence|]. apply IH. congruence.
Qed.
Lemma on_in_out {E A} (m : M dev E A) w o w' : on_in m w = (o, w') -> w_out w' = w_out w.
Proof. unfold on_in, zoom. destruct (m (w_in w)) as [x d]. intros H. injection H as _ <-. reflexivity. Qed.
Lemma on_hdr_out {E A} (m : M dev E A) w o w' : on_hdr m w = (o, w') -> w_out w' = w_out w.
Proof. unfold on_hdr, zoom. destruct (m (w_hdr w)) as [x d]. intros H. injection H as _ <-. reflexivity. Qed.
Lemma on_tr_m_out {E A} (m : M (trace * memory) E A) w k o w' k' :
  on_tr_m m (w, k) = (o, (w', k')) -> w_out w' = w_out w.
Proof.
  unfold on_tr_m. cbn [fst snd]. destruct (m (w_tr w, k)) as [x [t q]]. intros H.
  injection H as _ <- _. reflexivity.
Qed.
Lemma map_err_good {S E F A} (f : E -> F) (m : M S E A) s a s' :
  map_err f m s = (Ok a, s') -> m s = (Ok a, s').
Proof. unfold map_err. destruct (m s) as [[b|e| |] t]; intros H; try discriminate. injection H as <- <-. reflexivity. Qed.
Lemma thru_good {S E A} (m : M S E A) s (k : memory) a s' (k' : memory) :
  thru m (s, k) = (Ok a, (s', k')) -> m s = (Ok a, s') /\ k' = k.
Proof. unfold thru. cbn [fst snd]. destruct (m s) as [o t]. intros H. injection H as -> <- <-. split; reflexivity. Qed.
Lemma header_step_out det w o w' : header_step det w = (Ok o, w') -> w_out w' = w_out w.
Proof.
  unfold header_step. destruct det; intros R.
  - apply bind_good in R as (x & w1 & R1 & R2). apply bind_good in R2 as (y & w2 & R2 & R3).
    unfold ret in R3. injection R3 as _ <-. apply map_err_good, on_hdr_out in R1.
    apply on_in_out in R2. congruence.
  - apply map_err_good, on_in_out in R. exact R.
Qed.
Lemma put_at_empty l d : d_data d = [] -> d_pos d = 0 -> d_data (put_at l d) = l.
Proof.
  intros Hd Hp. unfold put_at. cbn [d_data]. rewrite Hd, Hp. unfold write_at.
  destruct l; [reflexivity|]. cbn. now rewrite app_nil_r.
Qed.

Lemma header_step_read (det : bool) w ha w' : header_step det w = (Ok ha, w') ->
  exists d', deserialize (if det then w_hdr w else w_in w) = (Ok ha, d').
Proof.
  unfold header_step. destruct det; intros R.
  - apply bind_good in R as (x & w1 & R1 & R2). apply bind_good in R2 as (y & w2 & R2 & R3).
    unfold ret in R3. injection R3 as <- _. apply map_err_good in R1. unfold on_hdr, zoom in R1.
    destruct (deserialize (w_hdr w)) as [z d']. injection R1 as -> _. exists d'. reflexivity.
  - apply map_err_good in R. unfold on_in, zoom in R.
    destruct (deserialize (w_in w)) as [z d']. injection R as -> _. exists d'. reflexivity.
Qed.

Lemma memory_mode_stays E bs (det : bool) raw w w' (k' : memory) h aad d' :
  deserialize (if det then w_hdr w else w_in w) = (Ok (h, aad), d') ->
  ht_mode (h_type h) = MemoryMode ->
  d_plan (w_out w) = [] -> d_data (w_out w) = [] -> d_pos (w_out w) = 0 ->
  decrypt_execute_m E bs det raw (w, []) = (Ok tt, (w', k')) ->
  In (mkCell Plain (d_data (w_out w')) false) k'.
Proof.
  intros Hd Hm P1 P2 P3. rewrite decrypt_parts. unfold bind at 1, alloc at 1. cbn [fst snd].
  unfold owning_protected at 1. intros R.
  match type of R with (let '(_, _) := ?t in _) = _ => destruct t as [o [s1 k1]] eqn:R1 end.
  injection R as -> <- <-.
  apply bind_good in R1 as (ha & [w1 m1] & R1 & R2). apply thru_good in R1 as [R1 ->].
  destruct (header_step_read _ _ _ _ R1) as [d2 Hd2]. rewrite Hd in Hd2. injection Hd2 as <- _.
  unfold rest_m in R2. rewrite Hm in R2.
  apply bind_good in R2 as (data & [w2 m2] & R2 & R3). apply thru_good in R2 as [R2 ->].
  unfold bind at 1, alloc at 1 in R3. cbn [fst snd app List.length] in R3.
  unfold owning at 1 in R3.
  match type of R3 with (let '(_, _) := ?t in _) = _ => destruct t as [o [s3 k3]] eqn:R4 end.
  injection R3 as -> <- <-.
  apply bind_good in R4 as (mk & [w3 m3] & R4 & R5). apply map_err_good in R4.
  assert (L : 2 <= List.length m3).
  { assert (T := tame_on_tr _ _ _ (tame_master (also nobody 0) Anything E 0 raw h (or_intror eq_refl))).
    assert (B : forall j, also nobody 0 j -> j < 2) by (intros j [[]| ->]; lia).
    specialize (T w2 [mkCell Key raw true; mkCell Public data true] _ _ _ B R4).
    destruct T as (ka & new & -> & [La _] & _).
    rewrite app_length, La. cbn. lia. }
  apply on_tr_m_out in R4.
  apply bind_good in R5 as (c & [w4 m4] & R5 & R6). apply thru_good in R5 as [R5 ->].
  apply map_err_good in R5. unfold lift in R5.
  apply bind_good in R6 as (m & [w5 m5] & R6 & R7). apply thru_good in R6 as [R6 ->].
  apply map_err_good in R6.
  unfold bind, alloc in R7. cbn [fst snd] in R7. unfold owning in R7.
  match type of R7 with (let '(_, _) := ?t in _) = _ => destruct t as [o [s8 k8]] eqn:R8 end.
  injection R7 as -> <- <-.
  apply thru_good in R8 as [R8 ->]. apply map_err_good in R8.
  assert (O : w_out w5 = w_out w).
  { apply header_step_out in R1. apply map_err_good, on_in_out in R2.
    assert (O4 : w_out w4 = w_out w3) by (destruct (ciphers_initialize mk _); injection R5 as _ <-; reflexivity).
    assert (O5 : w_out w5 = w_out w4).
    { unfold on_tr, zoom in R6. destruct (ciphers_decrypt E c (h_nonce h) aad data (w_tr w4)).
      injection R6 as _ <-. reflexivity. }
    congruence. }
  unfold on_out, zoom in R8. rewrite dev_write_all_ok in R8 by now rewrite O.
  injection R8 as <-. cbn [w_out]. rewrite O, put_at_empty by assumption.
  apply (nth_error_In _ (List.length m3)).
  change (nth_error (update 0 dead_protected (update 1 dead
            (update (List.length m3) dead (m3 ++ [mkCell Plain m true])))) (List.length m3)
          = Some (mkCell Plain m false)).
  rewrite !update_other by lia. rewrite update_at. rewrite nth_error_app2, Nat.sub_diag by lia. reflexivity.
Qed.

Lemma hash_stays H bs h d : d_plan d = [] -> List.length (d_data d) < bs ->
  memory_after (hash_execute_m H bs h) d
  = [mkCell Plain (d_data d ++ zeros (bs - List.length (d_data d))) false].
Proof.
  intros P L. unfold memory_after, hash_execute_m.
  assert (Rw : dev_rewind d = (Ok tt, mkDev (d_data d) 0 [] (d_log d))).
  { unfold dev_rewind, dev_seek_start. rewrite next_ev_nil by exact P. rewrite <- P. reflexivity. }
  unfold bind at 1, thru at 1, map_err. cbn [fst snd]. rewrite Rw. cbn [fst snd].
  unfold bind at 1, alloc. cbn [fst snd app List.length]. unfold owning. cbn [d_data hash_loop_m].
  unfold bind, thru, map_err, dev_read, next_ev. cbn [fst snd d_plan].
  unfold take_at. cbn [d_data d_pos skipn]. rewrite (firstn_all2 (d_data d)) by lia.
  unfold fill, change. cbn [fst snd update]. unfold filled. cbn [c_live c_label c_bytes].
  destruct (List.length (d_data d) =? bs) eqn:Q; [apply Nat.eqb_eq in Q; lia|].
  unfold ret. cbn [fst snd update]. unfold dead. cbn [c_label c_bytes]. f_equal. f_equal.
  unfold zeros. rewrite repeat_length, skipn_repeat. apply firstn_all2.
  rewrite app_length, repeat_length. lia.
Qed.

(** ** Together *)
Lemma same_programs E bs req det old new ha H (h : hr_state H) :
  same_run (encrypt_execute_m E bs req) (encrypt_execute_bs E bs req)
  /\ same_run (decrypt_execute_m E bs det old) (decrypt_execute_bs E bs det old)
  /\ same_run (key_add_m E old new ha) (key_add E old new ha)
  /\ same_run (key_change_m E old new ha) (key_change E old new ha)
  /\ same_run (key_delete_m E old) (key_delete E old)
  /\ same_run (key_verify_m E old) (key_verify E old)
  /\ same_run (hash_execute_m H bs h) (hash_execute_bs H bs h).
Proof.
  split; [apply same_encrypt|]. split; [apply same_decrypt|]. split; [apply same_add|].
  split; [apply same_keychange|]. split; [apply same_delete|]. split; [apply same_verify|].
  apply same_hash_file.
Qed.
Lemma keys_results E bs req det raw w :
  keys_wiped (memory_after (encrypt_execute_m E bs req) w)
  /\ keys_wiped (memory_after (decrypt_execute_m E bs det raw) w).
Proof. split; [apply encrypt_keys|apply decrypt_keys]. Qed.
