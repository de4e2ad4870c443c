(** The functions of Watch.v do what those they were made from do; what they note. *)
From Coq Require Import List Arith NArith ZArith Lia Bool String.
From Verif Require Import Bytes Outcome IO IOFacts Primitives Crypto Header HeaderSpec HeaderFacts HeaderProofs
  KeyModel Stream EncDec KeyOps FileFacts KeyFacts CliToolsProofs WorldFrames.
From Verif Require Import Overwrite Hash FS Erase Archive.
From Verif Require Import ChoiceSpec Watch WatchSpec.
Import ListNotations.
Local Open Scope nat_scope.
Local Open Scope list_scope.

(** ** The same programs *)

Section Same.
Context {S : Type}.
Lemma st_plainly {E A} (m : M S E A) : same_steps (plainly m) m.
Proof.
  intros s l. unfold plainly, zoom. cbn [fst snd]. destruct (m s) as [o s']. reflexivity.
Qed.
Lemma st_ret {E A} (a : A) : same_steps (ret a : M (S * list event) E A) (ret a).
Proof. intros s l. reflexivity. Qed.
Lemma st_lift {E A} (o : outcome E A) : same_steps (lift o : M (S * list event) E A) (lift o).
Proof. intros s l. reflexivity. Qed.
Lemma st_err {E A} (e : E) : same_steps (err e : M (S * list event) E A) (err e).
Proof. intros s l. reflexivity. Qed.
Lemma st_panic {E A} : same_steps (panic : M (S * list event) E A) panic.
Proof. intros s l. reflexivity. Qed.
Lemma st_diverge {E A} : same_steps (diverge : M (S * list event) E A) diverge.
Proof. intros s l. reflexivity. Qed.
Lemma st_note {E A} e (m : M (S * list event) E A) m0 : same_steps m m0 -> same_steps (bind (note e) (fun _ => m)) m0.
Proof. intros H s l. exact (H s (l ++ [e])). Qed.
Lemma st_bind {E A B} (m : M (S * list event) E A) m0 (k : A -> M (S * list event) E B) k0 :
  same_steps m m0 -> (forall a, same_steps (k a) (k0 a)) -> same_steps (bind m k) (bind m0 k0).
Proof.
  intros Hm Hk s l. specialize (Hm s l). unfold bind. rewrite <- Hm.
  destruct (m (s, l)) as [[a|e| |] [s1 l1]]; cbn [fst snd]; try reflexivity. exact (Hk a s1 l1).
Qed.
Lemma st_map_err {E E' A} (f : E -> E') (m : M (S * list event) E A) m0 :
  same_steps m m0 -> same_steps (map_err f m) (map_err f m0).
Proof.
  intros Hm s l. specialize (Hm s l). unfold map_err. rewrite <- Hm.
  destruct (m (s, l)) as [[a|e| |] [s1 l1]]; reflexivity.
Qed.
Lemma st_or_else {E E' A} (m : M (S * list event) E A) m0 (k : E -> M (S * list event) E' A) k0 :
  same_steps m m0 -> (forall a, same_steps (k a) (k0 a)) -> same_steps (or_else m k) (or_else m0 k0).
Proof.
  intros Hm Hk s l. specialize (Hm s l). unfold or_else. rewrite <- Hm.
  destruct (m (s, l)) as [[a|e| |] [s1 l1]]; cbn [fst snd]; try reflexivity. exact (Hk e s1 l1).
Qed.
End Same.

Lemma st_on_tr {E A} (m : M (trace * list event) E A) m0 : same_steps m m0 -> same_steps (on_tr_w m) (on_tr m0).
Proof.
  intros H w k. specialize (H (w_tr w) k). unfold on_tr_w, on_tr, zoom. cbn [fst snd].
  destruct (m (w_tr w, k)) as [o [t k']]. cbn [fst snd] in *. rewrite <- H. reflexivity.
Qed.
Lemma st_on_sys {E A} (m : M (sys * list event) E A) m0 : same_steps m m0 -> same_steps (on_sys_w m) (on_sys m0).
Proof.
  intros H w k. specialize (H (fst w) k). unfold on_sys_w, on_sys, zoom. cbn [fst snd].
  destruct (m (fst w, k)) as [o [t k']]. cbn [fst snd] in *. rewrite <- H. reflexivity.
Qed.

Ltac same_steps :=
  repeat match goal with
  | |- same_steps (bind (note _) _) _ => apply st_note
  | |- same_steps (plainly _) _ => apply st_plainly
  | |- same_steps (on_tr_w _) _ => apply st_on_tr
  | |- same_steps (on_sys_w _) _ => apply st_on_sys
  | |- same_steps (map_err _ _) _ => apply st_map_err
  | |- same_steps (or_else _ _) _ => apply st_or_else; [|intros ?]
  | |- same_steps (ret _) _ => apply st_ret
  | |- same_steps (lift _) _ => apply st_lift
  | |- same_steps (err _) _ => apply st_err
  | |- same_steps panic _ => apply st_panic
  | |- same_steps diverge _ => apply st_diverge
  | |- same_steps (bind _ _) (bind _ _) => apply st_bind; [|intros ?]
  | |- same_steps (if ?c then _ else _) _ => destruct c
  end.

Lemma st_hash {S} E h pw salt : same_steps (hash_w E h pw salt : M (S * _) _ _) (lift (hash E h pw salt)).
Proof. unfold hash_w. same_steps. Qed.
Lemma st_argon {S} E pw salt v :
  same_steps (argon2id_hash_w E pw salt v : M (S * _) _ _) (lift (argon2id_hash E pw salt v)).
Proof. unfold argon2id_hash_w. same_steps. Qed.
Lemma st_dec E c n a ct : same_steps (ciphers_decrypt_w E c n a ct) (ciphers_decrypt E c n a ct).
Proof. unfold ciphers_decrypt_w. same_steps. Qed.
Lemma st_try E a raw k : same_steps (try_keyslot_w E a raw k) (try_keyslot E a raw k).
Proof. unfold try_keyslot_w, try_keyslot. same_steps; [apply st_hash|apply st_dec]. Qed.
Lemma st_find E a raw : forall l, same_steps (find_keyslot_w E a raw l) (find_keyslot E a raw l).
Proof. induction l as [|k l IH]; cbn [find_keyslot_w find_keyslot]; same_steps; [apply st_try|exact IH]. Qed.
Lemma st_master E raw h : same_steps (decrypt_master_key_w E raw h) (decrypt_master_key E raw h).
Proof.
  unfold decrypt_master_key_w, decrypt_master_key.
  destruct (ht_version (h_type h)); [destruct (h_salt h)|destruct (h_salt h)|destruct (h_salt h)
    |destruct (h_keyslots h) as [[|k l]|]|destruct (h_keyslots h)]; same_steps;
    first [apply st_argon|apply st_try|apply st_find].
Qed.
Lemma st_loop E bs : forall fuel s aad, same_steps (decrypt_loop_w E bs fuel s aad) (decrypt_loop E bs fuel s aad).
Proof. induction fuel as [|fuel IH]; intros s aad; cbn [decrypt_loop_w decrypt_loop]; same_steps. apply IH. Qed.
Lemma st_file E bs s aad : same_steps (decrypt_file_w E bs s aad) (decrypt_file_bs E bs s aad).
Proof.
  intros w l. unfold decrypt_file_w, decrypt_file_bs. cbn [fst].
  assert (H : same_steps (decrypt_loop_w E bs (S (List.length (d_data (w_in w)))) s aad ;;
     plainly (map_err (fun _ => SFlush) (on_out dev_flush)))
    (decrypt_loop E bs (S (List.length (d_data (w_in w)))) s aad ;;
     map_err (fun _ => SFlush) (on_out dev_flush))).
  { same_steps. apply st_loop. }
  exact (H w l).
Qed.
Lemma st_decrypt E bs det raw : same_steps (decrypt_execute_w E bs det raw) (decrypt_execute_bs E bs det raw).
Proof.
  unfold decrypt_execute_w, decrypt_execute_bs. apply st_bind; [apply st_plainly|intros [h aad]].
  apply st_note. destruct (ht_mode (h_type h)); same_steps; first [apply st_master|apply st_dec|apply st_file].
Qed.
Lemma st_search E a raw : forall l i, same_steps (search_keyslots_w E a raw i l) (search_keyslots E a raw i l).
Proof.
  induction l as [|k l IH]; intros i; cbn [search_keyslots_w search_keyslots]; same_steps; [apply st_hash|].
  intros t ev. match goal with |- context [ciphers_decrypt_w E ?c ?n ?x ?y] =>
    pose proof (st_dec E c n x y t ev) as D; destruct (ciphers_decrypt_w E c n x y (t, ev)) as [o [t' ev']] end.
  cbn [fst snd] in D. rewrite <- D. destruct o; try reflexivity. exact (IH (S i) t' ev').
Qed.
Lemma st_index E slots raw a : same_steps (decrypt_v5_master_key_with_index_w E slots raw a)
  (decrypt_v5_master_key_with_index E slots raw a).
Proof.
  unfold decrypt_v5_master_key_with_index_w, decrypt_v5_master_key_with_index. same_steps. apply st_search.
Qed.
Lemma st_add E old new ha : same_steps (key_add_w E old new ha) (key_add E old new ha).
Proof.
  unfold key_add_w, key_add. apply st_bind; [apply st_plainly|intros [h slots]]. same_steps; first [apply st_index|apply st_hash].
Qed.
Lemma st_change E old new ha : same_steps (key_change_w E old new ha) (key_change E old new ha).
Proof.
  unfold key_change_w, key_change. apply st_bind; [apply st_plainly|intros [h slots]]. same_steps; first [apply st_index|apply st_hash].
Qed.
Lemma st_delete E old : same_steps (key_delete_w E old) (key_delete E old).
Proof.
  unfold key_delete_w, key_delete. apply st_bind; [apply st_plainly|intros [h slots]]. same_steps; apply st_index.
Qed.
Lemma st_verify E raw : same_steps (key_verify_w E raw) (key_verify E raw).
Proof.
  unfold key_verify_w, key_verify. same_steps. destruct (h_keyslots (fst a)); same_steps. apply st_index.
Qed.

Lemma st_archive Z sched req h : same_steps (unpack_archive_w Z sched req h) (unpack_archive Z sched req h).
Proof.
  intros s l. unfold unpack_archive_w, unpack_archive. cbv zeta. cbn [fst snd].
  destruct (run_handle (ow_dev dev_rewind) h s) as [[o h1] s1]. destruct o as [u|e| |]; try reflexivity.
  destruct (z_decode Z (s_data s1 (h_ino h))) as [zs|]; try reflexivity.
  destruct (ur_ask req (map fst (entities (ur_out req) zs))) as [answers|]; try reflexivity.
  apply st_plainly.
Qed.
Lemma st_unpack E Z pick bs sched req :
  same_steps (unpack_execute_w E Z pick bs sched req) (unpack_execute_bs E Z pick bs sched req).
Proof.
  unfold unpack_execute_w, unpack_execute_bs. apply st_bind; [apply st_plainly|intros [h0|p]]; [|apply st_panic].
  apply st_bind; [|intros r; same_steps; apply st_archive].
  intros a l. unfold run_world. cbv zeta. cbn [fst snd].
  match goal with |- context [decrypt_execute_w E bs ?d ?r (?w, l)] =>
    pose proof (st_decrypt E bs d r w l) as D; destruct (decrypt_execute_w E bs d r (w, l)) as [o [w' l']] end.
  cbn [fst snd] in D. rewrite <- D. destruct o; reflexivity.
Qed.

(** ** What is noted *)

Definition within (pws : list bytes) (n c z : nat) (ev : list event) : Prop :=
  affordable pws ev /\ count is_stretch ev <= n /\ count is_check ev <= c
  /\ checked_bytes ev <= z /\ count is_told ev = 0.

Lemma count_app f a b : count f (a ++ b) = count f a + count f b.
Proof. unfold count. rewrite filter_app, app_length. reflexivity. Qed.
Lemma bytes_app a b : checked_bytes (a ++ b) = checked_bytes a + checked_bytes b.
Proof.
  induction a as [|e a IH]; [reflexivity|]. destruct e; cbn [app checked_bytes]; rewrite IH; lia.
Qed.
Lemma within_nil pws : within pws 0 0 0 [].
Proof. repeat split; try reflexivity; try lia; contradiction. Qed.
Lemma within_app pws n c z n' c' z' a b : within pws n c z a -> within pws n' c' z' b ->
  within pws (n + n') (c + c') (z + z') (a ++ b).
Proof.
  intros (A1 & A2 & A3 & A4 & A5) (B1 & B2 & B3 & B4 & B5). unfold within.
  rewrite !count_app, bytes_app. repeat split; try lia.
  - apply in_app_iff in H as [H|H]; [apply (A1 _ _ _ H)|apply (B1 _ _ _ H)].
  - apply in_app_iff in H as [H|H]; [apply (A1 _ _ _ H)|apply (B1 _ _ _ H)].
Qed.
Lemma within_more pws pws' n c z n' c' z' a : within pws n c z a -> incl pws pws' -> n <= n' -> c <= c' -> z <= z' ->
  within pws' n' c' z' a.
Proof.
  intros (A1 & A2 & A3 & A4 & A5) I N C Z. repeat split; try lia.
  - apply I. apply (A1 _ _ _ H).
  - apply (A1 _ _ _ H).
Qed.
Lemma within_stretch pws h pw salt : In pw pws -> known_hash h -> within pws 1 0 0 [Stretched h pw salt].
Proof.
  intros I K. repeat split; try reflexivity; try (cbn; lia).
  - destruct H as [H|[]]. injection H as -> -> ->. exact I.
  - destruct H as [H|[]]. injection H as -> -> ->.
    unfold known_hash in K. repeat (destruct K as [<-|K]; [eexists; split; [cbn; tauto|]|]); try contradiction;
      cbn; lia.
Qed.
Lemma within_check pws n : within pws 0 1 n [Checked n].
Proof. repeat split; try reflexivity; try (cbn; lia); destruct H as [H|[]]; discriminate. Qed.

Definition adds {S E A} (I : S -> Prop) (P : list event -> Prop) (m : M (S * list event) E A) : Prop :=
  forall s l o s' l', I s -> m (s, l) = (o, (s', l')) -> I s' /\ exists ev, l' = l ++ ev /\ P ev.

Section Adds.
Context {S : Type} (I : S -> Prop) (pws : list bytes).
Lemma ad_more {E A} n c z n' c' z' (m : M (S * list event) E A) :
  adds I (within pws n c z) m -> n <= n' -> c <= c' -> z <= z' -> adds I (within pws n' c' z') m.
Proof.
  intros H N C Z s l o s' l' Is R. destruct (H _ _ _ _ _ Is R) as (I' & ev & E1 & W). split; [exact I'|].
  exists ev. split; [exact E1|]. exact (within_more _ _ _ _ _ _ _ _ _ W (incl_refl _) N C Z).
Qed.
Lemma ad_bind {E A B} n c z n' c' z' (m : M (S * list event) E A) (k : A -> M (S * list event) E B) :
  adds I (within pws n c z) m -> (forall a, adds I (within pws n' c' z') (k a)) ->
  adds I (within pws (n + n') (c + c') (z + z')) (bind m k).
Proof.
  intros Hm Hk s l o s' l' Is R. unfold bind in R. destruct (m (s, l)) as [o1 [s1 l1]] eqn:Em.
  destruct (Hm _ _ _ _ _ Is Em) as (I1 & ev & E1 & W).
  assert (K : within pws (n + n') (c + c') (z + z') ev)
    by (apply (within_more pws pws n c z); [exact W|apply incl_refl|lia|lia|lia]).
  destruct o1 as [a|e| |]; try (injection R as <- <- <-; split; [exact I1|exists ev; split; [exact E1|exact K]]).
  destruct (Hk a _ _ _ _ _ I1 R) as (I2 & ev2 & E2 & W2). split; [exact I2|]. exists (ev ++ ev2).
  split; [rewrite E2, E1, app_assoc; reflexivity|]. exact (within_app _ _ _ _ _ _ _ _ _ W W2).
Qed.
Lemma ad_map_err {E E' A} (f : E -> E') P (m : M (S * list event) E A) : adds I P m -> adds I P (map_err f m).
Proof.
  intros Hm s l o s' l' Is R. unfold map_err in R. destruct (m (s, l)) as [o1 [s1 l1]] eqn:Em.
  pose proof (Hm _ _ _ _ _ Is Em) as X. destruct o1; injection R as <- <- <-; exact X.
Qed.
Lemma ad_or_else {E E' A} n c z n' c' z' (m : M (S * list event) E A) (k : E -> M (S * list event) E' A) :
  adds I (within pws n c z) m -> (forall a, adds I (within pws n' c' z') (k a)) ->
  adds I (within pws (n + n') (c + c') (z + z')) (or_else m k).
Proof.
  intros Hm Hk s l o s' l' Is R. unfold or_else in R. destruct (m (s, l)) as [o1 [s1 l1]] eqn:Em.
  destruct (Hm _ _ _ _ _ Is Em) as (I1 & ev & E1 & W).
  assert (K : within pws (n + n') (c + c') (z + z') ev)
    by (apply (within_more pws pws n c z); [exact W|apply incl_refl|lia|lia|lia]).
  destruct o1 as [a|e| |]; try (injection R as <- <- <-; split; [exact I1|exists ev; split; [exact E1|exact K]]).
  destruct (Hk e _ _ _ _ _ I1 R) as (I2 & ev2 & E2 & W2). split; [exact I2|]. exists (ev ++ ev2).
  split; [rewrite E2, E1, app_assoc; reflexivity|]. exact (within_app _ _ _ _ _ _ _ _ _ W W2).
Qed.
Lemma ad_lift {E A} (o : outcome E A) : adds I (within pws 0 0 0) (lift o).
Proof.
  intros s l o' s' l' Is R. injection R as _ <- <-. split; [exact Is|]. exists [].
  rewrite app_nil_r. split; [reflexivity|apply within_nil].
Qed.
Lemma ad_ret {E A} (a : A) : adds I (within pws 0 0 0) (ret a : M _ E _).
Proof. exact (ad_lift (Ok a)). Qed.
Lemma ad_err {E A} (e : E) : adds I (within pws 0 0 0) (err e : M _ E A).
Proof. exact (ad_lift (Err e)). Qed.
Lemma ad_panic {E A} : adds I (within pws 0 0 0) (panic : M _ E A).
Proof. exact (ad_lift Panic). Qed.
Lemma ad_plainly {E A} (m : M S E A) : (forall s o s', I s -> m s = (o, s') -> I s') ->
  adds I (within pws 0 0 0) (plainly m).
Proof.
  intros H s l o s' l' Is R. unfold plainly, zoom in R. cbn [fst snd] in R.
  destruct (m s) as [o1 s1] eqn:Em. injection R as <- <- <-. split; [exact (H _ _ _ Is Em)|].
  exists []. rewrite app_nil_r. split; [reflexivity|apply within_nil].
Qed.
Lemma ad_note {E} e (P : list event -> Prop) : P [e] -> adds I P (note e : M _ E unit).
Proof.
  intros H s l o s' l' Is R. injection R as <- <- <-. split; [exact Is|]. exists [e]. split; [reflexivity|exact H].
Qed.
Lemma ad_hash E h pw salt : In pw pws -> known_hash h -> adds I (within pws 1 0 0) (hash_w E h pw salt).
Proof.
  intros HI K. apply (ad_bind 1 0 0 0 0 0); [apply ad_note, within_stretch; assumption|intros _; apply ad_lift].
Qed.
End Adds.

Definition any {S : Type} (s : S) : Prop := True.
Lemma any_kept {S E A} (m : M S E A) : forall s o s', any s -> m s = (o, s') -> any s'.
Proof. intros; exact Logic.I. Qed.

Lemma ad_dec pws E c n a ct : adds any (within pws 0 1 (List.length ct)) (ciphers_decrypt_w E c n a ct).
Proof.
  apply (ad_more _ _ (0 + 0) (1 + 0) (List.length ct + 0)); try lia.
  apply ad_bind; [apply ad_note, within_check|intros _; apply ad_plainly, any_kept].
Qed.
Lemma ad_try pws E a raw k : In raw pws -> known_hash (ks_hash k) -> List.length (ks_enc k) = 48 ->
  adds any (within pws 1 1 48) (try_keyslot_w E a raw k).
Proof.
  intros HI K L. unfold try_keyslot_w.
  apply (ad_bind _ _ 1 0 0 0 1 48); [apply ad_hash; assumption|intros key].
  apply (ad_bind _ _ 0 0 0 0 1 48); [apply ad_lift|intros c].
  apply (ad_bind _ _ 0 1 48 0 0 0); [rewrite <- L; apply ad_dec|intros m; apply ad_ret].
Qed.
Definition slot_good (k : keyslot) : Prop := known_hash (ks_hash k) /\ List.length (ks_enc k) = 48.
Lemma ad_find pws E a raw : In raw pws -> forall l, Forall slot_good l ->
  adds any (within pws (List.length l) (List.length l) (48 * List.length l)) (find_keyslot_w E a raw l).
Proof.
  intros HI. induction l as [|k l IH]; intros F; cbn [find_keyslot_w List.length].
  - apply ad_err.
  - inversion F as [|? ? [K L] F']; subst. apply (ad_more _ _ (1 + List.length l) (1 + List.length l) (48 + 48 * List.length l)); try lia.
    apply ad_or_else; [apply ad_try; assumption|intros _; exact (IH F')].
Qed.
Lemma ad_search pws E a raw : In raw pws -> forall l i, Forall slot_good l ->
  adds any (within pws (List.length l) (List.length l) (48 * List.length l)) (search_keyslots_w E a raw i l).
Proof.
  intros HI. induction l as [|k l IH]; intros i F; cbn [search_keyslots_w List.length].
  - apply ad_ret.
  - inversion F as [|? ? [K L] F']; subst.
    apply (ad_more _ _ (1 + (0 + List.length l)) (0 + (0 + (1 + List.length l))) (0 + (0 + (48 + 48 * List.length l)))); try lia.
    apply ad_bind; [apply ad_map_err, ad_hash; assumption|intros key].
    apply ad_bind; [apply ad_map_err, ad_lift|intros c].
    intros s l0 o s' l' _ R.
    destruct (ciphers_decrypt_w E c (ks_nonce k) [] (ks_enc k) (s, l0)) as [o1 [s1 l1]] eqn:D.
    destruct (ad_dec pws _ _ _ _ _ _ _ _ _ _ Logic.I D) as (_ & ev & E1 & W). rewrite L in W.
    assert (W' : within pws (List.length l) (1 + List.length l) (48 + 48 * List.length l) ev)
      by (apply (within_more pws pws 0 1 48); [exact W|apply incl_refl|lia|lia|lia]).
    split; [exact Logic.I|].
    destruct o1 as [m|e| |]; try (injection R as <- <- <-; exists ev; split; [exact E1|exact W']).
    destruct (IH (S i) F' _ _ _ _ _ Logic.I R) as (_ & ev2 & E2 & W2). exists (ev ++ ev2).
    split; [rewrite E2, E1, app_assoc; reflexivity|]. exact (within_app _ 0 1 48 _ _ _ _ _ W W2).
Qed.
Lemma ad_index pws E a raw l : In raw pws -> Forall slot_good l ->
  adds any (within pws (List.length l) (List.length l) (48 * List.length l)) (decrypt_v5_master_key_with_index_w E l raw a).
Proof.
  intros HI F. unfold decrypt_v5_master_key_with_index_w.
  apply (ad_more _ _ (List.length l + 0) (List.length l + 0) (48 * List.length l + 0)); try lia.
  apply ad_bind; [apply ad_search; assumption|intros r]. destruct (bytes_eqb _ _); [apply ad_err|apply ad_ret].
Qed.

(** A header read from a file has at most four keyslots, all of known kind. *)
Lemma parsed_slots d h aad d' : deserialize d = (Ok (h, aad), d') -> forall l, h_keyslots h = Some l ->
  Forall slot_good l /\ List.length l <= 4.
Proof.
  intros D l HL. pose proof (parsed_shape _ _ _ _ D) as P. pose proof (deserialize_shape _ _ _ _ D) as [_ Q].
  destruct (ht_version (h_type h)).
  1,2,3: destruct P as [P _]; congruence.
  - destruct P as (k & P & _ & K), Q as (k' & Q & L & _). rewrite P in Q, HL. injection Q as <-. injection HL as <-.
    split; [|cbn; lia]. constructor; [split; assumption|constructor].
  - destruct P as (_ & l1 & P & K & N), Q as (l2 & Q & F). rewrite P in Q, HL. injection Q as <-. injection HL as <-.
    split; [|exact N]. rewrite Forall_forall in K, F |- *. intros k Hk. split; [exact (K k Hk)|apply (F k Hk)].
Qed.
Lemma ad_master pws E raw d h aad d' : deserialize d = (Ok (h, aad), d') -> In raw pws ->
  adds any (within pws 4 4 192) (decrypt_master_key_w E raw h).
Proof.
  intros D HI. pose proof (parsed_slots _ _ _ _ D) as P. unfold decrypt_master_key_w.
  assert (OLD : forall salt v, v = V1 \/ v = V2 \/ v = V3 -> adds any (within pws 4 4 192) (argon2id_hash_w E raw salt v : M (trace * _) _ _)).
  { intros salt v HV. apply (ad_more _ _ (1 + 0) (0 + 0) (0 + 0)); try lia. unfold argon2id_hash_w.
    apply ad_bind; [apply ad_note, within_stretch; [exact HI|]|intros _; apply ad_lift].
    unfold known_hash. destruct HV as [->|[->| ->]]; cbn; tauto. }
  assert (NO : adds any (within pws 4 4 192) (err tt : M (trace * _) unit bytes))
    by (apply (ad_more _ _ 0 0 0); [apply ad_err|lia|lia|lia]).
  destruct (ht_version (h_type h)) eqn:HV.
  1,2,3: destruct (h_salt h); [apply OLD; tauto|exact NO].
  - destruct (h_keyslots h) as [[|k l]|] eqn:HK; try exact NO.
    destruct (P _ eq_refl) as [F _]. inversion F as [|? ? [K L] _]; subst.
    apply (ad_more _ _ 1 1 48); [apply ad_try; assumption|lia|lia|lia].
  - destruct (h_keyslots h) as [l|] eqn:HK; try exact NO. destruct (P _ eq_refl) as [F N].
    apply (ad_more _ _ (List.length l) (List.length l) (48 * List.length l)); try lia. apply ad_find; assumption.
Qed.

Lemma ad_on_tr {E A} (I : world -> Prop) P (m : M (trace * list event) E A) :
  (forall w t, I w -> I (mkWorld (w_in w) (w_out w) (w_hdr w) (w_rng w) t)) ->
  adds any P m -> adds I P (on_tr_w m).
Proof.
  intros HI H w l o w' l' Iw R. unfold on_tr_w in R. cbn [fst snd] in R.
  destruct (m (w_tr w, l)) as [o1 [t k1]] eqn:Em. injection R as <- <- <-.
  destruct (H _ _ _ _ _ Logic.I Em) as (_ & X). split; [apply HI, Iw|exact X].
Qed.

(** The blocks of the body: each full one is taken from what is left of the file. *)
Lemma loop_notes pws E bs : forall fuel s aad w l o w' l',
  decrypt_loop_w E bs fuel s aad (w, l) = (o, (w', l')) ->
  exists ev, l' = l ++ ev
    /\ within pws 0 (1 + (List.length (d_data (w_in w)) - d_pos (w_in w)) / (bs + 16))
         (List.length (d_data (w_in w)) - d_pos (w_in w)) ev.
Proof.
  induction fuel as [|fuel IH]; intros s aad w l o w' l' R; cbn [decrypt_loop_w] in R.
  { injection R as <- <- <-. exists []. rewrite app_nil_r. split; [reflexivity|].
    apply (within_more pws pws 0 0 0); [apply within_nil|apply incl_refl|lia|lia|lia]. }
  unfold bind at 1, plainly at 1, zoom in R. unfold map_err, on_in, zoom in R. cbn [fst snd] in R.
  destruct (dev_read (bs + 16) (w_in w)) as [o1 d1] eqn:ER.
  pose proof (dev_read_spec _ _ _ _ ER) as (_ & DD & _ & SP).
  set (n := List.length (d_data (w_in w))) in *. set (p := d_pos (w_in w)) in *.
  destruct o1 as [buf|e| |]; try contradiction.
  2:{ injection R as <- <- <-. exists []. rewrite app_nil_r. split; [reflexivity|].
      apply (within_more pws pws 0 0 0); [apply within_nil|apply incl_refl|lia|lia|lia]. }
  destruct SP as (B1 & B2 & B3 & _).
  assert (BL : List.length buf <= n - p).
  { rewrite B1, firstn_length, skipn_length. subst n p. lia. }
  unfold bind at 1, note, modify in R. cbn [fst snd] in R.
  destruct (List.length buf =? bs + 16) eqn:EF.
  - apply Nat.eqb_eq in EF.
    assert (Q : 1 + (n - p) / (bs + 16) = 2 + (n - (p + (bs + 16))) / (bs + 16)).
    { assert (N0 : n - p = (n - (p + (bs + 16))) + 1 * (bs + 16)) by lia.
      rewrite N0 at 1. rewrite Nat.div_add by lia. lia. }
    assert (W1 : within pws 0 1 (bs + 16) [Checked (List.length buf)]) by (rewrite EF; apply within_check).
    assert (W1' : within pws 0 (1 + (n - p) / (bs + 16)) (n - p) [Checked (List.length buf)])
      by (apply (within_more pws pws 0 1 (bs + 16)); [exact W1|apply incl_refl|lia|lia|lia]).
    unfold bind at 1, plainly at 1, zoom in R. cbn [fst snd] in R.
    match type of R with context [on_tr (decrypt_next E s aad buf) ?w1] => set (wa := w1) in R end.
    unfold on_tr, zoom in R. destruct (decrypt_next E s aad buf (w_tr wa)) as [o2 t2].
    destruct o2 as [ms|e| |]; try (injection R as <- <- <-; exists [Checked (List.length buf)]; split; [reflexivity|exact W1']).
    unfold bind at 1, plainly at 1, zoom in R. cbn [fst snd] in R.
    unfold on_out, zoom in R.
    match type of R with context [dev_write_all ?x ?y] => destruct (dev_write_all x y) as [o3 d3] end.
    destruct o3 as [u|e| |]; try (injection R as <- <- <-; exists [Checked (List.length buf)]; split; [reflexivity|exact W1']).
    apply IH in R as (ev & E1 & W). cbn [w_in wa] in W. rewrite DD, B3 in W. fold n in W. rewrite EF in W.
    exists (Checked (List.length buf) :: ev). split; [rewrite E1, <- app_assoc; reflexivity|].
    apply (within_more pws pws (0 + 0) (1 + (1 + (n - (p + (bs + 16))) / (bs + 16))) ((bs + 16) + (n - (p + (bs + 16)))));
      [exact (within_app _ _ _ _ _ _ _ [_] ev W1 W)|apply incl_refl|lia|lia|lia].
  - assert (W1' : within pws 0 (1 + (n - p) / (bs + 16)) (n - p) [Checked (List.length buf)])
      by (apply (within_more pws pws 0 1 (List.length buf)); [apply within_check|apply incl_refl|lia|lia|lia]).
    assert (X : l' = l ++ [Checked (List.length buf)]).
    { unfold bind at 1, plainly at 1, zoom in R. cbn [fst snd] in R.
      match type of R with context [on_tr ?m ?w1] => destruct (on_tr m w1) as [o2 w2] end.
      destruct o2 as [m|e| |]; try (injection R as <- <- <-; reflexivity).
      unfold plainly, zoom in R. cbn [fst snd] in R.
      match type of R with context [on_out ?m ?w1] => destruct (on_out m w1) as [o3 w3] end.
      destruct o3; injection R as <- <- <-; reflexivity. }
    exists [Checked (List.length buf)]. split; [exact X|exact W1'].
Qed.

Definition leaves {S E A} (I : S -> Prop) (P : list event -> Prop) (m : M (S * list event) E A) : Prop :=
  forall s l o s' l', I s -> m (s, l) = (o, (s', l')) -> exists ev, l' = l ++ ev /\ P ev.
Lemma lv_adds {S E A} I P (m : M (S * list event) E A) : adds I P m -> leaves I P m.
Proof. intros H s l o s' l' Is R. apply (H _ _ _ _ _ Is R). Qed.
Lemma lv_map_err {S E E' A} I (f : E -> E') P (m : M (S * list event) E A) : leaves I P m -> leaves I P (map_err f m).
Proof.
  intros Hm s l o s' l' Is R. unfold map_err in R. destruct (m (s, l)) as [o1 [s1 l1]] eqn:Em.
  pose proof (Hm _ _ _ _ _ Is Em) as X. destruct o1; injection R as <- <- <-; exact X.
Qed.
Lemma lv_bind {S E A B} (I : S -> Prop) pws n c z n' c' z' (m : M (S * list event) E A) (k : A -> M (S * list event) E B) :
  adds I (within pws n c z) m -> (forall a, leaves I (within pws n' c' z') (k a)) ->
  leaves I (within pws (n + n') (c + c') (z + z')) (bind m k).
Proof.
  intros Hm Hk s l o s' l' Is R. unfold bind in R. destruct (m (s, l)) as [o1 [s1 l1]] eqn:Em.
  destruct (Hm _ _ _ _ _ Is Em) as (I1 & ev & E1 & W).
  assert (K : within pws (n + n') (c + c') (z + z') ev)
    by (apply (within_more pws pws n c z); [exact W|apply incl_refl|lia|lia|lia]).
  destruct o1 as [a|e| |]; try (injection R as <- <- <-; exists ev; split; [exact E1|exact K]).
  destruct (Hk a _ _ _ _ _ I1 R) as (ev2 & E2 & W2). exists (ev ++ ev2).
  split; [rewrite E2, E1, app_assoc; reflexivity|]. exact (within_app _ _ _ _ _ _ _ _ _ W W2).
Qed.
Lemma lv_more {S E A} (I : S -> Prop) pws n c z n' c' z' (m : M (S * list event) E A) :
  leaves I (within pws n c z) m -> n <= n' -> c <= c' -> z <= z' -> leaves I (within pws n' c' z') m.
Proof.
  intros H N C Z s l o s' l' Is R. destruct (H _ _ _ _ _ Is R) as (ev & E1 & W).
  exists ev. split; [exact E1|]. exact (within_more _ _ _ _ _ _ _ _ _ W (incl_refl _) N C Z).
Qed.

Definition sized (n : nat) (w : world) : Prop := List.length (d_data (w_in w)) = n.
Lemma sized_tr n w t : sized n w -> sized n (mkWorld (w_in w) (w_out w) (w_hdr w) (w_rng w) t).
Proof. intros H. exact H. Qed.
Lemma lv_file pws n E bs s aad : leaves (sized n) (within pws 0 (1 + n / (bs + 16)) n) (decrypt_file_w E bs s aad).
Proof.
  intros w l o w' l' SZ R. unfold decrypt_file_w in R. cbn [fst] in R. unfold bind in R.
  destruct (decrypt_loop_w E bs (S (List.length (d_data (w_in w)))) s aad (w, l)) as [o1 [w1 l1]] eqn:EL.
  apply (loop_notes pws) in EL as (ev & E1 & W).
  assert (W' : within pws 0 (1 + n / (bs + 16)) n ev).
  { apply (within_more pws pws _ _ _ _ _ _ _ W (incl_refl _)); [lia| |unfold sized in SZ; lia].
    apply le_n_S. apply Nat.div_le_mono; unfold sized in SZ; lia. }
  exists ev. split; [|exact W'].
  destruct o1 as [u|e| |]; try (injection R as <- <- <-; exact E1).
  unfold plainly, zoom in R. cbn [fst snd] in R.
  destruct (map_err (fun _ : io_error => SFlush) (on_out dev_flush) w1) as [o2 w2]. injection R as <- <- <-. exact E1.
Qed.

Lemma sized_in {E A} n (m : M dev E A) : (forall d o d', m d = (o, d') -> d_data d' = d_data d) ->
  forall w o w', sized n w -> on_in m w = (o, w') -> sized n w'.
Proof.
  intros H w o w' SZ R. unfold on_in, zoom in R. destruct (m (w_in w)) as [o1 d1] eqn:Em.
  injection R as <- <-. unfold sized. cbn [w_in]. rewrite (H _ _ _ Em). exact SZ.
Qed.

(** decrypt.rs lines 100-150: everything after the callback *)
Definition after_header_w (E : env) (bs : nat) (raw_key : bytes) (h : header) (aad : bytes)
  : M (world * list event) dec_error unit :=
  let a := ht_algorithm (h_type h) in
  match ht_mode (h_type h) with
  | MemoryMode =>
      data <- plainly (map_err (fun _ => DecReadEncryptedData) (on_in dev_read_to_end)) ;;
      mk <- map_err (fun _ => DecDecryptMasterKey) (on_tr_w (decrypt_master_key_w E raw_key h)) ;;
      c <- map_err (fun _ => DecInitializeCiphers) (lift (ciphers_initialize mk a)) ;;
      m <- map_err (fun _ => DecDecryptData) (on_tr_w (ciphers_decrypt_w E c (h_nonce h) aad data)) ;;
      plainly (map_err (fun _ => DecWriteData) (on_out (dev_write_all m)))
  | StreamMode =>
      mk <- map_err (fun _ => DecDecryptMasterKey) (on_tr_w (decrypt_master_key_w E raw_key h)) ;;
      s <- map_err (fun _ => DecInitializeStreams)
             (lift (dec_stream_initialize mk (h_nonce h) a)) ;;
      map_err (fun _ => DecDecryptData) (decrypt_file_w E bs s aad)
  end.
Definition read_header (detached : bool) : M world dec_error (header * bytes) :=
  if detached then
     ha <- map_err (fun _ => DecDeserializeHeader) (on_hdr deserialize) ;;
     on_in (skip_empty_header (get_size (ht_version (h_type (fst ha))))) ;;
     ret ha
   else map_err (fun _ => DecDeserializeHeader) (on_in deserialize).
Lemma decrypt_w_split E bs det raw x : decrypt_execute_w E bs det raw x
  = bind (plainly (read_header det)) (fun ha => bind (note (HeaderTold (h_type (fst ha))))
      (fun _ => after_header_w E bs raw (fst ha) (snd ha))) x.
Proof.
  assert (C : forall {S0 E0 A B} (m : M S0 E0 A) (k k' : A -> M S0 E0 B) y,
            (forall a z, k a z = k' a z) -> bind m k y = bind m k' y).
  { intros S0 E0 A B m k k' y H. unfold bind. destruct (m y) as [[a|e| |] z]; [apply H|reflexivity..]. }
  unfold decrypt_execute_w. apply C. intros [h aad] z. reflexivity.
Qed.

Lemma lv_after E bs raw n d h aad d' : deserialize d = (Ok (h, aad), d') ->
  leaves (sized n) (within [raw] 4 (5 + n / (bs + 16)) (192 + n)) (after_header_w E bs raw h aad).
Proof.
  intros D. unfold after_header_w.
  assert (MA : adds (sized n) (within [raw] 4 4 192)
            (map_err (fun _ => DecDecryptMasterKey) (on_tr_w (decrypt_master_key_w E raw h)))).
  { apply ad_map_err. apply ad_on_tr; [intros w t; apply sized_tr|]. apply (ad_master _ _ _ _ _ _ _ D). left. reflexivity. }
  destruct (ht_mode (h_type h)).
  - intros w l o w' l' SZ R.
    unfold bind at 1, plainly at 1, zoom in R. unfold map_err at 1, on_in, zoom in R. cbn [fst snd] in R.
    destruct (dev_read_to_end (w_in w)) as [o1 d1] eqn:ER.
    pose proof (dev_read_to_end_spec _ _ _ ER) as (DD & _ & _ & SP).
    destruct o1 as [data|e| |]; try contradiction.
    2:{ injection R as <- <- <-. exists []. rewrite app_nil_r. split; [reflexivity|].
        apply (within_more [raw] [raw] 0 0 0); [apply within_nil|apply incl_refl|lia|lia|lia]. }
    assert (LD : List.length data <= n) by (rewrite SP, skipn_length; unfold sized in SZ; lia).
    revert R. match goal with |- bind ?m ?k (?w1, ?l1) = _ -> _ => set (wa := w1); set (mm := bind m k) end. intros R.
    assert (LV : leaves (sized n) (within [raw] (4 + (0 + (0 + 0))) (4 + (0 + (1 + 0))) (192 + (0 + (List.length data + 0)))) mm).
    { apply lv_bind; [exact MA|intros mk]. apply lv_bind; [apply ad_map_err, ad_lift|intros c].
      apply lv_bind; [apply ad_map_err, ad_on_tr; [intros v t; apply sized_tr|apply ad_dec]|intros m].
      apply lv_adds. apply ad_plainly. intros v o0 v' SV RV.
      unfold map_err, on_out, zoom in RV. destruct (dev_write_all m (w_out v)) as [o2 d2].
      destruct o2; injection RV as _ <-; exact SV. }
    assert (SA : sized n wa) by (unfold sized, wa; cbn [w_in]; rewrite DD; exact SZ).
    destruct (LV _ _ _ _ _ SA R) as (ev & E1 & W). exists ev. split; [exact E1|].
    apply (within_more _ _ _ _ _ _ _ _ _ W (incl_refl _)); lia.
  - apply (lv_more _ _ (4 + (0 + 0)) (4 + (0 + (1 + n / (bs + 16)))) (192 + (0 + n))); try lia.
    apply lv_bind; [exact MA|intros mk]. apply lv_bind; [apply ad_map_err, ad_lift|intros s].
    apply lv_map_err, lv_file.
Qed.

Lemma read_header_from det w o w1 : read_header det w = (o, w1) ->
  List.length (d_data (w_in w1)) = List.length (d_data (w_in w))
  /\ (forall h aad, o = Ok (h, aad) -> exists d', deserialize (if det then w_hdr w else w_in w) = (Ok (h, aad), d')).
Proof.
  unfold read_header. intros R. destruct det.
  - unfold bind at 1, map_err, on_hdr, zoom in R.
    destruct (deserialize (w_hdr w)) as [o1 d1] eqn:ED.
    destruct o1 as [[h aad]|e| |]; try (injection R as <- <-; split; [reflexivity|intros h' aad' X; discriminate]).
    unfold bind, on_in, zoom in R. cbn [w_in w_out w_hdr w_rng w_tr fst] in R.
    destruct (skip_empty_header (get_size (ht_version (h_type h))) (w_in w)) as [o2 d2] eqn:ES.
    apply still_skip in ES as [ES _].
    destruct o2; injection R as <- <-; cbn [w_in]; (split; [rewrite ES; reflexivity|]); intros h' aad' X; try discriminate.
    injection X as <- <-. eauto.
  - unfold map_err, on_in, zoom in R. destruct (deserialize (w_in w)) as [o1 d1] eqn:ED.
    pose proof (still_deserialize _ _ _ ED) as [EQ _].
    destruct o1; injection R as <- <-; cbn [w_in]; (split; [rewrite EQ; reflexivity|]); intros h' aad' X; try discriminate.
    injection X as ->. eauto.
Qed.

(** The events of a decryption: none, or the header followed by work within bounds. *)
Lemma decrypt_notes E bs det raw w :
  events (decrypt_execute_w E bs det raw) w = []
    /\ (forall h aad w1, read_header det w <> (Ok (h, aad), w1))
  \/ exists h aad d' w1 rest, deserialize (if det then w_hdr w else w_in w) = (Ok (h, aad), d')
       /\ read_header det w = (Ok (h, aad), w1)
       /\ events (decrypt_execute_w E bs det raw) w = HeaderTold (h_type h) :: rest
       /\ within [raw] 4 (5 + List.length (d_data (w_in w)) / (bs + 16)) (192 + List.length (d_data (w_in w))) rest.
Proof.
  unfold events. rewrite decrypt_w_split.
  destruct (read_header det w) as [o w1] eqn:EH. destruct (read_header_from _ _ _ _ EH) as (SZ & FROM).
  assert (PL : plainly (read_header det) (w, []) = (o, (w1, []))) by (unfold plainly, zoom; cbn [fst snd]; rewrite EH; reflexivity).
  unfold bind at 1 3. rewrite PL.
  destruct o as [[h aad]|e| |]; try (left; split; [reflexivity|intros h' aad' w2 X; congruence]).
  right. destruct (FROM _ _ eq_refl) as (d' & D). cbn [fst snd].
  unfold bind, note, modify. cbn [fst snd app].
  destruct (after_header_w E bs raw h aad (w1, [HeaderTold (h_type h)])) as [o2 [w2 l2]] eqn:EA.
  destruct (lv_after _ _ _ _ _ _ _ _ D _ _ _ _ _ SZ EA) as (ev & E1 & W).
  exists h, aad, d', w1, ev. split; [exact D|]. split; [reflexivity|]. split; [exact E1|exact W].
Qed.
