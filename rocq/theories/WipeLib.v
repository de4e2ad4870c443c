(** Rules for programs that keep book of their buffers. *)
From Coq Require Import List Arith Lia Bool.
From Verif Require Import Bytes Outcome IO Primitives Wipe WipeSpec.
Import ListNotations.
Local Open Scope nat_scope.
Local Open Scope list_scope.

(** ** Same results *)

Section Same.
Context {S : Type}.

Lemma same_thru {E A} (m : M S E A) : same_run (thru m) m.
Proof. intros s k. unfold thru. cbn [fst snd]. destruct (m s) as [o s']. reflexivity. Qed.

Lemma same_bind {E A B} (m : M (S * memory) E A) m0 (f : A -> M (S * memory) E B) f0 :
  same_run m m0 -> (forall a, same_run (f a) (f0 a)) -> same_run (bind m f) (bind m0 f0).
Proof.
  intros Hm Hf s k. specialize (Hm s k). unfold bind.
  destruct (m (s, k)) as [o [s1 k1]]. cbn [fst snd] in Hm.
  rewrite <- Hm. destruct o; try reflexivity. exact (Hf a s1 k1).
Qed.

Lemma same_map_err {E E' A} (g : E -> E') (m : M (S * memory) E A) m0 :
  same_run m m0 -> same_run (map_err g m) (map_err g m0).
Proof.
  intros Hm s k. specialize (Hm s k). unfold map_err.
  destruct (m (s, k)) as [o [s1 k1]]. cbn [fst snd] in Hm. rewrite <- Hm.
  destruct o; reflexivity.
Qed.

Lemma same_or_else {E E' A} (m : M (S * memory) E A) m0 (h : E -> M (S * memory) E' A) h0 :
  same_run m m0 -> (forall e, same_run (h e) (h0 e)) ->
  same_run (or_else m h) (or_else m0 h0).
Proof.
  intros Hm Hh s k. specialize (Hm s k). unfold or_else.
  destruct (m (s, k)) as [o [s1 k1]]. cbn [fst snd] in Hm.
  rewrite <- Hm. destruct o; try reflexivity. exact (Hh e s1 k1).
Qed.

Lemma same_ret {E A} (a : A) : same_run (ret a : M (S * memory) E A) (ret a).
Proof. intros s k. reflexivity. Qed.
Lemma same_err {E A} (e : E) : same_run (err e : M (S * memory) E A) (err e).
Proof. intros s k. reflexivity. Qed.
Lemma same_panic {E A} : same_run (panic : M (S * memory) E A) panic.
Proof. intros s k. reflexivity. Qed.
Lemma same_diverge {E A} : same_run (diverge : M (S * memory) E A) diverge.
Proof. intros s k. reflexivity. Qed.
Lemma same_lift {E A} (o : outcome E A) : same_run (lift o : M (S * memory) E A) (lift o).
Proof. intros s k. reflexivity. Qed.

Lemma same_alloc {E B} l b (f : nat -> M (S * memory) E B) m0 :
  (forall i, same_run (f i) m0) -> same_run (i <- alloc l b ;; f i) m0.
Proof. intros Hf s k. unfold bind, alloc. cbn [fst snd]. apply Hf. Qed.

Lemma same_change {E B} i g (f : M (S * memory) E B) m0 :
  same_run f m0 -> same_run (change i g ;; f) m0.
Proof. intros Hf s k. unfold bind, change. cbn [fst snd]. apply Hf. Qed.

Lemma same_owning {E A} i (m : M (S * memory) E A) m0 :
  same_run m m0 -> same_run (owning i m) m0.
Proof.
  intros Hm s k. specialize (Hm s k). unfold owning.
  destruct (m (s, k)) as [o [s1 k1]]. exact Hm.
Qed.
Lemma same_owning_protected {E A} i (m : M (S * memory) E A) m0 :
  same_run m m0 -> same_run (owning_protected i m) m0.
Proof.
  intros Hm s k. specialize (Hm s k). unfold owning_protected.
  destruct (m (s, k)) as [o [s1 k1]]. exact Hm.
Qed.

(** Wiping at the very end *)
Lemma same_then_change {E} (m : M (S * memory) E unit) m0 i g :
  same_run m m0 -> same_run (m ;; change i g) m0.
Proof.
  intros Hm s k. specialize (Hm s k). unfold bind.
  destruct (m (s, k)) as [o [s1 k1]]. cbn [fst snd] in Hm. rewrite <- Hm.
  destruct o as [[]| | |]; reflexivity.
Qed.
End Same.

(** ** What is left in memory *)

Definition is_ok {E A} (o : outcome E A) : bool := match o with Ok _ => true | _ => false end.
Definition zerob (b : bytes) : bool := forallb (Byte.eqb x00) b.
Lemma zerob_zero b : zerob b = true <-> zero b.
Proof.
  unfold zerob, zero. rewrite forallb_forall. split; intros H x I.
  - specialize (H x I). apply Byte.byte_dec_bl in H. congruence.
  - rewrite (H x I). reflexivity.
Qed.
Lemma zero_zeros n : zero (zeros n).
Proof. intros x I. unfold zeros in I. now apply repeat_spec in I. Qed.

Definition stain (c : cell) : bool :=
  match c_label c with Plain => negb (zerob (c_bytes c)) | _ => false end.
Definition stains (k : memory) : list cell := filter stain k.
Definition settled (c : cell) : Prop :=
  c_live c = false /\ (c_label c = Key -> zero (c_bytes c)).

(** Buffers that may change during a call stay live or are wiped. *)
Definition held (c c' : cell) : Prop :=
  c_label c' = c_label c /\ length (c_bytes c') = length (c_bytes c)
  /\ (c_live c' = true \/ wiped c').
Definition keeps (D : nat -> Prop) (k k1 : memory) : Prop :=
  length k1 = length k
  /\ forall j c, nth_error k j = Some c -> exists c', nth_error k1 j = Some c'
       /\ (c' = c \/ (D j /\ ((c_live c = true \/ wiped c) -> held c c'))).

(** What content may stay: none, one buffer of that size after a failure, buffers of
    that size, any *)
Inductive budget := Never | OnFailure (n : nat) | Blocks (n : nat) | Anything.
Definition stain_ok (b : budget) (ok : bool) (new : memory) : Prop :=
  match b with
  | Never => stains new = []
  | OnFailure n => stains new = []
      \/ (ok = false /\ exists c, stains new = [c] /\ length (c_bytes c) <= n)
  | Blocks n => Forall (fun c => length (c_bytes c) <= n) (stains new)
  | Anything => True
  end.

Definition post (D : nat -> Prop) (b : budget) (k : memory) (ok : bool) (k' : memory) : Prop :=
  exists k1 new, k' = k1 ++ new /\ keeps D k k1 /\ Forall settled new /\ stain_ok b ok new.
Definition tame {S E A} (D : nat -> Prop) (b : budget) (m : M (S * memory) E A) : Prop :=
  forall (s : S) (k : memory) o s' (k' : memory),
  (forall j, D j -> j < length k) -> m (s, k) = (o, (s', k')) ->
  post D b k (is_ok o) k'.

Lemma nth_error_same {A} (l1 : list A) : forall l2,
  (forall j, nth_error l1 j = nth_error l2 j) -> l1 = l2.
Proof.
  induction l1 as [|x l1 IH]; intros [|y l2] H; [reflexivity| | |].
  - specialize (H 0). discriminate.
  - specialize (H 0). discriminate.
  - pose proof (H 0) as H0. injection H0 as ->. f_equal. apply IH. intros j. exact (H (S j)).
Qed.
Lemma nth_error_skip {A} n : forall (l : list A) j,
  nth_error (skipn n l) j = nth_error l (n + j).
Proof.
  induction n as [|n IH]; intros [|x l] j; [reflexivity|reflexivity|destruct j; reflexivity|].
  cbn [skipn Nat.add nth_error]. apply IH.
Qed.

Lemma keeps_refl D k : keeps D k k.
Proof. split; [reflexivity|]. intros j c H. exists c. split; [exact H|left; reflexivity]. Qed.

Lemma held_trans a b c :
  (c_live a = true \/ wiped a) -> held a b ->
  ((c_live b = true \/ wiped b) -> held b c) -> held a c.
Proof.
  intros _ (L1 & N1 & W1) H. destruct (H W1) as (L2 & N2 & W2).
  split; [congruence|]. split; [congruence|exact W2].
Qed.

Lemma keeps_trans (D : nat -> Prop) (k k1 k2 : memory) : keeps D k k1 -> keeps D k1 k2 -> keeps D k k2.
Proof.
  intros [L1 H1] [L2 H2]. split; [congruence|]. intros j c Hj.
  destruct (H1 j c Hj) as (c1 & Hc1 & O1). destruct (H2 j c1 Hc1) as (c2 & Hc2 & O2).
  exists c2. split; [exact Hc2|].
  destruct O1 as [->|[Dj O1]].
  - exact O2.
  - right. split; [exact Dj|]. intros W. destruct O2 as [->|[_ O2]].
    + exact (O1 W).
    + eapply held_trans; [exact W|exact (O1 W)|exact O2].
Qed.

(** The part above is not touched. *)
Lemma keeps_app (D : nat -> Prop) (k new k2 : memory) :
  (forall j, D j -> j < length k) -> keeps D (k ++ new) k2 ->
  exists k1, k2 = k1 ++ new /\ keeps D k k1.
Proof.
  intros HD [L H]. exists (firstn (length k) k2).
  assert (X : skipn (length k) k2 = new).
  { apply nth_error_same. intros j. rewrite nth_error_skip.
    destruct (nth_error new j) as [c|] eqn:Ej.
    - assert (Y : nth_error (k ++ new) (length k + j) = Some c).
      { rewrite nth_error_app2 by lia. replace (length k + j - length k) with j by lia. exact Ej. }
      destruct (H _ _ Y) as (c' & Hc' & [->|[Dj _]]); [exact Hc'|].
      apply HD in Dj. lia.
    - apply nth_error_None. apply nth_error_None in Ej. rewrite L, app_length. lia. }
  split; [rewrite <- X; symmetry; apply firstn_skipn|].
  split.
  - rewrite firstn_length, L, app_length. lia.
  - intros j c Hj. assert (J : j < length k) by (apply nth_error_Some; congruence).
    assert (Y : nth_error (k ++ new) j = Some c) by (rewrite nth_error_app1 by exact J; exact Hj).
    destruct (H _ _ Y) as (c' & Hc' & O). exists c'. split; [|exact O].
    rewrite <- (firstn_skipn (length k) k2) in Hc'.
    rewrite nth_error_app1 in Hc'; [exact Hc'|].
    rewrite firstn_length, L, app_length. lia.
Qed.

(** *** The rules *)

Lemma stains_app k1 k2 : stains (k1 ++ k2) = stains k1 ++ stains k2.
Proof. unfold stains. apply filter_app. Qed.

Lemma stain_ok_app b ok n1 n2 :
  stain_ok b true n1 -> stain_ok b ok n2 -> stain_ok b ok (n1 ++ n2).
Proof.
  destruct b; cbn [stain_ok]; intros H1 H2; [| | |exact I]; rewrite stains_app.
  - rewrite H1, H2. reflexivity.
  - destruct H1 as [H1|[X _]]; [|discriminate]. rewrite H1. exact H2.
  - apply Forall_app. split; assumption.
Qed.
Lemma stain_ok_never ok n1 n2 b :
  stain_ok Never false n1 -> stain_ok b ok n2 -> stain_ok b ok (n1 ++ n2).
Proof.
  destruct b; cbn [stain_ok]; intros H1 H2; [| | |exact I]; rewrite stains_app, H1; exact H2.
Qed.
Lemma stain_ok_nil b ok : stain_ok b ok [].
Proof. destruct b; cbn [stain_ok]; [reflexivity|left; reflexivity|constructor|exact I]. Qed.

Lemma tame_nothing {S E A} D b (m : M (S * memory) E A) :
  (forall s k, snd (snd (m (s, k))) = k) -> tame D b m.
Proof.
  intros H s k o s' k' _ R.
  assert (X : k = k') by exact (eq_trans (eq_sym (H s k)) (f_equal (fun x => snd (snd x)) R)).
  subst k'.
  exists k, []. rewrite app_nil_r. split; [reflexivity|]. split; [apply keeps_refl|].
  split; [constructor|apply stain_ok_nil].
Qed.
Lemma tame_thru {S E A} D b (m : M S E A) : tame D b (thru m).
Proof.
  apply tame_nothing. intros s k. unfold thru. cbn [fst snd]. destruct (m s). reflexivity.
Qed.
Lemma tame_ret {S E A} D b (a : A) : tame D b (ret a : M (S * memory) E A).
Proof. apply tame_nothing. reflexivity. Qed.
Lemma tame_err {S E A} D b (e : E) : tame D b (err e : M (S * memory) E A).
Proof. apply tame_nothing. reflexivity. Qed.
Lemma tame_panic {S E A} D b : tame D b (panic : M (S * memory) E A).
Proof. apply tame_nothing. reflexivity. Qed.
Lemma tame_diverge {S E A} D b : tame D b (diverge : M (S * memory) E A).
Proof. apply tame_nothing. reflexivity. Qed.

Lemma post_length D b k ok k' : post D b k ok k' -> length k <= length k'.
Proof. intros (k1 & new & -> & [L _] & _). rewrite app_length. lia. Qed.

Lemma post_trans (D : nat -> Prop) b b' k ok1 k1 ok k2 :
  (forall j, D j -> j < length k) -> post D b k ok1 k1 -> post D b' k1 ok k2 ->
  (forall n1 n2, stain_ok b ok1 n1 -> stain_ok b' ok n2 -> stain_ok b' ok (n1 ++ n2)) ->
  post D b' k ok k2.
Proof.
  intros HD (ka & new1 & -> & K1 & F1 & S1) (kb & new2 & -> & K2 & F2 & S2) J.
  assert (HDa : forall j, D j -> j < length ka)
    by (intros j Dj; destruct K1 as [L _]; rewrite L; apply HD, Dj).
  destruct (keeps_app D ka new1 kb HDa K2) as (kc & -> & K3).
  exists kc, (new1 ++ new2). rewrite app_assoc. split; [reflexivity|].
  split; [exact (keeps_trans _ _ _ _ K1 K3)|].
  split; [apply Forall_app; split; assumption|]. exact (J _ _ S1 S2).
Qed.

Lemma tame_bind {S E A B} D b (m : M (S * memory) E A) (f : A -> M (S * memory) E B) :
  tame D b m -> (forall a, tame D b (f a)) -> tame D b (bind m f).
Proof.
  intros Hm Hf s k o s' k' HD R. unfold bind in R.
  destruct (m (s, k)) as [om [s1 k1]] eqn:Em.
  pose proof (Hm _ _ _ _ _ HD Em) as P1.
  destruct om as [a|e| |]; cbn [is_ok] in P1.
  - eapply post_trans; [exact HD|exact P1|eapply Hf; [|exact R]|].
    + intros j Dj. apply post_length in P1. specialize (HD j Dj). lia.
    + intros n1 n2. apply stain_ok_app.
  - injection R as <- <- <-. exact P1.
  - injection R as <- <- <-. exact P1.
  - injection R as <- <- <-. exact P1.
Qed.

Lemma tame_map_err {S E E' A} D b (g : E -> E') (m : M (S * memory) E A) :
  tame D b m -> tame D b (map_err g m).
Proof.
  intros Hm s k o s' k' HD R. unfold map_err in R.
  destruct (m (s, k)) as [om [s1 k1]] eqn:Em. pose proof (Hm _ _ _ _ _ HD Em) as P1.
  destruct om; injection R as <- <- <-; exact P1.
Qed.

Lemma post_budget D b b' k ok k' :
  (forall n, stain_ok b ok n -> stain_ok b' ok n) -> post D b k ok k' -> post D b' k ok k'.
Proof.
  intros H (k1 & new & -> & K & F & S1). exists k1, new. repeat (split; [eassumption || reflexivity|]).
  exact (H _ S1).
Qed.
Lemma stain_ok_from_never b ok n : stain_ok Never ok n -> stain_ok b ok n.
Proof. destruct b; cbn [stain_ok]; intros H; [exact H|left; exact H|rewrite H; constructor|exact I]. Qed.
Lemma tame_never {S E A} D b (m : M (S * memory) E A) : tame D Never m -> tame D b m.
Proof.
  intros H s k o s' k' HD R. eapply post_budget; [|exact (H _ _ _ _ _ HD R)].
  intros n. apply stain_ok_from_never.
Qed.
Lemma tame_blocks {S E A} D n (m : M (S * memory) E A) : tame D (OnFailure n) m -> tame D (Blocks n) m.
Proof.
  intros H s k o s' k' HD R. eapply post_budget; [|exact (H _ _ _ _ _ HD R)].
  intros x [X|(_ & c & X & L)]; cbn [stain_ok]; rewrite X; constructor; [exact L|constructor].
Qed.
Lemma tame_anything {S E A} D b (m : M (S * memory) E A) : tame D b m -> tame D Anything m.
Proof.
  intros H s k o s' k' HD R. eapply post_budget; [|exact (H _ _ _ _ _ HD R)].
  intros n _. exact I.
Qed.

Lemma tame_or_else {S E E' A} D b (m : M (S * memory) E A) (h : E -> M (S * memory) E' A) :
  tame D Never m -> (forall e, tame D b (h e)) -> tame D b (or_else m h).
Proof.
  intros Hm Hh s k o s' k' HD R. unfold or_else in R.
  destruct (m (s, k)) as [om [s1 k1]] eqn:Em. pose proof (Hm _ _ _ _ _ HD Em) as P1.
  assert (Q : forall ok, post D Never k ok k1 -> post D b k ok k1)
    by (intros ok; apply post_budget; intros n; apply stain_ok_from_never).
  destruct om as [a|e| |]; cbn [is_ok] in P1.
  - injection R as <- <- <-. apply Q, P1.
  - eapply post_trans; [exact HD|exact P1|eapply Hh; [|exact R]|].
    + intros j Dj. apply post_length in P1. specialize (HD j Dj). lia.
    + intros n1 n2. apply stain_ok_never.
  - injection R as <- <- <-. apply Q, P1.
  - injection R as <- <- <-. apply Q, P1.
Qed.

Lemma tame_more {S E A} (D D' : nat -> Prop) b (m : M (S * memory) E A) :
  (forall j, D j -> D' j) -> tame D b m -> tame D' b m.
Proof.
  intros I H s k o s' k' HD R.
  destruct (H s k o s' k' (fun j Dj => HD j (I j Dj)) R) as (k1 & new & -> & [L K] & F & S1).
  exists k1, new. split; [reflexivity|]. split; [|split; assumption]. split; [exact L|].
  intros j c Hj. destruct (K j c Hj) as (c' & Hc' & O). exists c'. split; [exact Hc'|].
  destruct O as [O|[Dj O]]; [left; exact O|right; split; [apply I, Dj|exact O]].
Qed.

(** Changing one buffer *)
Lemma update_length i f : forall k, length (update i f k) = length k.
Proof.
  induction i as [|i IH]; intros [|c k]; cbn [update length]; try reflexivity.
  now rewrite IH.
Qed.
Lemma update_nth i f : forall k j,
  nth_error (update i f k) j
  = if j =? i then option_map f (nth_error k j) else nth_error k j.
Proof.
  induction i as [|i IH]; intros [|c k] [|j]; cbn [update nth_error Nat.eqb option_map];
    try reflexivity.
  - destruct (j =? i); reflexivity.
  - apply IH.
Qed.
Lemma update_app i f k new : i < length k -> update i f (k ++ new) = update i f k ++ new.
Proof.
  intros H. apply nth_error_same. intros j. rewrite update_nth.
  destruct (Nat.lt_ge_cases j (length k)) as [J|J].
  - rewrite !nth_error_app1 by (rewrite ?update_length; exact J). now rewrite update_nth.
  - rewrite !nth_error_app2 by (rewrite ?update_length; exact J).
    rewrite update_length. destruct (Nat.eqb_spec j i); [lia|reflexivity].
Qed.

Lemma keeps_update (D : nat -> Prop) i f k :
  D i -> (forall c, c_live c = true \/ wiped c -> held c (f c)) -> keeps D k (update i f k).
Proof.
  intros Di H. split; [apply update_length|]. intros j c Hj. rewrite update_nth, Hj.
  cbn [option_map]. destruct (Nat.eqb_spec j i) as [->|N].
  - exists (f c). split; [reflexivity|]. right. split; [exact Di|apply H].
  - exists c. split; [reflexivity|left; reflexivity].
Qed.

Lemma tame_change {S E} (D : nat -> Prop) b i f :
  D i -> (forall c, c_live c = true \/ wiped c -> held c (f c)) ->
  tame D b (change i f : M (S * memory) E unit).
Proof.
  intros Di H s k o s' k' HD R. unfold change in R. cbn [fst snd] in R.
  injection R as <- <- <-. exists (update i f k), []. rewrite app_nil_r.
  split; [reflexivity|]. split; [apply keeps_update; assumption|].
  split; [constructor|apply stain_ok_nil].
Qed.
Lemma held_zeroed c : c_live c = true \/ wiped c -> held c (zeroed c).
Proof.
  intros H. unfold held, zeroed, wiped. cbn. unfold zeros. rewrite repeat_length.
  split; [reflexivity|]. split; [reflexivity|]. destruct H as [H|[H _]]; [left; exact H|].
  right. split; [exact H|apply zero_zeros].
Qed.
Lemma held_filled b c : c_live c = true \/ wiped c -> held c (filled b c).
Proof.
  intros H. unfold held, filled. destruct (c_live c) eqn:L.
  - cbn. split; [reflexivity|]. split; [|left; reflexivity].
    rewrite firstn_length, app_length, skipn_length. lia.
  - split; [reflexivity|]. split; [reflexivity|]. destruct H; [discriminate|right; assumption].
Qed.
Lemma held_dead_protected c : c_live c = true \/ wiped c -> held c (dead_protected c).
Proof.
  intros H. unfold held, dead_protected, dead, zeroed. destruct (c_live c) eqn:L.
  - cbn. unfold zeros. rewrite repeat_length. split; [reflexivity|]. split; [reflexivity|].
    right. split; [reflexivity|apply zero_zeros].
  - split; [reflexivity|]. split; [reflexivity|]. destruct H; [discriminate|right; assumption].
Qed.
Lemma tame_wipe {S E} (D : nat -> Prop) b i :
  D i -> tame D b (wipe i : M (S * memory) E unit).
Proof. intros Di. apply tame_change; [exact Di|apply held_zeroed]. Qed.
Lemma tame_fill {S E} (D : nat -> Prop) b i x :
  D i -> tame D b (fill i x : M (S * memory) E unit).
Proof. intros Di. apply tame_change; [exact Di|apply held_filled]. Qed.

Lemma tame_owning_protected {S E A} (D : nat -> Prop) b i (m : M (S * memory) E A) :
  D i -> tame D b m -> tame D b (owning_protected i m).
Proof.
  intros Di Hm s k o s' k' HD R. unfold owning_protected in R.
  destruct (m (s, k)) as [om [s1 k1]] eqn:Em. injection R as <- <- <-.
  destruct (Hm _ _ _ _ _ HD Em) as (ka & new & -> & K & F & S1).
  assert (Hi : i < length ka) by (destruct K as [L _]; rewrite L; apply HD, Di).
  rewrite update_app by exact Hi. exists (update i dead_protected ka), new.
  split; [reflexivity|]. split; [|split; assumption].
  eapply keeps_trans; [exact K|]. apply keeps_update; [exact Di|apply held_dead_protected].
Qed.

(** Scopes that allocate a buffer *)
Definition also (D : nat -> Prop) (i j : nat) : Prop := D j \/ j = i.

Lemma scope_inv (D : nat -> Prop) b (k : memory) c ok (k' : memory) :
  c_live c = true -> (forall j, D j -> j < length k) ->
  post (also D (length k)) b (k ++ [c]) ok k' ->
  exists k1 c1 new, k' = k1 ++ c1 :: new /\ length k1 = length k /\ keeps D k k1
    /\ held c c1 /\ Forall settled new /\ stain_ok b ok new.
Proof.
  intros Lc HD (ka & new & -> & [L K] & F & S1).
  rewrite app_length in L. cbn [length] in L.
  destruct (exists_last (l := ka)) as (k1 & c1 & ->); [intros ->; cbn in L; lia|].
  rewrite app_length in L. cbn [length] in L. assert (L1 : length k1 = length k) by lia.
  exists k1, c1, new. rewrite <- app_assoc. split; [reflexivity|]. split; [exact L1|].
  split.
  - split; [exact L1|]. intros j x Hj.
    assert (J : j < length k) by (apply nth_error_Some; congruence).
    destruct (K j x) as (x' & Hx' & O); [now rewrite nth_error_app1|].
    rewrite nth_error_app1 in Hx' by lia. exists x'. split; [exact Hx'|].
    destruct O as [O|[[Dj| ->] O]]; [left; exact O|right; split; assumption|lia].
  - split; [|split; assumption].
    destruct (K (length k) c) as (x' & Hx' & O).
    { rewrite nth_error_app2, Nat.sub_diag by lia. reflexivity. }
    rewrite <- L1, nth_error_app2, Nat.sub_diag in Hx' by lia. injection Hx' as ->.
    destruct O as [->|[_ O]]; [|apply O; left; exact Lc].
    split; [reflexivity|]. split; [reflexivity|left; exact Lc].
Qed.
Lemma also_below (D : nat -> Prop) (k : memory) c :
  (forall j, D j -> j < length k) -> forall j, also D (length k) j -> j < length (k ++ [c]).
Proof.
  intros HD j [Dj| ->]; rewrite app_length; cbn [length]; [specialize (HD j Dj)|]; lia.
Qed.

Lemma update_at k f c new : update (length k) f (k ++ c :: new) = k ++ f c :: new.
Proof. induction k as [|x k IH]; cbn [length app update]; [reflexivity|now rewrite IH]. Qed.

Lemma post_protected (D : nat -> Prop) b (k : memory) x ok (k1 : memory) :
  (forall j, D j -> j < length k) ->
  post (also D (length k)) b (k ++ [mkCell Key x true]) ok k1 ->
  post D b k ok (update (length k) dead_protected k1).
Proof.
  intros HD P.
  destruct (scope_inv D b k (mkCell Key x true) ok k1 eq_refl HD P)
    as (ka & c1 & new & -> & L & K & (Hl & Hn & Hw) & F & S1).
  rewrite <- L, update_at. exists ka, (dead_protected c1 :: new).
  split; [reflexivity|]. split; [exact K|]. cbn [c_label] in Hl.
  assert (Z : settled (dead_protected c1) /\ c_label (dead_protected c1) = Key).
  { unfold dead_protected, settled, dead, zeroed. destruct (c_live c1) eqn:Lv; cbn.
    - split; [split; [reflexivity|]|exact Hl]. intros _. apply zero_zeros.
    - split; [split; [exact Lv|]|exact Hl]. intros _. destruct Hw as [Hw|[_ Hw]]; [congruence|exact Hw]. }
  destruct Z as [Z1 Z2]. split; [constructor; assumption|].
  assert (Y : stains (dead_protected c1 :: new) = stains new).
  { unfold stains. cbn [filter]. unfold stain at 1. rewrite Z2. reflexivity. }
  destruct b; cbn [stain_ok] in *; rewrite ?Y; exact S1.
Qed.
Lemma tame_protected_scope {S E A} (D : nat -> Prop) b x (body : nat -> M (S * memory) E A) :
  (forall i, tame (also D i) b (body i)) ->
  tame D b (i <- alloc Key x ;; owning_protected i (body i)).
Proof.
  intros H s k o s' k' HD R. unfold bind, alloc in R. cbn [fst snd] in R.
  unfold owning_protected in R.
  destruct (body (length k) (s, k ++ [mkCell Key x true])) as [om [s1 k1]] eqn:Em.
  injection R as <- <- <-. apply post_protected with (x := x); [exact HD|].
  exact (H _ _ _ _ _ _ (also_below D k _ HD) Em).
Qed.

Lemma tame_public_scope {S E A} (D : nat -> Prop) b x (body : nat -> M (S * memory) E A) :
  (forall i, tame (also D i) b (body i)) ->
  tame D b (i <- alloc Public x ;; owning i (body i)).
Proof.
  intros H s k o s' k' HD R. unfold bind, alloc in R. cbn [fst snd] in R. unfold owning in R.
  destruct (body (length k) (s, k ++ [mkCell Public x true])) as [om [s1 k1]] eqn:Em.
  injection R as <- <- <-.
  destruct (scope_inv D _ k (mkCell Public x true) (is_ok om) k1 eq_refl HD
              (H _ _ _ _ _ _ (also_below D k _ HD) Em))
    as (ka & c1 & new & -> & L & K & (Hl & Hn & Hw) & F & S1).
  rewrite <- L, update_at. exists ka, (dead c1 :: new). cbn [c_label] in Hl.
  split; [reflexivity|]. split; [exact K|].
  split; [constructor; [split; [reflexivity|cbn; congruence]|exact F]|].
  assert (Y : stains (dead c1 :: new) = stains new).
  { unfold stains. cbn [filter]. unfold stain at 1. cbn. rewrite Hl. reflexivity. }
  destruct b; cbn [stain_ok] in *; rewrite ?Y; exact S1.
Qed.

(** After success, buffer [i] is zero. *)
Definition ends_zero {S E A} (i : nat) (m : M (S * memory) E A) : Prop :=
  forall (s : S) (k : memory) a s' (k' : memory), i < length k ->
  m (s, k) = (Ok a, (s', k')) ->
  exists c, nth_error k' i = Some c /\ zero (c_bytes c).

Lemma tame_plain_scope {S E A} (D : nat -> Prop) n x (body : nat -> M (S * memory) E A) :
  (forall i, tame (also D i) Never (body i)) -> (forall i, ends_zero i (body i)) ->
  length x <= n ->
  tame D (OnFailure n) (i <- alloc Plain x ;; owning i (body i)).
Proof.
  intros H Z Hx s k o s' k' HD R. unfold bind, alloc in R. cbn [fst snd] in R. unfold owning in R.
  destruct (body (length k) (s, k ++ [mkCell Plain x true])) as [om [s1 k1]] eqn:Em.
  injection R as <- <- <-.
  destruct (scope_inv D _ k (mkCell Plain x true) (is_ok om) k1 eq_refl HD
              (H _ _ _ _ _ _ (also_below D k _ HD) Em))
    as (ka & c1 & new & Ek & L & K & (Hl & Hn & Hw) & F & S1).
  rewrite Ek. rewrite <- L, update_at. exists ka, (dead c1 :: new). cbn [c_label c_bytes] in Hl, Hn.
  split; [reflexivity|]. split; [exact K|].
  split; [constructor; [split; [reflexivity|cbn; congruence]|exact F]|].
  cbn [stain_ok] in S1 |- *.
  assert (Y : stains (dead c1 :: new) = if zerob (c_bytes c1) then [] else [dead c1]).
  { unfold stains in S1 |- *. cbn [filter]. rewrite S1. unfold stain. cbn [dead c_label c_bytes].
    rewrite Hl. destruct (zerob (c_bytes c1)); reflexivity. }
  rewrite Y. destruct (zerob (c_bytes c1)) eqn:Q; [left; reflexivity|].
  right. destruct om as [a|e| |]; cbn [is_ok].
  - exfalso. destruct (Z (length k) s (k ++ [mkCell Plain x true]) a s1 k1) as (c & Hc & Zc).
    + rewrite app_length. cbn [length]. lia.
    + exact Em.
    + rewrite Ek, <- L, nth_error_app2, Nat.sub_diag in Hc by lia. injection Hc as <-.
      apply zerob_zero in Zc. congruence.
  - split; [reflexivity|]. exists (dead c1). split; [reflexivity|cbn; lia].
  - split; [reflexivity|]. exists (dead c1). split; [reflexivity|cbn; lia].
  - split; [reflexivity|]. exists (dead c1). split; [reflexivity|cbn; lia].
Qed.

Lemma tame_any_scope {S E A} (D : nat -> Prop) x (body : nat -> M (S * memory) E A) :
  (forall i, tame (also D i) Anything (body i)) ->
  tame D Anything (i <- alloc Plain x ;; owning i (body i)).
Proof.
  intros H s k o s' k' HD R. unfold bind, alloc in R. cbn [fst snd] in R. unfold owning in R.
  destruct (body (length k) (s, k ++ [mkCell Plain x true])) as [om [s1 k1]] eqn:Em.
  injection R as <- <- <-.
  destruct (scope_inv D _ k (mkCell Plain x true) (is_ok om) k1 eq_refl HD
              (H _ _ _ _ _ _ (also_below D k _ HD) Em))
    as (ka & c1 & new & -> & L & K & (Hl & Hn & Hw) & F & S1).
  rewrite <- L, update_at. exists ka, (dead c1 :: new). cbn [c_label] in Hl.
  split; [reflexivity|]. split; [exact K|].
  split; [constructor; [split; [reflexivity|cbn; congruence]|exact F]|exact I].
Qed.

Lemma tame_vec_to_arr {S E} (D : nat -> Prop) b l n v :
  l <> Plain -> tame D b (vec_to_arr_m l n v : M (S * memory) E bytes).
Proof.
  intros Hl s k o s' k' HD R. unfold vec_to_arr_m, bind, alloc, owning, wipe, change, ret in R.
  cbn [fst snd] in R. rewrite !update_at in R. injection R as <- <- <-.
  exists k, [dead (zeroed (mkCell l v true))]. split; [reflexivity|]. split; [apply keeps_refl|].
  split; [constructor; [|constructor]; split; [reflexivity|intros _; apply zero_zeros]|].
  apply stain_ok_from_never. cbn [stain_ok]. unfold stains, stain. cbn. destruct l; try reflexivity.
  congruence.
Qed.
