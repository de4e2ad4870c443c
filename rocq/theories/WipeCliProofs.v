(** Proofs about WipeCli.v. *)
From Coq Require Import List Arith NArith String Lia Bool.
From Verif Require Import Bytes BytesFacts Outcome IO IOFacts Primitives KeyModel FS FSSpec FSFacts Archive Cli CliSpec CliKeys
  Wipe WipeSpec WipeLib WipeProofs WipeResults WipeCli WipeCliSpec.
Import ListNotations.
Local Open Scope nat_scope.
Local Open Scope list_scope.

(** ** The same as [get_secret] *)

Lemma same_handing_on {S E A} i (m : M (S * memory) E A) m0 :
  same_run m m0 -> same_run (handing_on i m) m0.
Proof.
  intros H s k. rewrite <- (H s k). unfold handing_on.
  destruct (m (s, k)) as [[a|e| |] [s' k']]; reflexivity.
Qed.
Lemma same_handing_on_protected {S E A} i (m : M (S * memory) E A) m0 :
  same_run m m0 -> same_run (handing_on_protected i m) m0.
Proof.
  intros H s k. rewrite <- (H s k). unfold handing_on_protected.
  destruct (m (s, k)) as [[a|e| |] [s' k']]; reflexivity.
Qed.

(** [m] does what [m0] does and gives an index besides. *)
Definition same_pair {S E A} (m : M (S * memory) E (A * nat)) (m0 : M S E A) : Prop :=
  same_run (x <- m ;; ret (fst x)) m0.
Lemma pair_ret {S E A} (a : A) i : same_pair (S := S) (E := E) (ret (a, i)) (ret a).
Proof. intros s k. reflexivity. Qed.
Lemma pair_err {S E A} (e : E) : same_pair (S := S) (A := A) (err e) (err e).
Proof. intros s k. reflexivity. Qed.
Lemma pair_bind {S E A B} (m : M (S * memory) E A) m0 (f : A -> M (S * memory) E (B * nat)) f0 :
  same_run m m0 -> (forall a, same_pair (f a) (f0 a)) -> same_pair (x <- m ;; f x) (x <- m0 ;; f0 x).
Proof.
  intros H F s k. specialize (H s k). unfold bind.
  destruct (m (s, k)) as [[a|e| |] [s' k']]; cbn [fst snd] in *; rewrite <- H; try reflexivity.
  exact (F a s' k').
Qed.
Lemma pair_alloc {S E A} l b (f : nat -> M (S * memory) E (A * nat)) f0 :
  (forall i, same_pair (f i) f0) -> same_pair (i <- alloc l b ;; f i) f0.
Proof. intros F s k. exact (F _ _ _). Qed.
Lemma pair_after {S E A} (m : M (S * memory) E (A * nat)) m0 (f : A * nat -> M (S * memory) E (A * nat)) f0 :
  same_pair m m0 -> (forall x, same_pair (f x) (f0 (fst x))) ->
  same_pair (x <- m ;; f x) (x <- m0 ;; f0 x).
Proof.
  intros H F s k. specialize (H s k). unfold bind in *.
  destruct (m (s, k)) as [[a|e| |] [s' k']]; cbn [fst snd] in *; rewrite <- H; try reflexivity.
  exact (F a s' k').
Qed.
Lemma pair_wrap {S E A} (w : M (S * memory) E (A * nat) -> M (S * memory) E (A * nat)) m m0 :
  (forall s k, fst (w m (s, k)) = fst (m (s, k))
    /\ fst (snd (w m (s, k))) = fst (snd (m (s, k)))) ->
  same_pair m m0 -> same_pair (w m) m0.
Proof.
  intros W H s k. specialize (W s k). specialize (H s k). destruct W as [W1 W2]. unfold bind, ret in *.
  destruct (w m (s, k)) as [o [s1 k1]]. destruct (m (s, k)) as [o' [s2 k2]].
  cbn [fst snd] in *. subst o' s2. destruct o; exact H.
Qed.
Lemma pair_handing {S E A} i (m : M (S * memory) E (A * nat)) m0 :
  same_pair m m0 -> same_pair (handing_on_protected i m) m0.
Proof.
  apply (pair_wrap (handing_on_protected i)). intros s k. unfold handing_on_protected.
  destruct (m (s, k)) as [[a|e| |] [s' k']]; split; reflexivity.
Qed.
Lemma pair_owning_protected {S E A} i (m : M (S * memory) E (A * nat)) m0 :
  same_pair m m0 -> same_pair (owning_protected i m) m0.
Proof.
  apply (pair_wrap (owning_protected i)). intros s k. unfold owning_protected.
  destruct (m (s, k)) as [o [s' k']]; split; reflexivity.
Qed.

Lemma same_password st : forall fuel, same_pair (password_loop_m fuel st) (password_loop fuel st).
Proof.
  induction fuel as [|fuel IH]; cbn [password_loop_m password_loop]; [intros s k; reflexivity|].
  apply pair_bind; [apply same_thru|]. intros input. apply pair_alloc. intros i.
  destruct st; [|apply pair_ret].
  apply pair_bind; [apply same_handing_on, same_thru|]. intros again. apply pair_alloc. intros j.
  destruct (bytes_eqb input again && negb (is_nil input))%bool.
  - intros s k. reflexivity.
  - apply pair_bind; [apply same_owning, same_owning, same_thru|]. intros _. exact IH.
Qed.
Lemma keyfile_b p s : map_err fst (read_keyfile_b p) s = read_keyfile p s.
Proof.
  unfold read_keyfile_b, read_keyfile, call_or, map_err.
  destruct (next_fault s) as [b s1]. destruct b; [reflexivity|].
  destruct (stat s1 p) as [n|]; [|reflexivity]. destruct n; try reflexivity.
  destruct (next_plan s1) as [plan s2].
  destruct (dev_read_to_end _) as [[l|e| |] d]; reflexivity.
Qed.

Lemma same_bytes p : same_pair (get_bytes_m p) (on_fs (read_keyfile p)).
Proof.
  intros c k. unfold same_pair, get_bytes_m, bind, thru, on_fs, on_a, on_sys, zoom. cbn [fst snd].
  rewrite <- (keyfile_b p (fst (c_a c))). unfold map_err.
  destruct (read_keyfile_b p (fst (c_a c))) as [[l|[e l]| |] s1]; reflexivity.
Qed.
Lemma same_secret V k st : same_pair (get_secret_m V k st) (get_secret V k st).
Proof.
  unfold get_secret_m, get_secret. apply pair_after.
  2:{ intros x. apply pair_handing. destruct (is_nil (fst x)); [apply pair_err|].
      destruct x; apply pair_ret. }
  destruct k as [p| |n|].
  - destruct (String.eqb p "-").
    + apply pair_bind; [apply same_thru|]. intros l. apply pair_alloc. intros i.
      apply pair_handing. destruct (is_nil l); [apply pair_err|apply pair_ret].
    + apply pair_after; [apply same_bytes|]. intros x. apply pair_handing.
      destruct (is_nil (fst x)); [apply pair_err|]. destruct x; apply pair_ret.
  - intros s m. unfold lift_opt. destruct (ce_key V); reflexivity.
  - apply pair_bind; [apply same_thru|]. intros l. apply pair_alloc. intros i.
    apply pair_owning_protected. apply pair_bind; [apply same_thru|]. intros _.
    apply pair_alloc. intros j. apply pair_ret.
  - intros s m. exact (same_password st _ s m).
Qed.

(** ** What is left *)

Lemma update_last f k c : update (List.length k) f (k ++ [c]) = k ++ [f c].
Proof. rewrite update_at. reflexivity. Qed.
Lemma update_last2 f k c x : update (List.length k) f (k ++ [c; x]) = k ++ [f c; x].
Proof. rewrite update_at. reflexivity. Qed.
Lemma update_last3 f k c x : update (S (List.length k)) f (k ++ [c; x]) = k ++ [c; f x].
Proof.
  replace (k ++ [c; x]) with ((k ++ [c]) ++ [x]) by (rewrite <- app_assoc; reflexivity).
  replace (S (List.length k)) with (List.length (k ++ [c])) by (rewrite app_length; cbn; lia).
  rewrite update_last, <- app_assoc. reflexivity.
Qed.

Lemma validate_ok : forall fuel c (k0 : memory) s i c' (m : memory),
  password_loop_m fuel Validate (c, k0) = (Ok (s, i), (c', m)) ->
  exists ps, c_tty c = map Some ps ++ Some s :: Some s :: c_tty c' /\ rejected (map Some ps) /\ s <> []
    /\ i = List.length k0 + List.length ps
    /\ m = k0 ++ map forgotten ps ++ [mkCell Key s true; mkCell Key (zeros (List.length s)) false].
Proof.
  induction fuel as [|fuel IH]; intros c k0 s i c' m R; [discriminate|].
  cbn [password_loop_m] in R. apply bind_good in R as (a & [c1 k1] & R1 & R2).
  apply thru_good in R1 as [R1 ->]. unfold bind at 1, alloc at 1 in R2. cbn [fst snd] in R2.
  apply bind_good in R2 as (b & [c2 k2] & R2 & R3).
  assert (R2' : prompt_password c1 = (Ok b, c2) /\ k2 = k0 ++ [mkCell Key a true]).
  { unfold handing_on, thru in R2. cbn [fst snd] in R2.
    destruct (prompt_password c1) as [[x|e| |] d]; try discriminate. injection R2 as <- <- <-. auto. }
  destruct R2' as [R2' ->]. clear R2. unfold bind at 1, alloc at 1 in R3. cbn [fst snd] in R3.
  assert (T1 : c_tty c = Some a :: Some b :: c_tty c2).
  { unfold prompt_password in R1, R2'. destruct (c_tty c) as [|[x|] r]; try discriminate.
    injection R1 as -> <-. cbn [c_tty] in R2'. destruct r as [|[y|] r]; try discriminate.
    injection R2' as -> <-. reflexivity. }
  rewrite <- app_assoc in R3. cbn [app] in R3. rewrite app_length in R3. cbn [List.length] in R3.
  rewrite Nat.add_1_r in R3.
  destruct (bytes_eqb a b && negb (is_nil a))%bool eqn:Q.
  - unfold bind, owning, wipe, change, ret in R3. cbn [fst snd] in R3. rewrite !update_last3 in R3.
    injection R3 as <- <- <- <-. apply andb_true_iff in Q as [Q1 Q2].
    apply bytes_eqb_eq in Q1. subst b. apply negb_true_iff, is_nil_neq in Q2.
    exists []. cbn [map app List.length]. rewrite Nat.add_0_r. split; [exact T1|].
    split; [constructor|]. split; [exact Q2|]. split; reflexivity.
  - unfold bind, owning, thru, say in R3. cbn [fst snd] in R3.
    rewrite update_last3, update_last2 in R3. unfold dead in R3. cbn [c_label c_bytes] in R3.
    apply IH in R3 as (ps & T & J & NE & -> & ->). cbn [c_tty] in T.
    exists (a :: b :: ps). cbn [map app List.length]. split; [now rewrite T1, T|].
    split.
    { constructor; [|exact J]. apply andb_false_iff in Q as [Q|Q].
      - left. intros ->. assert (bytes_eqb b b = true) by now apply bytes_eqb_eq. congruence.
      - right. apply negb_false_iff in Q. destruct a; [reflexivity|discriminate]. }
    split; [exact NE|]. rewrite app_length. cbn [List.length]. split; [lia|].
    rewrite <- app_assoc. reflexivity.
Qed.

Lemma handing_ok {S E A} i (m : M (S * memory) E A) s a s' :
  handing_on_protected i m s = (Ok a, s') -> m s = (Ok a, s').
Proof. unfold handing_on_protected. destruct (m s) as [[x|e| |] [t q]]; intros H; try discriminate; exact H. Qed.

Lemma secret_ok V k st c s i c' (m : memory) :
  get_secret_m V k st (c, []) = (Ok (s, i), (c', m)) ->
  (k = User /\ st = Validate
   /\ exists ps, c_tty c = map Some ps ++ Some s :: Some s :: c_tty c' /\ rejected (map Some ps)
        /\ i = List.length ps
        /\ m = map forgotten ps ++ [mkCell Key s true; mkCell Key (zeros (List.length s)) false])
  \/ (~ (k = User /\ st = Validate) /\ handed_on_alone m i s).
Proof.
  intros R. unfold get_secret_m in R. apply bind_good in R as ([s1 i1] & [c1 k1] & R1 & R2).
  apply handing_ok in R2. cbn [fst] in R2. destruct (is_nil s1); [discriminate|].
  injection R2 as -> -> -> ->.
  assert (X : forall x, handed_on_alone [mkCell Key x true] 0 x).
  { intros x. split; [reflexivity|]. intros [|[|j]] d; cbn; congruence. }
  destruct k as [p| |n|].
  - right. split; [intros [H _]; discriminate|]. destruct (String.eqb p "-").
    + unfold bind, thru, alloc, read_stdin in R1. cbn [fst snd] in R1. apply handing_ok in R1.
      destruct (is_nil (c_stdin c)); [discriminate|]. injection R1 as <- <- _ <-. apply X.
    + apply bind_good in R1 as ([x y] & [c2 k2] & R1 & R3). apply handing_ok in R3.
      cbn [fst] in R3. destruct (is_nil x); [discriminate|]. injection R3 as -> -> -> ->.
      unfold get_bytes_m, thru in R1. cbn [fst snd] in R1.
      destruct (on_fs (read_keyfile_b (os_path p)) c) as [[l|[e l]| |] d]; try discriminate.
      injection R1 as <- <- _ <-. apply X.
  - right. split; [intros [H _]; discriminate|]. unfold lift_opt in R1.
    destruct (ce_key V); [|discriminate]. injection R1 as <- <- _ <-. apply X.
  - right. split; [intros [H _]; discriminate|].
    apply bind_good in R1 as (x & [c2 k2] & R1 & R3). apply thru_good in R1 as [R1 ->].
    injection R3 as <- <- _ <-. split; [reflexivity|].
    intros [|[|j]] d; cbn; try congruence; [|intros H; destruct j; discriminate].
    intros H _. injection H as <-. split; [reflexivity|]. cbn. apply zero_zeros.
  - destruct st.
    + left. split; [reflexivity|]. split; [reflexivity|].
      apply validate_ok in R1 as (ps & T & J & _ & -> & ->). exists ps. auto.
    + right. split; [intros [_ H]; discriminate|].
      unfold get_password_m in R1. cbn [fst password_loop_m] in R1.
      apply bind_good in R1 as (x & [c2 k2] & R1 & R3). apply thru_good in R1 as [R1 ->].
      injection R3 as <- <- _ <-. apply X.
Qed.

Lemma secret_handed_on V k st c s i c' (m : memory) :
  get_secret_m V k st (c, []) = (Ok (s, i), (c', m)) -> handed_on m i s.
Proof.
  intros R. destruct (secret_ok _ _ _ _ _ _ _ _ R) as [(_ & _ & ps & _ & _ & -> & ->)|(_ & H1 & H2)].
  - split.
    + rewrite nth_error_app2 by (rewrite map_length; lia). rewrite map_length, Nat.sub_diag. reflexivity.
    + intros j d Hj Nj. destruct (Nat.lt_ge_cases j (List.length ps)) as [L|L].
      * rewrite nth_error_app1 in Hj by (rewrite map_length; lia).
        apply nth_error_In, in_map_iff in Hj as (p & <- & _). reflexivity.
      * rewrite nth_error_app2 in Hj by (rewrite map_length; lia). rewrite map_length in Hj.
        destruct (j - List.length ps) as [|[|[|q]]] eqn:Q; [lia| |discriminate|discriminate].
        injection Hj as <-. reflexivity.
  - split; [exact H1|]. intros j d Hj Nj. exact (proj1 (H2 j d Hj Nj)).
Qed.

Lemma bind_bad {S E A B} (m : M S E A) (f : A -> M S E B) s o s' :
  bind m f s = (o, s') -> (forall b, o <> Ok b) ->
  (exists o', m s = (o', s') /\ (forall a, o' <> Ok a))
  \/ exists a s1, m s = (Ok a, s1) /\ f a s1 = (o, s').
Proof.
  unfold bind. destruct (m s) as [[a|e| |] s1]; intros H N.
  - right. exists a, s1. auto.
  - left. injection H as <- <-. exists (Err e). split; [reflexivity|congruence].
  - left. injection H as <- <-. exists Panic. split; [reflexivity|congruence].
  - left. injection H as <- <-. exists Diverge. split; [reflexivity|congruence].
Qed.
Lemma validate_bad : forall fuel c (k0 : memory) o c' (m : memory), (forall x, o <> Ok x) ->
  password_loop_m fuel Validate (c, k0) = (o, (c', m)) ->
  exists ps r, c_tty c = map Some ps ++ r /\ m = k0 ++ map forgotten ps.
Proof.
  induction fuel as [|fuel IH]; intros c k0 o c' m N R.
  { injection R as _ _ <-. exists [], (c_tty c). now rewrite app_nil_r. }
  cbn [password_loop_m] in R. unfold bind at 1, thru at 1 in R. cbn [fst snd] in R.
  assert (E0 : exists ps r, c_tty c = map Some ps ++ r /\ k0 = k0 ++ map forgotten ps)
    by (exists [], (c_tty c); now rewrite app_nil_r).
  unfold prompt_password at 1 in R. destruct (c_tty c) as [|[a|] r] eqn:T.
  { injection R as _ _ <-. exact E0. } 2:{ injection R as _ _ <-. exact E0. }
  clear E0. unfold bind at 1, alloc at 1 in R. cbn [fst snd] in R.
  unfold bind at 1, handing_on, thru at 1 in R. cbn [fst snd] in R.
  assert (E1 : exists ps r', Some a :: r = map Some ps ++ r' /\ k0 ++ [forgotten a] = k0 ++ map forgotten ps)
    by (exists [a], r; split; reflexivity).
  unfold prompt_password at 1 in R. cbn [c_tty] in R. destruct r as [|[b|] r].
  { rewrite update_last in R. injection R as _ _ <-. exact E1. }
  2:{ rewrite update_last in R. injection R as _ _ <-. exact E1. }
  clear E1. unfold bind at 1, alloc at 1 in R. cbn [fst snd] in R.
  rewrite <- app_assoc in R. cbn [app] in R. rewrite app_length in R. cbn [List.length] in R.
  rewrite Nat.add_1_r in R.
  destruct (bytes_eqb a b && negb (is_nil a))%bool.
  - unfold bind, owning, wipe, change, ret in R. cbn [fst snd] in R.
    injection R as <- _ _. exfalso. exact (N _ eq_refl).
  - unfold bind, owning, thru, say in R. cbn [fst snd] in R.
    rewrite update_last3, update_last2 in R. unfold dead in R. cbn [c_label c_bytes] in R.
    apply IH in R as (ps & q & T1 & ->); [|exact N]. cbn [c_tty] in T1.
    exists (a :: b :: ps), q. split; [cbn [map app]; now rewrite T1|].
    rewrite <- app_assoc. reflexivity.
Qed.

Lemma nil_bytes (l : bytes) : is_nil l = true -> l = [].
Proof. destruct l; [reflexivity|discriminate]. Qed.
Lemma read_part p c o c' : on_fs (read_keyfile_b p) c = (o, c') ->
  match o with
  | Err (_, l) => l = [] \/ exists i r, stat (disk c') p = Some (NFile i) /\ s_data (disk c') i = l ++ r
  | _ => True
  end.
Proof.
  intros R. unfold on_fs, on_a, on_sys, zoom in R.
  destruct (read_keyfile_b p (fst (c_a c))) as [o1 s1] eqn:E. injection R as <- <-.
  unfold disk. cbn [c_a fst]. unfold read_keyfile_b, call_or in E.
  destruct (next_fault (fst (c_a c))) as [b s2].
  destruct b; [injection E as <- <-; left; reflexivity|].
  destruct (stat s2 p) as [n|] eqn:St; [|injection E as <- <-; left; reflexivity].
  destruct n as [|i|t]; [injection E as <- <-; left; reflexivity| |injection E as <- <-; left; reflexivity].
  destruct (next_plan s2) as [plan s3] eqn:NP.
  destruct (dev_read_to_end _) as [[l|e| |] d]; injection E as <- <-; try exact I.
  right. exists i, (skipn (d_pos d) (s_data s2 i)).
  assert (X : stat s3 p = stat s2 p /\ s_data s3 = s_data s2).
  { destruct (next_plan_spec _ _ _ NP) as (D & _). split; [exact (stat_disk _ _ _ D)|apply D]. }
  destruct X as [-> ->]. split; [exact St|]. now rewrite firstn_skipn.
Qed.

Lemma nil_wiped l : zero l -> wiped (forgotten l).
Proof. intros H. split; [reflexivity|exact H]. Qed.
Lemma zero_nil : zero [].
Proof. intros x []. Qed.
Lemma secret_bad V k st c o c' (m : memory) : (forall x, o <> Ok x) ->
  get_secret_m V k st (c, []) = (o, (c', m)) ->
  match k with
  | User => typed (c_tty c) m
  | Keyfile p => if String.eqb p "-" then all_wiped m else read_of (disk c') (os_path p) m
  | Env | Generate _ => all_wiped m
  end.
Proof.
  intros N R. unfold get_secret_m in R.
  assert (W1 : forall l, zero l -> all_wiped [forgotten l]).
  { intros l Z x [<-|[]] _. apply nil_wiped, Z. }
  assert (W0 : all_wiped []) by (intros x []).
  assert (L : forall x i c1 k1, handing_on_protected i (if is_nil (fst x) then err CEmptyKey else ret x) (c1, k1)
                = (o, (c', m)) -> fst x = [] /\ c' = c1 /\ m = update i dead_protected k1).
  { intros x i c1 k1 H. unfold handing_on_protected in H. destruct (is_nil (fst x)) eqn:Q.
    - injection H as <- <- <-. split; [apply nil_bytes, Q|]. split; reflexivity.
    - injection H as <- <- <-. exfalso. exact (N _ eq_refl). }
  apply bind_bad in R; [|exact N]. destruct k as [p| |n|].
  - destruct (String.eqb p "-").
    + destruct R as [(o' & R & N')|([l i] & [c1 k1] & R & R2)].
      * unfold bind, thru, read_stdin, alloc, handing_on_protected in R. cbn [fst snd] in R.
        destruct (is_nil (c_stdin c)) eqn:Q.
        -- injection R as _ _ <-. apply nil_bytes in Q. rewrite Q. exact (W1 [] zero_nil).
        -- injection R as <- _ _. exfalso. exact (N' _ eq_refl).
      * apply L in R2 as (Q & -> & ->). cbn [fst snd] in *. subst l.
        unfold bind, thru, read_stdin, alloc, handing_on_protected in R. cbn [fst snd] in R.
        destruct (is_nil (c_stdin c)); [discriminate|]. injection R as Q <- _ <-. rewrite Q.
        exact (W1 [] zero_nil).
    + assert (G : forall (r : outcome cli_error (bytes * nat)) c1 (k1 : memory), get_bytes_m (os_path p) (c, []) = (r, (c1, k1)) ->
                (exists l, r = Ok (l, 0) /\ k1 = [mkCell Key l true])
                \/ (forall x, r <> Ok x) /\ read_of (disk c1) (os_path p) k1).
      { intros r c1 k1 G. unfold get_bytes_m, thru in G. cbn [fst snd] in G.
        destruct (on_fs (read_keyfile_b (os_path p)) c) as [[l|[e l]| |] d] eqn:E.
        - injection G as <- <- <-. left. exists l. split; reflexivity.
        - injection G as <- <- <-. right. split; [congruence|]. intros x [<-|[]].
          apply read_part in E as [->|(i & r & S1 & S2)]; [left; apply nil_wiped, zero_nil|].
          right. exists i, l, r. auto.
        - injection G as <- <- <-. right. split; [congruence|]. intros x [].
        - injection G as <- <- <-. right. split; [congruence|]. intros x []. }
      assert (Z : read_of (disk c') (os_path p) [forgotten []]).
      { intros x [<-|[]]. left. apply nil_wiped, zero_nil. }
      destruct R as [(o' & R & N')|([l i] & [c1 k1] & R & R2)].
      * apply bind_bad in R; [|exact N']. destruct R as [(o2 & R & N2)|([l i] & [c1 k1] & R & R2)].
        -- apply G in R as [(l & -> & _)|[_ R]]; [exfalso; exact (N2 _ eq_refl)|exact R].
        -- apply G in R as [(l' & Q & ->)|[Q _]]; [|exfalso; exact (Q _ eq_refl)].
           injection Q as <- ->. unfold handing_on_protected in R2. cbn [fst snd] in R2.
           destruct (is_nil l) eqn:Q.
           ++ injection R2 as _ <- <-. apply nil_bytes in Q. subst l. exact Z.
           ++ injection R2 as <- _ _. exfalso. exact (N' _ eq_refl).
      * apply L in R2 as (Q & -> & ->). cbn [fst snd] in *. subst l.
        apply bind_good in R as ([l j] & [c2 k2] & R & R3). apply handing_ok in R3. cbn [fst] in R3.
        destruct (is_nil l); [discriminate|]. injection R3 as -> -> -> ->.
        apply G in R as [(l' & Q & ->)|[Q _]]; [|exfalso; exact (Q _ eq_refl)].
        injection Q as <- ->. exact Z.
  - destruct R as [(o' & R & N')|([l i] & [c1 k1] & R & R2)].
    + unfold bind, thru, lift_opt in R. cbn [fst snd] in R. destruct (ce_key V).
      * injection R as <- _ _. exfalso. exact (N' _ eq_refl).
      * injection R as _ _ <-. exact W0.
    + apply L in R2 as (Q & -> & ->). cbn [fst snd] in *. subst l.
      unfold bind, thru, lift_opt in R. cbn [fst snd] in R. destruct (ce_key V); [|discriminate].
      injection R as -> <- _ <-. exact (W1 [] zero_nil).
  - destruct R as [(o' & R & N')|([l i] & [c1 k1] & R & R2)].
    + apply bind_bad in R; [|exact N']. destruct R as [(o2 & R & N2)|(x & [c1 k1] & R & R2)].
      * unfold thru in R. cbn [fst snd] in R.
        destruct (lift _ c) as [o3 c3]. injection R as _ _ <-. exact W0.
      * injection R2 as <- _ _. exfalso. exact (N' _ eq_refl).
    + apply L in R2 as (Q & -> & ->). cbn [fst snd] in *. subst l.
      apply bind_good in R as (x & [c2 k2] & R & R3). apply thru_good in R as [_ ->].
      injection R3 as Q <- _ <-. rewrite Q. cbn.
      intros y [<-|[<-|[]]] _; apply nil_wiped, zero_nil.
  - destruct R as [(o' & R & N')|([l i] & [c1 k1] & R & R2)].
    + unfold get_password_m in R. cbn [fst] in R. destruct st.
      * apply validate_bad in R as (ps & r & T & ->); [|exact N']. exists ps, r. auto.
      * cbn [password_loop_m] in R. apply bind_bad in R; [|exact N'].
        destruct R as [(o2 & R & N2)|(x & [c1 k1] & R & R2)].
        -- unfold thru in R. cbn [fst snd] in R. destruct (prompt_password c) as [o3 c3].
           injection R as _ _ <-. exists [], (c_tty c). split; reflexivity.
        -- injection R2 as <- _ _. exfalso. exact (N' _ eq_refl).
    + apply L in R2 as (Q & -> & ->). cbn [fst snd] in *. subst l.
      unfold get_password_m in R. cbn [fst] in R. destruct st.
      * apply validate_ok in R as (ps & _ & _ & H & _). congruence.
      * cbn [password_loop_m] in R. apply bind_good in R as (x & [c2 k2] & R & R3).
        apply thru_good in R as [R ->]. injection R3 as -> <- _ <-.
        unfold prompt_password in R. destruct (c_tty c) as [|[y|] r]; try discriminate.
        injection R as -> _. exists [[]], r. split; reflexivity.
Qed.
