(** Lemmas about byte strings and in-place writes. *)
From Coq Require Import List Arith NArith Lia Bool.
From Verif Require Import Bytes Outcome IO.
Local Open Scope nat_scope.

Lemma byte_eqb_refl : forall b, Byte.eqb b b = true.
Proof. intros b; destruct b; reflexivity. Qed.

Lemma byte_eqb_eq : forall a b, Byte.eqb a b = true <-> a = b.
Proof.
  intros a b; split.
  - intros H. unfold Byte.eqb in H. apply Byte.byte_dec_bl. exact H.
  - intros ->; apply byte_eqb_refl.
Qed.

Lemma bytes_eqb_refl : forall l, bytes_eqb l l = true.
Proof. induction l; simpl; [reflexivity|]. rewrite byte_eqb_refl; assumption. Qed.

Lemma bytes_eqb_eq : forall a b, bytes_eqb a b = true <-> a = b.
Proof.
  induction a as [|x a IH]; intros [|y b]; simpl; split; intros H;
    try reflexivity; try discriminate.
  - apply andb_prop in H as [H1 H2]. apply byte_eqb_eq in H1.
    apply IH in H2. congruence.
  - inversion H; subst. rewrite byte_eqb_refl. apply IH. reflexivity.
Qed.

Lemma bytes_eqb_neq : forall a b, bytes_eqb a b = false <-> a <> b.
Proof.
  intros a b. destruct (bytes_eqb a b) eqn:H.
  - apply bytes_eqb_eq in H. split; congruence.
  - split; [|reflexivity]. intros _ ->. rewrite bytes_eqb_refl in H. discriminate.
Qed.

Lemma bytes_eq_dec : forall a b : bytes, {a = b} + {a <> b}.
Proof.
  intros a b. destruct (bytes_eqb a b) eqn:H.
  - left. apply bytes_eqb_eq, H.
  - right. apply bytes_eqb_neq, H.
Qed.

Lemma zeros_length : forall n, length (zeros n) = n.
Proof. intros; apply repeat_length. Qed.

Lemma zeros_app : forall n m, zeros (n + m) = zeros n ++ zeros m.
Proof. intros; unfold zeros; apply repeat_app. Qed.

Lemma firstn_repeat : forall {A} (x : A) n m,
  firstn n (repeat x m) = repeat x (Nat.min n m).
Proof.
  intros A x n; induction n; intros [|m]; simpl; try reflexivity.
  now rewrite IHn.
Qed.

Lemma skipn_repeat : forall {A} (x : A) n m,
  skipn n (repeat x m) = repeat x (m - n).
Proof.
  intros A x n; induction n; intros [|m]; simpl; try reflexivity. apply IHn.
Qed.

Lemma all_zero_iff : forall l, all_zero l = true <-> l = zeros (length l).
Proof.
  unfold all_zero, zeros. induction l as [|x l IH]; simpl; [tauto|].
  rewrite andb_true_iff, IH, byte_eqb_eq. split.
  - intros [-> H]. rewrite <- H. reflexivity.
  - intros H. inversion H as [[H1 H2]]. rewrite <- H2. auto.
Qed.

Lemma all_zero_zeros : forall n, all_zero (zeros n) = true.
Proof. intros. apply all_zero_iff. now rewrite zeros_length. Qed.

Lemma all_zero_app : forall a b, all_zero (a ++ b) = all_zero a && all_zero b.
Proof. intros. unfold all_zero. apply forallb_app. Qed.

(** ** firstn / skipn *)

Lemma skipn_skipn' : forall {A} x y (l : list A), skipn x (skipn y l) = skipn (y + x) l.
Proof. intros A x y; revert x; induction y; intros x [|a l]; simpl; auto; now rewrite skipn_nil. Qed.

Lemma firstn_app_exact : forall {A} (a b : list A) n, n = length a -> firstn n (a ++ b) = a.
Proof.
  intros A a b n ->. rewrite firstn_app, firstn_all, Nat.sub_diag. simpl.
  apply app_nil_r.
Qed.

Lemma skipn_app_exact : forall {A} (a b : list A) n, n = length a -> skipn n (a ++ b) = b.
Proof.
  intros A a b n ->. rewrite skipn_app, skipn_all, Nat.sub_diag. reflexivity.
Qed.

Lemma firstn_le_length' : forall {A} n (l : list A), n <= length l -> length (firstn n l) = n.
Proof. intros. rewrite firstn_length. lia. Qed.

Lemma firstn_split : forall {A} n m (l : list A),
  firstn (n + m) l = firstn n l ++ firstn m (skipn n l).
Proof.
  intros A n; induction n; intros m [|x l]; simpl; try reflexivity.
  - now rewrite firstn_nil.
  - now rewrite IHn.
Qed.

(** ** write_at *)

Definition padto (p : nat) (data : bytes) : bytes :=
  firstn p data ++ zeros (p - length data).

Lemma padto_length : forall p data, length (padto p data) = p.
Proof.
  intros. unfold padto. rewrite app_length, firstn_length, zeros_length. lia.
Qed.

Lemma write_at_nonempty : forall data p l, l <> [] ->
  write_at data p l = padto p data ++ l ++ skipn (p + length l) data.
Proof.
  intros data p [|x l] H; [congruence|]. unfold write_at, padto.
  now rewrite <- !app_assoc.
Qed.

Lemma write_at_nil : forall data p, write_at data p [] = data.
Proof. reflexivity. Qed.

Lemma write_at_app : forall data p a b,
  write_at (write_at data p a) (p + length a) b = write_at data p (a ++ b).
Proof.
  intros data p a b.
  destruct a as [|x a]; [simpl; now rewrite Nat.add_0_r|].
  destruct b as [|y b]; [now rewrite app_nil_r|].
  remember (x :: a) as A. remember (y :: b) as B.
  assert (HA : A <> []) by (subst; discriminate).
  assert (HB : B <> []) by (subst; discriminate).
  assert (HAB : A ++ B <> []) by (subst; discriminate).
  rewrite (write_at_nonempty (write_at data p A)) by assumption.
  rewrite (write_at_nonempty data p A) by assumption.
  rewrite (write_at_nonempty data p (A ++ B)) by assumption.
  unfold padto at 1.
  replace (p + length A - length (padto p data ++ A ++ skipn (p + length A) data))
    with 0 by (rewrite !app_length, padto_length; lia).
  simpl zeros. rewrite app_nil_r.
  rewrite (app_assoc (padto p data) A (skipn (p + length A) data)).
  rewrite firstn_app_exact by (rewrite app_length, padto_length; lia).
  replace (p + length A + length B) with (length (padto p data ++ A) + length B)
    by (rewrite app_length, padto_length; lia).
  rewrite <- (skipn_skipn' (length B) (length (padto p data ++ A))).
  rewrite skipn_app_exact by reflexivity.
  rewrite skipn_skipn', app_length, <- !app_assoc, Nat.add_assoc. reflexivity.
Qed.

Lemma write_at_length : forall data p l,
  length (write_at data p l) =
  match l with [] => length data | _ => Nat.max (length data) (p + length l) end.
Proof.
  intros data p [|x l]; [reflexivity|].
  rewrite write_at_nonempty by discriminate.
  rewrite !app_length, padto_length, skipn_length. lia.
Qed.

(** Writing inside the content keeps its length. *)
Lemma write_at_inside_length : forall data p l,
  p + length l <= length data -> length (write_at data p l) = length data.
Proof. intros. rewrite write_at_length. destruct l; simpl in *; lia. Qed.

Lemma write_at_inside : forall data p l,
  p + length l <= length data ->
  write_at data p l = firstn p data ++ l ++ skipn (p + length l) data.
Proof.
  intros data p l H. destruct l as [|x l].
  - simpl. rewrite Nat.add_0_r. symmetry. apply firstn_skipn.
  - rewrite write_at_nonempty by discriminate. unfold padto.
    replace (p - length data) with 0 by lia. simpl zeros. now rewrite app_nil_r.
Qed.

Lemma write_at_0 : forall data l, write_at data 0 l = l ++ skipn (length l) data.
Proof.
  intros data [|x l]; [reflexivity|].
  rewrite write_at_nonempty by discriminate. reflexivity.
Qed.

Lemma write_at_end : forall data l, write_at data (length data) l = data ++ l.
Proof.
  intros data [|x l]; [simpl; now rewrite app_nil_r|].
  rewrite write_at_nonempty by discriminate. unfold padto.
  rewrite Nat.sub_diag, firstn_all, skipn_all2 by lia.
  simpl zeros. now rewrite !app_nil_r.
Qed.

(** Bytes outside the written range are untouched. *)
Lemma write_at_firstn : forall data p l n, n <= p -> n <= length data ->
  firstn n (write_at data p l) = firstn n data.
Proof.
  intros data p l n H1 H2. destruct l as [|x l]; [reflexivity|].
  rewrite write_at_nonempty by discriminate. unfold padto.
  rewrite <- app_assoc, firstn_app, firstn_length.
  replace (n - Nat.min p (length data)) with 0 by lia. simpl firstn at 2.
  rewrite app_nil_r, firstn_firstn. f_equal. lia.
Qed.

Lemma write_at_skipn : forall data p l n, p + length l <= n ->
  skipn n (write_at data p l) = skipn n data.
Proof.
  intros data p l n H. destruct l as [|x l]; [reflexivity|].
  rewrite write_at_nonempty by discriminate.
  rewrite app_assoc, skipn_app.
  rewrite (skipn_all2 (padto p data ++ x :: l))
    by (rewrite app_length, padto_length; lia).
  rewrite app_length, padto_length, skipn_skipn'. simpl in *. f_equal. lia.
Qed.

Lemma write_at_range : forall data p l,
  firstn (length l) (skipn p (write_at data p l)) = l.
Proof.
  intros data p l. destruct l as [|x l]; [reflexivity|].
  rewrite write_at_nonempty by discriminate.
  rewrite skipn_app_exact by now rewrite padto_length.
  now apply firstn_app_exact.
Qed.

(** Writing back what is already there is the identity. *)
Lemma write_at_same : forall data p n,
  write_at data p (firstn n (skipn p data)) = data.
Proof.
  intros data p n.
  destruct (firstn n (skipn p data)) as [|x l] eqn:E; [reflexivity|].
  rewrite <- E.
  assert (Hp : p < length data).
  { destruct (Nat.lt_ge_cases p (length data)); [assumption|].
    rewrite skipn_all2 in E by lia. rewrite firstn_nil in E. discriminate. }
  rewrite write_at_inside.
  - rewrite app_assoc. rewrite <- firstn_split.
    rewrite firstn_length, skipn_length.
    destruct (Nat.le_ge_cases n (length data - p)) as [Hn|Hn].
    + rewrite Nat.min_l by lia. apply firstn_skipn.
    + rewrite Nat.min_r by lia.
      rewrite skipn_all2 by lia. rewrite firstn_all2 by lia. apply app_nil_r.
  - rewrite firstn_length, skipn_length. lia.
Qed.

(** ** Little-endian encoding *)

Lemma byte_of_N_inj : forall a b, (a < 256)%N -> (b < 256)%N ->
  byte_of_N a = byte_of_N b -> a = b.
Proof.
  intros a b Ha Hb H. unfold byte_of_N in H.
  rewrite !N.mod_small in H by assumption.
  destruct (Byte.of_N a) eqn:Ea.
  2:{ apply Byte.of_N_None_iff in Ea. lia. }
  destruct (Byte.of_N b) eqn:Eb.
  2:{ apply Byte.of_N_None_iff in Eb. lia. }
  subst. apply Byte.to_of_N in Ea, Eb. congruence.
Qed.

Lemma byte_of_N_mod : forall a, byte_of_N a = byte_of_N (a mod 256).
Proof. intros. unfold byte_of_N. rewrite N.mod_mod by lia. reflexivity. Qed.

Lemma byte_of_N_mod_inj : forall a b,
  byte_of_N a = byte_of_N b -> (a mod 256 = b mod 256)%N.
Proof.
  intros a b H. rewrite (byte_of_N_mod a), (byte_of_N_mod b) in H.
  apply byte_of_N_inj in H; auto; apply N.mod_lt; lia.
Qed.

Lemma byte_of_to_N : forall b, byte_of_N (Byte.to_N b) = b.
Proof. intros b; destruct b; reflexivity. Qed.

Lemma to_byte_of_N : forall n, (n < 256)%N -> Byte.to_N (byte_of_N n) = n.
Proof.
  intros n H. unfold byte_of_N. rewrite N.mod_small by assumption.
  destruct (Byte.of_N n) eqn:E.
  - apply Byte.to_of_N in E. exact E.
  - apply Byte.of_N_None_iff in E. lia.
Qed.

Lemma le32_length : forall n, length (le32 n) = 4.
Proof. reflexivity. Qed.

Lemma le32_inj : forall a b, (a < 2 ^ 32)%N -> (b < 2 ^ 32)%N ->
  le32 a = le32 b -> a = b.
Proof.
  intros a b Ha Hb H. unfold le32 in H. inversion H as [[H0 H1 H2 H3]].
  apply byte_of_N_mod_inj in H0, H1, H2, H3.
  change (2 ^ 32)%N with 4294967296%N in *.
  replace 65536%N with (256 * 256)%N in * by reflexivity.
  replace 16777216%N with (256 * 256 * 256)%N in * by reflexivity.
  rewrite <- !N.div_div in H2 by lia.
  rewrite <- !N.div_div in H3 by lia.
  pose proof (N.div_mod a 256 ltac:(lia)) as A0.
  pose proof (N.div_mod (a / 256) 256 ltac:(lia)) as A1.
  pose proof (N.div_mod (a / 256 / 256) 256 ltac:(lia)) as A2.
  pose proof (N.div_mod b 256 ltac:(lia)) as B0.
  pose proof (N.div_mod (b / 256) 256 ltac:(lia)) as B1.
  pose proof (N.div_mod (b / 256 / 256) 256 ltac:(lia)) as B2.
  rewrite (N.mod_small (a / 256 / 256 / 256)) in H3
    by (rewrite !N.div_div by lia; apply N.div_lt_upper_bound; lia).
  rewrite (N.mod_small (b / 256 / 256 / 256)) in H3
    by (rewrite !N.div_div by lia; apply N.div_lt_upper_bound; lia).
  lia.
Qed.

(** The last-block flag occupies its own bit. *)
Lemma lor_flag : forall pos (last : bool), (pos < 2 ^ 31)%N ->
  N.lor pos (N.shiftl (if last then 1 else 0) 31)
  = (pos + (if last then 2 ^ 31 else 0))%N.
Proof.
  intros pos last H. destruct last.
  - rewrite N.shiftl_1_l.
    rewrite <- N.lxor_lor.
    + symmetry. apply N.add_nocarry_lxor.
      apply N.bits_inj. intros i. rewrite N.land_spec, N.bits_0, N.pow2_bits_eqb.
      destruct (N.eqb_spec 31 i) as [<-|]; [|apply andb_false_r].
      rewrite andb_true_r.
      rewrite N.testbit_eqb. rewrite N.div_small by assumption. reflexivity.
    + apply N.bits_inj. intros i. rewrite N.land_spec, N.bits_0, N.pow2_bits_eqb.
      destruct (N.eqb_spec 31 i) as [<-|]; [|apply andb_false_r].
      rewrite andb_true_r.
      rewrite N.testbit_eqb. rewrite N.div_small by assumption. reflexivity.
  - rewrite N.shiftl_0_l, N.lor_0_r. lia.
Qed.

Lemma nth_error_firstn' : forall {A} n i (l : list A), i < n ->
  nth_error (firstn n l) i = nth_error l i.
Proof.
  intros A n; induction n; intros [|i] [|x l] H; cbn; auto; try lia.
  apply IHn. lia.
Qed.
