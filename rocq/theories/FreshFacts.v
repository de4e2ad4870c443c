(** Where the random bytes of a run go, and why no nonce is used twice. *)
From Coq Require Import List Arith NArith ZArith Lia Bool.
From Verif Require Import Bytes Outcome IO Primitives Crypto Header Stream KeyModel EncDec KeyOps.
From Verif Require Import BytesFacts IOSpec IOFacts StreamSpec StreamFacts StreamProofs FileSpec FileFacts KeySpec.
From Verif Require Import FreshSpec.
Import ListNotations.
Local Open Scope nat_scope.

Definition later (k : nat) (r : rng) : rng := fun i => r (k + i).
Notation NL a := (get_nonce_len a MemoryMode).

Lemma nl_bounds : forall a, 12 <= NL a /\ NL a <= 24 /\ get_nonce_len a StreamMode = NL a - 4.
Proof. intros []; cbn; lia. Qed.

Lemma draw_ext : forall r r', (forall i, r i = r' i) -> forall off n, draw r off n = draw r' off n.
Proof. intros r r' H off n. unfold draw. apply map_ext. auto. Qed.
Lemma draw_later : forall k r off n, draw (later k r) off n = draw r (k + off) n.
Proof. intros. apply draw_shift. Qed.
Lemma draw_firstn : forall r off n m, m <= n -> firstn m (draw r off n) = draw r off m.
Proof.
  intros r off n m. revert off n. induction m as [|m IH]; intros off n H; [reflexivity|].
  destruct n as [|n]; [lia|]. unfold draw in *. cbn. f_equal. apply IH. lia.
Qed.

(** A run of [k] random bytes and the encryptions it makes. *)
Inductive spends (E : env) : rng -> nat -> list call -> Prop :=
| sp_skip : forall r k, spends E r k []
| sp_wrap : forall r k ha pw key a msg ct,
    16 + NL a <= k -> hash E ha pw (draw r 0 16) = Ok key ->
    spends E r k [mkCall a key (draw r 16 (NL a)) [] msg ct]
| sp_encrypt : forall r k ha pw key a msg ct body,
    48 + NL a + (NL a - 4) <= k -> hash E ha pw (draw r 0 16) = Ok key ->
    Forall (fun c => c_key c = draw r 16 32
                     /\ exists x, length x = 4 /\ c_nonce c = draw r (48 + NL a) (NL a - 4) ++ x) body ->
    NoDup (map c_nonce body) ->
    spends E r k (mkCall a key (draw r 48 (NL a)) [] msg ct :: body)
| sp_seq : forall r k k' cs cs',
    spends E r k cs -> spends E (later k r) k' cs' -> spends E r (k + k') (cs ++ cs').

Lemma spends_ext : forall E r k cs, spends E r k cs -> forall r', (forall i, r i = r' i) -> spends E r' k cs.
Proof.
  intros E r k cs H. induction H; intros r' X.
  - constructor.
  - rewrite (draw_ext _ _ X). eapply sp_wrap; [assumption|]. rewrite <- (draw_ext _ _ X). eassumption.
  - rewrite (draw_ext _ _ X). rewrite (draw_ext _ _ X) in H0. eapply sp_encrypt; [assumption|exact H0| |assumption].
    rewrite Forall_forall in *. intros c Hc. rewrite <- !(draw_ext _ _ X). auto.
  - apply sp_seq; [auto|]. apply IHspends2. intros i. apply X.
Qed.

(** Where the key and nonce of a call come from. *)
Definition placed (E : env) (r : rng) (k : nat) (c : call) : Prop :=
  (exists ha pw s p n, hash E ha pw (draw r s 16) = Ok (c_key c) /\ s + 16 <= k
     /\ c_nonce c = draw r p n /\ 12 <= n /\ p + n <= k)
  \/ (exists m p n x, c_key c = draw r m 32 /\ m + 32 <= k
     /\ c_nonce c = draw r p n ++ x /\ length x = 4 /\ 8 <= n /\ p + n <= k).

Lemma placed_later : forall E r k k' c, placed E (later k r) k' c ->
  (exists ha pw s p n, hash E ha pw (draw r s 16) = Ok (c_key c) /\ k <= s /\ s + 16 <= k + k'
     /\ c_nonce c = draw r p n /\ 12 <= n /\ k <= p /\ p + n <= k + k')
  \/ (exists m p n x, c_key c = draw r m 32 /\ k <= m /\ m + 32 <= k + k'
     /\ c_nonce c = draw r p n ++ x /\ length x = 4 /\ 8 <= n /\ k <= p /\ p + n <= k + k').
Proof.
  intros E r k k' c [(ha & pw & s & p & n & A & B & C & D & F)|(m & p & n & x & A & B & C & D & F & G)];
    rewrite !draw_later in *.
  - left. exists ha, pw, (k + s), (k + p), n. repeat split; auto; lia.
  - right. exists (k + m), (k + p), n, x. repeat split; auto; lia.
Qed.

Lemma spends_placed : forall E r k cs, spends E r k cs -> forall c, In c cs -> placed E r k c.
Proof.
  intros E r k cs H. induction H as [r k|r k ha pw key a msg ct K HK|r k ha pw key a msg ct body K HK FB ND
      |r k k' cs cs' H1 IH1 H2 IH2]; intros c IN.
  - destruct IN.
  - destruct IN as [<-|[]]. left. destruct (nl_bounds a) as (B & _).
    exists ha, pw, 0, 16, (NL a). cbn [c_key c_nonce]. repeat split; auto; lia.
  - destruct (nl_bounds a) as (B & _). destruct IN as [<-|IN].
    + left. exists ha, pw, 0, 48, (NL a). cbn [c_key c_nonce]. repeat split; auto; lia.
    + right. rewrite Forall_forall in FB. destruct (FB c IN) as (X & x & L & N).
      exists 16, (48 + NL a), (NL a - 4), x. repeat split; auto; lia.
  - apply in_app_or in IN as [IN|IN].
    + destruct (IH1 c IN) as [(ha & pw & s & p & n & A & B & C & D & F)|(m & p & n & x & A & B & C & D & F & G)].
      * left. exists ha, pw, s, p, n. repeat split; auto; lia.
      * right. exists m, p, n, x. repeat split; auto; lia.
    + destruct (placed_later _ _ _ _ _ (IH2 c IN))
        as [(ha & pw & s & p & n & A & _ & B & C & D & _ & F)|(m & p & n & x & A & _ & B & C & D & F & _ & G)].
      * left. exists ha, pw, s, p, n. auto 9.
      * right. exists m, p, n, x. auto 9.
Qed.

Lemma repeats_more : forall r n m k, n <= m -> repeats r n k -> repeats r m k.
Proof. intros r n m k L (p & q & A & B & C). exists p, q. repeat split; auto; lia. Qed.
Lemma bad_more : forall E r n m, n <= m -> bad_luck E r n -> bad_luck E r m.
Proof.
  intros E r n m L [H|[H (ha & pw & s & j & A & B & C)]]; [left|right].
  - eapply repeats_more; eauto.
  - split; [eapply repeats_more; eauto|]. exists ha, pw, s, j. repeat split; auto; lia.
Qed.
Lemma bad_later : forall E r k n, bad_luck E (later k r) n -> bad_luck E r (k + n).
Proof.
  intros E r k n H. assert (R : forall j, repeats (later k r) n j -> repeats r (k + n) j).
  { intros j (p & q & A & B & C). rewrite !draw_later in C. exists (k + p), (k + q). repeat split; auto; lia. }
  destruct H as [H|[H (ha & pw & s & j & A & B & C)]]; [left; auto|right].
  split; [auto|]. rewrite !draw_later in C. exists ha, pw, (k + s), (k + j). repeat split; auto; lia.
Qed.

(** Two calls whose randomness lies apart. *)
Lemma repeat_of : forall r p n q m k x y l, draw r p n ++ x = draw r q m ++ y -> l <= n -> l <= m ->
  p + n <= q \/ (n = l /\ p + l <= q) -> q + m <= k -> repeats r k l.
Proof.
  intros r p n q m k x y l H L1 L2 A B. exists p, q. split; [lia|]. split; [lia|].
  apply (f_equal (firstn l)) in H. rewrite !firstn_app, !draw_length in H.
  replace (l - n) with 0 in H by lia. replace (l - m) with 0 in H by lia. cbn [firstn] in H.
  rewrite !app_nil_r, !draw_firstn in H by assumption. exact H.
Qed.

Lemma cross : forall E r k k' c d, placed E r k c -> placed E (later k r) k' d ->
  c_key c = c_key d -> c_nonce c = c_nonce d -> bad_luck E r (k + k').
Proof.
  intros E r k k' c d PC PD K N. apply placed_later in PD.
  destruct PC as [(ha & pw & s & p & n & A1 & A2 & A3 & A4 & A5)|(m & p & n & x & A1 & A2 & A3 & A4 & A5 & A6)];
    destruct PD as [(ha' & pw' & s' & p' & n' & B1 & B2 & B3 & B4 & B5 & B6 & B7)
                   |(m' & p' & n' & x' & B1 & B2 & B3 & B4 & B5 & B6 & B7 & B8)].
  - left. rewrite A3, B4 in N. apply (repeat_of r p n p' n' (k + k') [] [] 12); try lia. now rewrite !app_nil_r.
  - right. split.
    + rewrite A3, B4 in N. apply (repeat_of r p n p' n' (k + k') [] x' 8); try lia. now rewrite app_nil_r.
    + exists ha, pw, s, m'. rewrite A1. repeat split; try lia. congruence.
  - right. split.
    + rewrite A3, B4 in N. apply (repeat_of r p n p' n' (k + k') x [] 8); try lia. now rewrite app_nil_r.
    + exists ha', pw', s', m. rewrite B1. repeat split; try lia. congruence.
  - left. exists m, m'. split; [lia|]. split; [lia|].
    rewrite <- (draw_firstn r m 32 12), <- (draw_firstn r m' 32 12) by lia. congruence.
Qed.

Lemma nodup_nth : forall {A B} (f : A -> B) l i j x y, NoDup (map f l) -> i <> j ->
  nth_error l i = Some x -> nth_error l j = Some y -> f x <> f y.
Proof.
  intros A B f l i j x y ND NE X Y H. apply NE. rewrite NoDup_nth_error in ND. apply ND.
  - rewrite map_length. apply nth_error_Some. congruence.
  - rewrite (map_nth_error f _ _ X), (map_nth_error f _ _ Y). congruence.
Qed.

Lemma spends_fresh : forall E r k cs, spends E r k cs ->
  forall i j c d, i < j -> nth_error cs i = Some c -> nth_error cs j = Some d ->
  c_key c = c_key d -> c_nonce c = c_nonce d -> bad_luck E r k.
Proof.
  intros E r k cs H. induction H as [r k|r k ha pw key a msg ct K HK|r k ha pw key a msg ct body K HK FB ND
      |r k k' cs cs' H1 IH1 H2 IH2]; intros i j c d L C D EK EN.
  - destruct i; discriminate.
  - destruct j as [|[|j]]; cbn in D; try lia; discriminate.
  - destruct j as [|j]; [lia|]. cbn in D. rewrite Forall_forall in FB.
    destruct (FB d (nth_error_In _ _ D)) as (X & x & LX & N).
    destruct (nl_bounds a) as (B & _).
    destruct i as [|i]; cbn in C.
    + injection C as <-. cbn [c_key c_nonce] in *. right. split.
      * rewrite N in EN. eapply (repeat_of r 48 (NL a) (48 + NL a) (NL a - 4) k [] x 8); try lia.
        now rewrite app_nil_r.
      * exists ha, pw, 0, 16. rewrite HK. repeat split; try lia. congruence.
    + exfalso. eapply (nodup_nth c_nonce body i j); eauto. lia.
  - destruct (Nat.lt_ge_cases i (length cs)) as [Li|Li].
    + rewrite nth_error_app1 in C by assumption.
      destruct (Nat.lt_ge_cases j (length cs)) as [Lj|Lj].
      * rewrite nth_error_app1 in D by assumption. apply (bad_more E r k); [lia|]. exact (IH1 i j c d L C D EK EN).
      * rewrite nth_error_app2 in D by assumption.
        eapply cross; eauto; eapply spends_placed; eauto; eapply nth_error_In; eauto.
    + rewrite nth_error_app2 in C, D by lia. apply bad_later.
      apply (IH2 (i - length cs) (j - length cs) c d); auto. lia.
Qed.

(** ** Runs *)

Definition spent (E : env) (n : nat) (r : rng) (t : trace) (r' : rng) (t' : trace) : Prop :=
  exists k cs, k <= n /\ (forall i, r' i = r (k + i)) /\ sealed t' = sealed t ++ cs /\ spends E r k cs.

Lemma spent_none : forall E r t r' t', (forall i, r' i = r i) -> sealed t' = sealed t -> spent E 0 r t r' t'.
Proof. intros E r t r' t' R T. exists 0, []. rewrite app_nil_r. repeat split; auto. constructor. Qed.
Lemma spent_more : forall E n m r t r' t', n <= m -> spent E n r t r' t' -> spent E m r t r' t'.
Proof. intros E n m r t r' t' L (k & cs & A & B). exists k, cs. split; [lia|exact B]. Qed.
Lemma spent_seq : forall E n m r t r1 t1 r2 t2, spent E n r t r1 t1 -> spent E m r1 t1 r2 t2 ->
  spent E (n + m) r t r2 t2.
Proof.
  intros E n m r t r1 t1 r2 t2 (k & cs & A1 & A2 & A3 & A4) (k' & cs' & B1 & B2 & B3 & B4).
  exists (k + k'), (cs ++ cs'). split; [lia|]. split.
  { intros i. rewrite B2, A2. f_equal. lia. }
  split. { rewrite B3, A3. symmetry. apply app_assoc. }
  apply sp_seq; [assumption|]. eapply spends_ext; [eassumption|]. intros i. apply A2.
Qed.

Lemma spent_fresh : forall E n r r' t', spent E n r [] r' t' -> ~ bad_luck E r n -> nonces_fresh t'.
Proof.
  intros E n r r' t' (k & cs & A & B & C & D) NB i j c d NE X Y K N.
  cbn in C. rewrite C in X, Y. apply NB. apply (bad_more E r k n); [exact A|].
  destruct (Nat.lt_ge_cases i j).
  - eapply (spends_fresh E r k cs D i j); eauto.
  - eapply (spends_fresh E r k cs D j i); eauto. lia.
Qed.
