(** Decryption depends on the bytes it reads only. *)
From Coq Require Import List Arith NArith ZArith Lia Bool.
From Verif Require Import Bytes Outcome IO Primitives Crypto Header Stream KeyModel EncDec.
From Verif Require Import BytesFacts IOSpec IOFacts HeaderSpec HeaderFacts HeaderProofs.
From Verif Require Import StreamSpec StreamFacts StreamProofs FileSpec FileFacts FileProofs.
Local Open Scope nat_scope.

(** Readers with the same future. *)
Definition dev_sim (d1 d2 : dev) : Prop :=
  d_plan d1 = d_plan d2 /\ d_pos d1 = d_pos d2 /\ length (d_data d1) = length (d_data d2)
  /\ skipn (d_pos d1) (d_data d1) = skipn (d_pos d2) (d_data d2).

Definition world_sim (w1 w2 : world) : Prop :=
  dev_sim (w_in w1) (w_in w2) /\ w_out w1 = w_out w2.

Definition sim {S1 S2 E A} (R : S1 -> S2 -> Prop) (m1 : M S1 E A) (m2 : M S2 E A) : Prop :=
  forall s1 s2, R s1 s2 -> fst (m1 s1) = fst (m2 s2) /\ R (snd (m1 s1)) (snd (m2 s2)).

Lemma sim_bind : forall {S1 S2 E A B} (R : S1 -> S2 -> Prop) (m1 : M S1 E A) (m2 : M S2 E A)
  (k1 : A -> M S1 E B) (k2 : A -> M S2 E B),
  sim R m1 m2 -> (forall a, sim R (k1 a) (k2 a)) -> sim R (bind m1 k1) (bind m2 k2).
Proof.
  intros S1 S2 E A B R m1 m2 k1 k2 H K s1 s2 HR. destruct (H s1 s2 HR) as (F & G). unfold bind.
  destruct (m1 s1) as [o1 t1], (m2 s2) as [o2 t2]; cbn [fst snd] in *. subst o2.
  destruct o1; cbn; auto. now apply K.
Qed.

Lemma sim_map_err : forall {S1 S2 E E' A} (R : S1 -> S2 -> Prop) (f : E -> E') (m1 : M S1 E A) (m2 : M S2 E A),
  sim R m1 m2 -> sim R (map_err f m1) (map_err f m2).
Proof.
  intros S1 S2 E E' A R f m1 m2 H s1 s2 HR. destruct (H s1 s2 HR) as (F & G). unfold map_err.
  destruct (m1 s1) as [o1 t1], (m2 s2) as [o2 t2]; cbn [fst snd] in *. subst o2.
  destruct o1; cbn; auto.
Qed.

Lemma sim_lift : forall {S1 S2 E A} (R : S1 -> S2 -> Prop) (o : outcome E A), sim R (lift o) (lift o).
Proof. intros S1 S2 E A R o s1 s2 H. split; auto. Qed.

Lemma sim_const : forall {S1 S2 E A} (R : S1 -> S2 -> Prop) (o : outcome E A),
  sim R (fun s => (o, s)) (fun s => (o, s)).
Proof. intros S1 S2 E A R o s1 s2 H. split; auto. Qed.

Lemma sim_in : forall {E A} (m : M dev E A), sim dev_sim m m -> sim world_sim (on_in m) (on_in m).
Proof.
  intros E A m H w1 w2 (R1 & R2). destruct (H _ _ R1) as (F & G). unfold on_in, zoom.
  destruct (m (w_in w1)) as [o1 t1], (m (w_in w2)) as [o2 t2]; cbn [fst snd] in *. subst o2.
  cbn. split; [reflexivity|]. split; assumption.
Qed.

Lemma sim_out : forall {E A} (m : M dev E A), sim world_sim (on_out m) (on_out m).
Proof.
  intros E A m w1 w2 (R1 & R2). unfold on_out, zoom. rewrite R2.
  destruct (m (w_out w2)) as [o1 t1]. cbn. split; [reflexivity|]. split; auto.
Qed.

Lemma sim_tr : forall {E A} (m1 m2 : M trace E A), (forall t1 t2, fst (m1 t1) = fst (m2 t2)) ->
  sim world_sim (on_tr m1) (on_tr m2).
Proof.
  intros E A m1 m2 H w1 w2 (R1 & R2). unfold on_tr, zoom. specialize (H (w_tr w1) (w_tr w2)).
  destruct (m1 (w_tr w1)) as [o1 t1], (m2 (w_tr w2)) as [o2 t2]. cbn [fst snd] in *. subst o2.
  cbn. split; [reflexivity|]. split; auto.
Qed.

Lemma next_ev_sim : forall d1 d2, dev_sim d1 d2 ->
  fst (next_ev d1) = fst (next_ev d2) /\ dev_sim (snd (next_ev d1)) (snd (next_ev d2)).
Proof.
  intros d1 d2 (A & B & C & D). unfold next_ev. rewrite <- A.
  destruct (d_plan d1) as [|e p] eqn:P; cbn [fst snd]; split; auto; unfold dev_sim; cbn [d_plan d_pos d_data];
    parts; auto; congruence.
Qed.

Lemma take_at_sim : forall n d1 d2, dev_sim d1 d2 ->
  fst (take_at n d1) = fst (take_at n d2) /\ dev_sim (snd (take_at n d1)) (snd (take_at n d2)).
Proof.
  intros n d1 d2 (A & B & C & D). unfold take_at. cbn [fst snd]. rewrite <- D. split; [reflexivity|].
  unfold dev_sim. cbn [d_plan d_pos d_data]. rewrite <- B. parts; auto.
  rewrite <- !skipn_skipn', D, B. reflexivity.
Qed.

Lemma dev_read_sim : forall n, sim dev_sim (dev_read n) (dev_read n).
Proof.
  intros n d1 d2 H. destruct (next_ev_sim _ _ H) as (E1 & S1). unfold dev_read.
  destruct (next_ev d1) as [e1 x1], (next_ev d2) as [e2 x2]; cbn [fst snd] in *. subst e2.
  destruct e1 as [|k| |]; cbn [fst snd]; auto.
  - destruct (take_at_sim n _ _ S1) as (E2 & S2).
    destruct (take_at n x1), (take_at n x2); cbn [fst snd] in *. subst. auto.
  - destruct (take_at_sim (Nat.min n (S k)) _ _ S1) as (E2 & S2).
    destruct (take_at (Nat.min n (S k)) x1), (take_at (Nat.min n (S k)) x2); cbn [fst snd] in *. subst. auto.
Qed.

Lemma read_to_end_loop_sim : forall fuel acc,
  sim dev_sim (read_to_end_loop fuel acc) (read_to_end_loop fuel acc).
Proof.
  induction fuel as [|fuel IH]; intros acc d1 d2 H; [cbn; auto|]. cbn [read_to_end_loop].
  pose proof H as (_ & _ & HL & _). rewrite <- HL.
  destruct (dev_read_sim (S (length (d_data d1))) d1 d2 H) as (F & G).
  destruct (dev_read (S (length (d_data d1))) d1) as [o1 x1], (dev_read (S (length (d_data d1))) d2) as [o2 x2].
  cbn [fst snd] in *. subst o2.
  destruct o1 as [[|b l]|[]| |]; cbn [fst snd]; auto; now apply IH.
Qed.

Lemma dev_read_to_end_sim : sim dev_sim dev_read_to_end dev_read_to_end.
Proof.
  intros d1 d2 H. unfold dev_read_to_end. pose proof H as (HP & _ & HL & _).
  rewrite <- HP, <- HL. now apply read_to_end_loop_sim.
Qed.

Lemma stream_open_indep : forall E s last aad ct t1 t2,
  fst (stream_open E s last aad ct t1) = fst (stream_open E s last aad ct t2).
Proof. intros. unfold stream_open. destruct (aead_dec _ _ _ _ _ _); reflexivity. Qed.

Lemma decrypt_next_indep : forall E s aad ct t1 t2,
  fst (decrypt_next E s aad ct t1) = fst (decrypt_next E s aad ct t2).
Proof.
  intros. unfold decrypt_next. destruct (N.eqb _ _); [reflexivity|].
  unfold bind, stream_open. destruct (aead_dec _ _ _ _ _ _); reflexivity.
Qed.

Lemma decrypt_loop_sim : forall E bs fuel s aad,
  sim world_sim (decrypt_loop E bs fuel s aad) (decrypt_loop E bs fuel s aad).
Proof.
  intros E bs fuel. induction fuel as [|fuel IH]; intros s aad; [apply sim_const|].
  cbn [decrypt_loop]. apply sim_bind; [apply sim_map_err, sim_in, dev_read_sim|]. intros buf.
  destruct (length buf =? bs + 16).
  - apply sim_bind; [apply sim_map_err, sim_tr, decrypt_next_indep|]. intros ms.
    apply sim_bind; [apply sim_map_err, sim_out|]. intros _. apply IH.
  - apply sim_bind; [apply sim_map_err, sim_tr; intros; apply stream_open_indep|]. intros m.
    apply sim_map_err, sim_out.
Qed.

Lemma decrypt_file_sim : forall E bs s aad,
  sim world_sim (decrypt_file_bs E bs s aad) (decrypt_file_bs E bs s aad).
Proof.
  intros E bs s aad w1 w2 H. unfold decrypt_file_bs.
  pose proof H as ((_ & _ & HL & _) & _). rewrite <- HL.
  apply sim_bind; [apply decrypt_loop_sim|intros _; apply sim_map_err, sim_out|exact H].
Qed.

(** What matters of the header: type, nonce, AAD and the master key the password
    gives. *)
Lemma dec_body_sim : forall E bs pw1 pw2 h1 h2 aad, env_ok E ->
  header_shape h1 -> header_shape h2 -> h_type h1 = h_type h2 -> h_nonce h1 = h_nonce h2 ->
  (forall mk, unlocks E pw1 h1 mk <-> unlocks E pw2 h2 mk) ->
  sim world_sim (dec_body E bs pw1 h1 aad) (dec_body E bs pw2 h2 aad).
Proof.
  intros E bs pw1 pw2 h1 h2 aad HE S1 S2 Ht Hn Hu.
  assert (Hmk : forall t1 t2, fst (decrypt_master_key E pw1 h1 t1) = fst (decrypt_master_key E pw2 h2 t2)).
  { intros t1 t2.
    destruct (decrypt_master_key_spec E pw1 h1 t1 HE S1) as [(mk & nw & U & _ & -> & _)|(U & ->)];
    destruct (decrypt_master_key_spec E pw2 h2 t2 HE S2) as [(mk' & nw' & U' & _ & -> & _)|(U' & ->)];
      cbn [fst]; auto.
    - apply Hu in U. now rewrite (unlocks_unique _ _ _ _ _ U U').
    - apply Hu in U. exfalso. eapply U'; eauto.
    - apply Hu in U'. exfalso. eapply U; eauto. }
  unfold dec_body. rewrite <- Ht, <- Hn. destruct (ht_mode (h_type h1)).
  - apply sim_bind; [apply sim_map_err, sim_in, dev_read_to_end_sim|]. intros data.
    apply sim_bind; [apply sim_map_err, sim_tr, Hmk|]. intros mk.
    apply sim_bind; [apply sim_map_err, sim_lift|]. intros c.
    apply sim_bind; [apply sim_map_err, sim_tr|].
    { intros t1 t2. unfold ciphers_decrypt. destruct (_ =? _); [|reflexivity].
      destruct (aead_dec _ _ _ _ _ _); reflexivity. }
    intros m. apply sim_map_err, sim_out.
  - apply sim_bind; [apply sim_map_err, sim_tr, Hmk|]. intros mk.
    apply sim_bind; [apply sim_map_err, sim_lift|]. intros s.
    apply sim_map_err, decrypt_file_sim.
Qed.
