(** Handles on different files behave like the devices of [world]. *)
From Coq Require Import List Arith NArith ZArith Lia Bool.
From Verif Require Import Bytes Outcome IO Primitives Crypto Header Stream KeyModel EncDec.
From Verif Require Import FS Archive Shared SharedSpec IOFacts WorldFrames DecSim.
Import ListNotations.
Local Open Scope nat_scope.

Lemma bind_assoc : forall {S E A B C} (m : M S E A) (f : A -> M S E B) (g : B -> M S E C) s,
  bind (bind m f) g s = bind m (fun x => bind (f x) g) s.
Proof. intros. unfold bind. destruct (m s) as [[| | |] s1]; reflexivity. Qed.
Lemma bind_congr : forall {S E A B} (m : M S E A) (f g : A -> M S E B) s,
  (forall x s', f x s' = g x s') -> bind m f s = bind m g s.
Proof. intros S E A B m f g s H. unfold bind. destruct (m s) as [[| | |] s1]; auto. Qed.
Lemma map_err_congr : forall {S E E' A} (f : E -> E') (m m' : M S E A) s,
  m s = m' s -> map_err f m s = map_err f m' s.
Proof. intros S E E' A f m m' s H. unfold map_err. rewrite H. reflexivity. Qed.

(** ** The same programs *)

Lemma same_enc_loop : forall E bs aad fuel s w,
  encrypt_loop_p world_ports E bs fuel s aad w = encrypt_loop E bs fuel s aad w.
Proof.
  intros E bs aad. induction fuel as [|fuel IH]; intros s w; [reflexivity|].
  cbn [encrypt_loop_p encrypt_loop]. apply bind_congr. intros buf w1.
  destruct (length buf =? bs); [|reflexivity].
  apply bind_congr. intros cs w2. apply bind_congr. intros _ w3. apply IH.
Qed.
Lemma same_dec_loop : forall E bs aad fuel s w,
  decrypt_loop_p world_ports E bs fuel s aad w = decrypt_loop E bs fuel s aad w.
Proof.
  intros E bs aad. induction fuel as [|fuel IH]; intros s w; [reflexivity|].
  cbn [decrypt_loop_p decrypt_loop]. apply bind_congr. intros buf w1.
  destruct (length buf =? bs + 16); [|reflexivity].
  apply bind_congr. intros cs w2. apply bind_congr. intros _ w3. apply IH.
Qed.
Lemma same_enc_file : forall E bs s aad w,
  encrypt_file_p world_ports E bs s aad w = encrypt_file_bs E bs s aad w.
Proof.
  intros. unfold encrypt_file_p, encrypt_file_bs, bind. cbn [p_size world_ports].
  rewrite same_enc_loop. reflexivity.
Qed.
Lemma same_dec_file : forall E bs s aad w,
  decrypt_file_p world_ports E bs s aad w = decrypt_file_bs E bs s aad w.
Proof.
  intros. unfold decrypt_file_p, decrypt_file_bs, bind. cbn [p_size world_ports].
  rewrite same_dec_loop. reflexivity.
Qed.

Lemma same_decrypt : forall E bs detached raw w,
  decrypt_execute_p world_ports E bs detached raw w = decrypt_execute_bs E bs detached raw w.
Proof.
  intros. unfold decrypt_execute_p, decrypt_execute_bs.
  match goal with |- bind ?m _ _ = bind ?m' _ _ => change m with m' end.
  apply bind_congr. intros [h aad] w1. destruct (ht_mode (h_type h)); [reflexivity|].
  apply bind_congr. intros mk w2. apply bind_congr. intros s w3.
  apply map_err_congr, same_dec_file.
Qed.

Ltac through := rewrite bind_assoc; apply bind_congr; intros ? ?.
Lemma same_encrypt : forall E bs req w,
  encrypt_execute_p world_ports E bs req w = encrypt_execute_bs E bs req w.
Proof.
  intros. unfold encrypt_execute_p, encrypt_keys_p, put_header_p, encrypt_execute_bs. cbv zeta.
  do 8 through. unfold ret at 1. unfold bind at 1. cbn [fst snd].
  rewrite bind_assoc. apply bind_congr. intros _ w1. apply bind_congr. intros _ w2.
  apply bind_congr. intros aad w3. apply bind_congr. intros _ w4.
  apply map_err_congr, same_enc_file.
Qed.

(** ** Device code does not look at the log *)

Definition older (l : list (nat * bytes)) (d1 d2 : dev) : Prop :=
  d_data d1 = d_data d2 /\ d_pos d1 = d_pos d2 /\ d_plan d1 = d_plan d2 /\ d_log d2 = l ++ d_log d1.
Definition blind {E A} (m : M dev E A) : Prop := forall l, sim (older l) m m.

Lemma next_ev_older : forall l d1 d2, older l d1 d2 ->
  fst (next_ev d1) = fst (next_ev d2) /\ older l (snd (next_ev d1)) (snd (next_ev d2)).
Proof.
  intros l d1 d2 (A & B & C & D). unfold next_ev. rewrite <- C.
  destruct (d_plan d1) as [|e p] eqn:P; cbn [fst snd]; split; auto;
    unfold older; cbn [d_plan d_pos d_data d_log]; repeat split; auto; congruence.
Qed.
Lemma take_at_older : forall l n d1 d2, older l d1 d2 ->
  fst (take_at n d1) = fst (take_at n d2) /\ older l (snd (take_at n d1)) (snd (take_at n d2)).
Proof.
  intros l n d1 d2 (A & B & C & D). unfold take_at. cbn [fst snd]. rewrite <- A, <- B.
  split; [reflexivity|]. unfold older. cbn [d_plan d_pos d_data d_log]. repeat split; auto.
Qed.
Lemma put_at_older : forall l b d1 d2, older l d1 d2 -> older l (put_at b d1) (put_at b d2).
Proof.
  intros l b d1 d2 (A & B & C & D). unfold put_at, older. cbn [d_plan d_pos d_data d_log].
  rewrite <- A, <- B, <- C, D. repeat split; auto. destruct b; auto. rewrite app_assoc. reflexivity.
Qed.
Lemma set_pos_older : forall l p d1 d2, older l d1 d2 -> older l (set_pos p d1) (set_pos p d2).
Proof.
  intros l p d1 d2 (A & B & C & D). unfold set_pos, older. cbn [d_plan d_pos d_data d_log]. auto.
Qed.


Lemma blind_read : forall n, blind (dev_read n).
Proof.
  intros n l d1 d2 H. unfold dev_read. destruct (next_ev_older _ _ _ H) as (E1 & S1).
  destruct (next_ev d1) as [e1 x1], (next_ev d2) as [e2 x2]; cbn [fst snd] in *. subst e2.
  destruct e1 as [|k| |]; cbn [fst snd]; auto.
  - destruct (take_at_older l n _ _ S1) as (E2 & S2).
    destruct (take_at n x1), (take_at n x2); cbn [fst snd] in *. subst. auto.
  - destruct (take_at_older l (Nat.min n (S k)) _ _ S1) as (E2 & S2).
    destruct (take_at (Nat.min n (S k)) x1), (take_at (Nat.min n (S k)) x2); cbn [fst snd] in *. subst. auto.
Qed.
Lemma blind_write : forall b, blind (dev_write b).
Proof.
  intros b l d1 d2 H. unfold dev_write. destruct (next_ev_older _ _ _ H) as (E1 & S1).
  destruct (next_ev d1) as [e1 x1], (next_ev d2) as [e2 x2]; cbn [fst snd] in *. subst e2.
  destruct e1 as [|k| |]; cbn [fst snd]; auto; split; auto; now apply put_at_older.
Qed.
Lemma blind_flush : blind dev_flush.
Proof.
  intros l d1 d2 H. unfold dev_flush. destruct (next_ev_older _ _ _ H) as (E1 & S1).
  destruct (next_ev d1) as [e1 x1], (next_ev d2) as [e2 x2]; cbn [fst snd] in *. subst e2.
  destruct e1 as [|k| |]; cbn [fst snd]; auto.
Qed.
Lemma blind_rewind : blind dev_rewind.
Proof.
  intros l d1 d2 H. unfold dev_rewind, dev_seek_start. destruct (next_ev_older _ _ _ H) as (E1 & S1).
  destruct (next_ev d1) as [e1 x1], (next_ev d2) as [e2 x2]; cbn [fst snd] in *. subst e2.
  destruct e1 as [|k| |]; cbn [fst snd]; auto; split; auto; now apply set_pos_older.
Qed.
Lemma blind_back : forall n, blind (dev_seek_back n).
Proof.
  intros n l d1 d2 H. unfold dev_seek_back. destruct (next_ev_older _ _ _ H) as (E1 & S1).
  destruct (next_ev d1) as [e1 x1], (next_ev d2) as [e2 x2]; cbn [fst snd] in *. subst e2.
  assert (P : d_pos x1 = d_pos x2) by apply S1. rewrite <- P.
  destruct e1 as [|k| |]; cbn [fst snd]; auto; destruct (n <=? d_pos x1); cbn [fst snd]; auto;
    split; auto; now apply set_pos_older.
Qed.
Lemma blind_exact : forall n, blind (dev_read_exact n).
Proof.
  intros n l d1 d2 H. unfold dev_read_exact. assert (P : d_plan d1 = d_plan d2) by apply H. rewrite <- P.
  clear P. generalize (S (length (d_plan d1) + n)) as fuel. generalize (@nil byte) as acc.
  intros acc fuel. revert n acc d1 d2 H. induction fuel as [|fuel IH]; intros n acc d1 d2 H.
  - destruct n; cbn; auto.
  - destruct n as [|n]; [cbn; auto|]. cbn [read_exact_loop].
    destruct (blind_read (S n) l d1 d2 H) as (F & G).
    destruct (dev_read (S n) d1) as [o1 x1], (dev_read (S n) d2) as [o2 x2]. cbn [fst snd] in *. subst o2.
    destruct o1 as [[|b bs]|[]| |]; cbn [fst snd]; auto; now apply IH.
Qed.
Lemma blind_write_all : forall b, blind (dev_write_all b).
Proof.
  intros b l d1 d2 H. unfold dev_write_all. assert (P : d_plan d1 = d_plan d2) by apply H. rewrite <- P.
  clear P. generalize (S (length (d_plan d1) + length b)) as fuel.
  intros fuel. revert b d1 d2 H. induction fuel as [|fuel IH]; intros b d1 d2 H.
  - destruct b; cbn; auto.
  - destruct b as [|x b]; [cbn; auto|]. cbn [write_all_loop].
    destruct (blind_write (x :: b) l d1 d2 H) as (F & G).
    destruct (dev_write (x :: b) d1) as [o1 x1], (dev_write (x :: b) d2) as [o2 x2].
    cbn [fst snd] in *. subst o2.
    destruct o1 as [[|k]|[]| |]; cbn [fst snd]; auto; now apply IH.
Qed.
Lemma blind_to_end : blind dev_read_to_end.
Proof.
  intros l d1 d2 H. unfold dev_read_to_end. assert (P : d_plan d1 = d_plan d2) by apply H.
  assert (Q : d_data d1 = d_data d2) by apply H. rewrite <- P, <- Q. clear P Q.
  generalize (S (S (length (d_plan d1) + length (d_data d1)))) as fuel. generalize (@nil byte) as acc.
  intros acc fuel. revert acc d1 d2 H. induction fuel as [|fuel IH]; intros acc d1 d2 H; [cbn; auto|].
  cbn [read_to_end_loop]. assert (Q : d_data d1 = d_data d2) by apply H. rewrite <- Q. clear Q.
  destruct (blind_read (S (length (d_data d1))) l d1 d2 H) as (F & G).
  destruct (dev_read (S (length (d_data d1))) d1) as [o1 x1], (dev_read (S (length (d_data d1))) d2) as [o2 x2].
  cbn [fst snd] in *. subst o2.
  destruct o1 as [[|b bs]|[]| |]; cbn [fst snd]; auto; now apply IH.
Qed.
Lemma sim_or_else : forall {S1 S2 E E' A} (R : S1 -> S2 -> Prop) (m1 : M S1 E A) (m2 : M S2 E A)
  (h1 : E -> M S1 E' A) (h2 : E -> M S2 E' A),
  sim R m1 m2 -> (forall e, sim R (h1 e) (h2 e)) -> sim R (or_else m1 h1) (or_else m2 h2).
Proof.
  intros S1 S2 E E' A R m1 m2 k1 k2 H K s1 s2 HR. destruct (H s1 s2 HR) as (F & G). unfold or_else.
  destruct (m1 s1) as [o1 t1], (m2 s2) as [o2 t2]; cbn [fst snd] in *. subst o2.
  destruct o1; cbn; auto. now apply K.
Qed.
Lemma blind_deserialize : blind deserialize.
Proof.
  intros l. unfold deserialize. apply sim_bind; [apply sim_map_err, blind_exact|intros vb].
  apply sim_bind; [apply sim_map_err, blind_back|intros _].
  apply sim_bind; [destruct (parse_version vb); apply sim_const|intros v].
  apply sim_bind; [apply sim_map_err, blind_exact|intros full]. apply sim_lift.
Qed.
Lemma blind_skip : forall n, blind (skip_empty_header n).
Proof.
  intros n l. unfold skip_empty_header. apply sim_bind.
  - apply sim_or_else; [apply blind_exact|]. intros [e b]. cbn [fst snd]. destruct e; apply sim_const.
  - intros b. destruct (negb (all_zero b)); [apply sim_map_err, blind_rewind|apply sim_const].
Qed.
Lemma blind_header : forall h, blind (write_header_to h).
Proof.
  intros h l. unfold write_header_to. apply sim_bind; [apply sim_map_err, sim_lift|intros b].
  apply sim_bind; [apply sim_map_err, blind_write|intros _]. apply sim_const.
Qed.

(** ** Handles and devices *)

Definition tied (s0 s : sys) (h : handle) (d : dev) : Prop :=
  s_data s (h_ino h) = d_data d /\ h_pos h = d_pos d /\ h_plan h = d_plan d
  /\ filter (on_file (h_ino h)) (s_log s)
     = filter (on_file (h_ino h)) (s_log s0) ++ map (fun w => FWrite (h_ino h) (fst w) (snd w)) (d_log d).
Definition moved (a b : handle) : Prop := h_path a = h_path b /\ h_ino a = h_ino b.
Definition moved_opt (a b : option handle) : Prop :=
  match a, b with Some x, Some y => moved x y | None, None => True | _, _ => False end.
Definition beside (s t : sys) : Prop :=
  s_nodes s = s_nodes t /\ s_next s = s_next t /\ s_cwd s = s_cwd t /\ s_tmp s = s_tmp t
  /\ s_faults s = s_faults t /\ s_plans s = s_plans t.
Definition as_before (s0 s : sys) (j : nat) : Prop :=
  s_data s j = s_data s0 j /\ filter (on_file j) (s_log s) = filter (on_file j) (s_log s0).

(** [i], [o], [h]: which of the three handles are used as devices. *)
Section Rel.
Context (hi ho : handle) (hh : option handle) (s0 : sys) (i o h : bool).
Definition live (j : nat) : Prop :=
  (i = true /\ j = h_ino hi) \/ (o = true /\ j = h_ino ho)
  \/ (h = true /\ exists y, hh = Some y /\ j = h_ino y).
Definition separate : Prop :=
  (i = true -> o = true -> h_ino hi <> h_ino ho)
  /\ (h = true -> i = true -> forall y, hh = Some y -> h_ino y <> h_ino hi)
  /\ (h = true -> o = true -> forall y, hh = Some y -> h_ino y <> h_ino ho).
Record rel (x : shared) (w : world) : Prop := {
  r_mi : moved hi (sh_in x); r_mo : moved ho (sh_out x); r_mh : moved_opt hh (sh_hdr x);
  r_in : i = true -> tied s0 (sh_sys x) (sh_in x) (w_in w);
  r_out : o = true -> tied s0 (sh_sys x) (sh_out x) (w_out w);
  r_hdr : h = true -> forall y, sh_hdr x = Some y -> tied s0 (sh_sys x) y (w_hdr w);
  r_rest : forall j, ~ live j -> as_before s0 (sh_sys x) j;
  r_beside : beside (sh_sys x) s0;
  r_rng : s_rng (sh_sys x) = w_rng w;
  r_tr : sh_tr x = w_tr w
}.

Lemma tied_older : forall s h' d, tied s0 s h' d -> older (d_log d) (handle_dev s h') d.
Proof.
  intros s h' d (A & B & C & D). unfold older, handle_dev. cbn [d_data d_pos d_plan d_log].
  rewrite app_nil_r. auto.
Qed.
Lemma filter_own : forall n (l : list (nat * bytes)),
  filter (on_file n) (map (fun w => FWrite n (fst w) (snd w)) l) = map (fun w => FWrite n (fst w) (snd w)) l.
Proof.
  intros n l. induction l as [|w l IH]; [reflexivity|]. cbn [map filter on_file].
  rewrite Nat.eqb_refl, IH. reflexivity.
Qed.
Lemma filter_alien : forall n j (l : list (nat * bytes)), j <> n ->
  filter (on_file n) (map (fun w => FWrite j (fst w) (snd w)) l) = [].
Proof.
  intros n j l H. induction l as [|w l IH]; [reflexivity|]. cbn [map filter on_file].
  apply Nat.eqb_neq in H. rewrite H. exact IH.
Qed.
Lemma tied_own : forall s h' d d0 d2, tied s0 s h' d -> older (d_log d) d0 d2 ->
  tied s0 (put_handle d0 h' s) (move_handle d0 h') d2.
Proof.
  intros s h' d d0 d2 (A & B & C & D) (F & G & J & K). unfold tied, put_handle, move_handle, with_data, set_data.
  cbn [h_ino h_pos h_plan s_data s_log]. rewrite Nat.eqb_refl. repeat split; auto.
  rewrite filter_app, D, filter_own, K, map_app, app_assoc. reflexivity.
Qed.
Lemma tied_alien : forall s h' g d0 d, h_ino g <> h_ino h' -> tied s0 s g d -> tied s0 (put_handle d0 h' s) g d.
Proof.
  intros s h' g d0 d N (A & B & C & D). unfold tied, put_handle, with_data, set_data.
  cbn [s_data s_log]. pose proof N as N'. apply Nat.eqb_neq in N'. rewrite N'. repeat split; auto.
  rewrite filter_app, filter_alien, app_nil_r by auto. exact D.
Qed.
Lemma before_alien : forall s h' d0 j, j <> h_ino h' -> as_before s0 s j -> as_before s0 (put_handle d0 h' s) j.
Proof.
  intros s h' d0 j N (A & B). unfold as_before, put_handle, with_data, set_data. cbn [s_data s_log].
  pose proof N as N'. apply Nat.eqb_neq in N'. rewrite N'. split; [exact A|].
  rewrite filter_app, filter_alien, app_nil_r by auto. exact B.
Qed.

Context (SEP : separate).

Lemma rel_in : forall {E A} (m : M dev E A), i = true -> blind m -> sim rel (p_in shared_ports m) (p_in world_ports m).
Proof.
  intros E A m I B x w R. cbn [p_in shared_ports world_ports]. unfold at_in, on_in, zoom.
  destruct (B _ _ _ (tied_older _ _ _ (r_in _ _ R I))) as (F & G).
  destruct (m (handle_dev (sh_sys x) (sh_in x))) as [o1 d1], (m (w_in w)) as [o2 d2].
  cbn [fst snd] in *. subst o2. split; [reflexivity|]. destruct R. destruct SEP as (S1 & S2 & S3).
  constructor; cbn [sh_in sh_out sh_hdr sh_sys sh_tr w_in w_out w_hdr w_rng w_tr]; auto.
  - intros _. eapply tied_own; eauto.
  - intros O. apply tied_alien; auto. rewrite <- (proj2 r_mi0), <- (proj2 r_mo0). intros X. now apply S1.
  - intros H y Y. apply tied_alien; auto. rewrite Y in r_mh0. destruct hh as [z|] eqn:Z; [|contradiction].
    rewrite <- (proj2 r_mi0), <- (proj2 r_mh0). apply S2; auto.
  - intros j N. apply before_alien; auto. intros ->. apply N. left. split; [exact I|]. symmetry. apply r_mi0.
Qed.
Lemma rel_out : forall {E A} (m : M dev E A), o = true -> blind m -> sim rel (p_out shared_ports m) (p_out world_ports m).
Proof.
  intros E A m I B x w R. cbn [p_out shared_ports world_ports]. unfold at_out, on_out, zoom.
  destruct (B _ _ _ (tied_older _ _ _ (r_out _ _ R I))) as (F & G).
  destruct (m (handle_dev (sh_sys x) (sh_out x))) as [o1 d1], (m (w_out w)) as [o2 d2].
  cbn [fst snd] in *. subst o2. split; [reflexivity|]. destruct R. destruct SEP as (S1 & S2 & S3).
  constructor; cbn [sh_in sh_out sh_hdr sh_sys sh_tr w_in w_out w_hdr w_rng w_tr]; auto.
  - intros O. apply tied_alien; auto. rewrite <- (proj2 r_mi0), <- (proj2 r_mo0). now apply S1.
  - intros _. eapply tied_own; eauto.
  - intros H y Y. apply tied_alien; auto. rewrite Y in r_mh0. destruct hh as [z|] eqn:Z; [|contradiction].
    rewrite <- (proj2 r_mo0), <- (proj2 r_mh0). apply S3; auto.
  - intros j N. apply before_alien; auto. intros ->. apply N. right; left. split; [exact I|]. symmetry. apply r_mo0.
Qed.
Lemma rel_hdr : forall {E A} (m : M dev E A), h = true -> hh <> None -> blind m ->
  sim rel (p_hdr shared_ports m) (p_hdr world_ports m).
Proof.
  intros E A m I NN B x w R. cbn [p_hdr shared_ports world_ports]. unfold at_hdr, on_hdr, zoom.
  destruct (sh_hdr x) as [y|] eqn:Y.
  2:{ destruct R as [_ _ MH]. rewrite Y in MH. destruct hh; [contradiction|congruence]. }
  destruct (B _ _ _ (tied_older _ _ _ (r_hdr _ _ R I y Y))) as (F & G).
  destruct (m (handle_dev (sh_sys x) y)) as [o1 d1], (m (w_hdr w)) as [o2 d2].
  cbn [fst snd] in *. subst o2. split; [reflexivity|]. destruct R. destruct SEP as (S1 & S2 & S3).
  rewrite Y in r_mh0. destruct hh as [z|] eqn:Z; [|contradiction]. cbn [moved_opt] in r_mh0.
  constructor; cbn [sh_in sh_out sh_hdr sh_sys sh_tr w_in w_out w_hdr w_rng w_tr]; auto.
  - rewrite Z. exact r_mh0.
  - intros O. apply tied_alien; auto. rewrite <- (proj2 r_mi0), <- (proj2 r_mh0). intros X. eapply S2; eauto.
  - intros O. apply tied_alien; auto. rewrite <- (proj2 r_mo0), <- (proj2 r_mh0). intros X. eapply S3; eauto.
  - intros _ y' Y'. injection Y' as <-. eapply tied_own; eauto.
  - intros j N. apply before_alien; auto. intros ->. apply N. right; right. split; [exact I|].
    exists z. split; [exact Z|]. symmetry. apply r_mh0.
Qed.
Lemma rel_tr : forall {E A} (m : M trace E A), sim rel (p_tr shared_ports m) (p_tr world_ports m).
Proof.
  intros E A m x w R. cbn [p_tr shared_ports world_ports]. unfold on_tr, zoom. destruct R. rewrite r_tr0.
  destruct (m (w_tr w)) as [o1 t1]. cbn [fst snd]. split; [reflexivity|].
  constructor; cbn [sh_in sh_out sh_hdr sh_sys sh_tr w_in w_out w_hdr w_rng w_tr]; auto.
Qed.
Lemma rel_rng : forall {E A} (m : M rng E A), sim rel (p_rng shared_ports m) (p_rng world_ports m).
Proof.
  intros E A m x w R. cbn [p_rng shared_ports world_ports]. unfold zoom. destruct R. rewrite r_rng0.
  destruct (m (w_rng w)) as [o1 t1]. cbn [fst snd]. split; [reflexivity|].
  constructor; cbn [sh_in sh_out sh_hdr sh_sys sh_tr w_in w_out w_hdr w_rng w_tr]; auto.
Qed.

(** ** The programs on handles and on devices *)

Lemma rel_enc_loop : forall E bs aad, i = true -> o = true -> forall fuel s,
  sim rel (encrypt_loop_p shared_ports E bs fuel s aad) (encrypt_loop_p world_ports E bs fuel s aad).
Proof.
  intros E bs aad I O. induction fuel as [|fuel IH]; intros s; [apply sim_const|]. cbn [encrypt_loop_p].
  apply sim_bind; [apply sim_map_err, rel_in; auto; apply blind_read|intros buf].
  destruct (length buf =? bs).
  - apply sim_bind; [apply sim_map_err, rel_tr|intros cs].
    apply sim_bind; [apply sim_map_err, rel_out; auto; apply blind_write_all|intros _]. apply IH.
  - apply sim_bind; [apply sim_map_err, rel_tr|intros ct].
    apply sim_map_err, rel_out; auto; apply blind_write_all.
Qed.
Lemma rel_dec_loop : forall E bs aad, i = true -> o = true -> forall fuel s,
  sim rel (decrypt_loop_p shared_ports E bs fuel s aad) (decrypt_loop_p world_ports E bs fuel s aad).
Proof.
  intros E bs aad I O. induction fuel as [|fuel IH]; intros s; [apply sim_const|]. cbn [decrypt_loop_p].
  apply sim_bind; [apply sim_map_err, rel_in; auto; apply blind_read|intros buf].
  destruct (length buf =? bs + 16).
  - apply sim_bind; [apply sim_map_err, rel_tr|intros cs].
    apply sim_bind; [apply sim_map_err, rel_out; auto; apply blind_write_all|intros _]. apply IH.
  - apply sim_bind; [apply sim_map_err, rel_tr|intros ct].
    apply sim_map_err, rel_out; auto; apply blind_write_all.
Qed.
Lemma rel_size : forall x w, i = true -> rel x w -> p_size shared_ports x = p_size world_ports w.
Proof. intros x w I R. cbn [p_size shared_ports world_ports]. f_equal. apply (r_in _ _ R I). Qed.
Lemma rel_enc_file : forall E bs s aad, i = true -> o = true ->
  sim rel (encrypt_file_p shared_ports E bs s aad) (encrypt_file_p world_ports E bs s aad).
Proof.
  intros E bs s aad I O x w R. unfold encrypt_file_p. rewrite (rel_size _ _ I R).
  apply (sim_bind rel); [apply rel_enc_loop; auto|intros _; apply sim_map_err, rel_out; auto; apply blind_flush|exact R].
Qed.
Lemma rel_dec_file : forall E bs s aad, i = true -> o = true ->
  sim rel (decrypt_file_p shared_ports E bs s aad) (decrypt_file_p world_ports E bs s aad).
Proof.
  intros E bs s aad I O x w R. unfold decrypt_file_p. rewrite (rel_size _ _ I R).
  apply (sim_bind rel); [apply rel_dec_loop; auto|intros _; apply sim_map_err, rel_out; auto; apply blind_flush|exact R].
Qed.

Lemma rel_keys : forall E req, sim rel (encrypt_keys_p shared_ports E req) (encrypt_keys_p world_ports E req).
Proof.
  intros E req. unfold encrypt_keys_p. cbv zeta.
  apply sim_bind; [apply rel_rng|intros salt].
  apply sim_bind; [apply sim_map_err, sim_lift|intros key].
  apply sim_bind; [apply sim_map_err, sim_lift|intros cipher].
  apply sim_bind; [apply rel_rng|intros mk].
  apply sim_bind; [apply rel_rng|intros mkn].
  apply sim_bind; [apply sim_map_err, rel_tr|intros ek].
  apply sim_bind; [apply rel_rng|intros nonce].
  apply sim_bind; [apply sim_map_err, sim_lift|intros st]. apply sim_const.
Qed.
Lemma rel_put : forall detached hd, o = true -> (detached = true -> h = true /\ hh <> None) ->
  sim rel (put_header_p shared_ports detached hd) (put_header_p world_ports detached hd).
Proof.
  intros detached hd O D. unfold put_header_p.
  apply sim_bind; [apply sim_map_err, rel_out; auto; apply blind_rewind|intros _].
  destruct detached; [|apply rel_out; auto; apply blind_header].
  destruct (D eq_refl) as (D1 & D2).
  apply sim_bind; [apply sim_map_err, rel_hdr; auto; apply blind_rewind|intros _].
  apply rel_hdr; auto; apply blind_header.
Qed.
Lemma rel_encrypt : forall E bs req, i = true -> o = true ->
  (er_detached req = true -> h = true /\ hh <> None) ->
  sim rel (encrypt_execute_p shared_ports E bs req) (encrypt_execute_p world_ports E bs req).
Proof.
  intros E bs req I O D. unfold encrypt_execute_p.
  apply sim_bind; [apply rel_keys|intros sh].
  apply sim_bind; [apply rel_put; auto|intros _].
  apply sim_bind; [apply sim_map_err, sim_lift|intros aad].
  apply sim_bind; [apply sim_map_err, rel_in; auto; apply blind_rewind|intros _].
  apply sim_map_err, rel_enc_file; auto.
Qed.
Lemma rel_decrypt : forall E bs detached raw, i = true -> o = true ->
  (detached = true -> h = true /\ hh <> None) ->
  sim rel (decrypt_execute_p shared_ports E bs detached raw) (decrypt_execute_p world_ports E bs detached raw).
Proof.
  intros E bs detached raw I O D. unfold decrypt_execute_p. apply sim_bind.
  { destruct detached; [|apply sim_map_err, rel_in; auto; apply blind_deserialize].
    destruct (D eq_refl) as (D1 & D2).
    apply sim_bind; [apply sim_map_err, rel_hdr; auto; apply blind_deserialize|intros ha].
    apply sim_bind; [apply rel_in; auto; apply blind_skip|intros _]. apply sim_const. }
  intros [hd aad]. destruct (ht_mode (h_type hd)).
  - apply sim_bind; [apply sim_map_err, rel_in; auto; apply blind_to_end|intros data].
    apply sim_bind; [apply sim_map_err, rel_tr|intros mk].
    apply sim_bind; [apply sim_map_err, sim_lift|intros c].
    apply sim_bind; [apply sim_map_err, rel_tr|intros m].
    apply sim_map_err, rel_out; auto; apply blind_write_all.
  - apply sim_bind; [apply sim_map_err, rel_tr|intros mk].
    apply sim_bind; [apply sim_map_err, sim_lift|intros s].
    apply sim_map_err, rel_dec_file; auto.
Qed.
End Rel.
