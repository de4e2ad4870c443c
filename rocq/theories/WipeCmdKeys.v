(** What the commands leave in memory. *)
From Coq Require Import List Arith NArith ZArith String Bool Lia.
From Verif Require Import Bytes BytesFacts Outcome IO IOFacts Primitives Crypto Header HeaderFacts KeyModel Stream EncDec KeyOps Hash.
From Verif Require Import Overwrite FS FSSpec FSFacts Erase Archive Cli CliSpec CliKeys CliRuns CliCommands CliResults.
From Verif Require Import Wipe WipeSpec WipeLib WipeProofs WipeResults WipeCli WipeCliSpec WipeCliProofs WipeCmd WipeCmdSpec WipeCmdProofs.
Import ListNotations.
Local Open Scope nat_scope.
Local Open Scope list_scope.

(** ** Rules *)

Lemma tame_world {E A} D b (m : M (world * memory) E A) hi ho hh : tame D b m ->
  tame D b (fun a => let '((o, _), a1) := run_world_m m hi ho hh a in (o, a1)).
Proof.
  intros H [s t] k o a' k' HD R. unfold run_world_m in R. cbn [fst snd] in R.
  match type of R with context [m (?w, k)] => destruct (m (w, k)) as [o1 [w1 k1]] eqn:Em end.
  injection R as <- <- <-. exact (H _ _ _ _ _ HD Em).
Qed.

Lemma settled_plain b : settled (mkCell Plain b false).
Proof. split; [reflexivity|discriminate]. Qed.

Lemma filled_length b c : c_live c = true -> List.length (c_bytes (filled b c)) = List.length (c_bytes c)
  /\ c_live (filled b c) = true /\ c_label (filled b c) = c_label c.
Proof.
  intros L. unfold filled. rewrite L. cbn. split; [|split; reflexivity].
  rewrite firstn_length, app_length, skipn_length. lia.
Qed.
Lemma pack_read_memory bs : forall fuel acc d (k : memory) b r k',
  pack_read_m fuel bs (List.length k) acc d (k ++ [mkCell Plain b true]) = (r, k') ->
  exists b', k' = k ++ [mkCell Plain b' true] /\ List.length b' = List.length b.
Proof.
  induction fuel as [|fuel IH]; intros acc d k b r k' R; cbn [pack_read_m] in R.
  { injection R as _ <-. exists b. split; reflexivity. }
  assert (Z : exists b', k ++ [mkCell Plain b true] = k ++ [mkCell Plain b' true] /\ List.length b' = List.length b)
    by (exists b; split; reflexivity).
  destruct (dev_read bs d) as [[got|e| |] d']; try (injection R as _ <-; exact Z).
  rewrite update_last in R.
  assert (F : filled got (mkCell Plain b true)
              = mkCell Plain (firstn (List.length b) (got ++ skipn (List.length got) b)) true) by reflexivity.
  rewrite F in R.
  assert (L : List.length (firstn (List.length b) (got ++ skipn (List.length got) b)) = List.length b)
    by (rewrite firstn_length, app_length, skipn_length; lia).
  destruct (List.length got =? bs).
  - apply IH in R as (b' & -> & H). exists b'. split; [reflexivity|lia].
  - injection R as _ <-. eexists. split; [reflexivity|exact L].
Qed.
(** The read buffers of pack *)
Definition read_buffer (bs : nat) (c : cell) : Prop :=
  exists b, c = mkCell Plain b false /\ List.length b = bs.
Lemma pack_add_memory bs : forall es acc s (k : memory) r k',
  pack_add_m bs es acc s k = (r, k') -> exists new, k' = k ++ new /\ Forall (read_buffer bs) new.
Proof.
  induction es as [|[h|p] es IH]; intros acc s k r k' R; cbn [pack_add_m] in R.
  - injection R as _ <-. exists []. rewrite app_nil_r. split; [reflexivity|constructor].
  - assert (Z : exists new, k = k ++ new /\ Forall (read_buffer bs) new)
      by (exists []; rewrite app_nil_r; split; [reflexivity|constructor]).
    destruct (has_name _ acc); [injection R as _ <-; exact Z|].
    match type of R with context [pack_read_m ?f bs ?i [] ?d ?k0] =>
      destruct (pack_read_m f bs i [] d k0) as [[[o data] d'] k1] eqn:P end.
    apply pack_read_memory in P as (b & -> & L). rewrite update_last in R.
    unfold zeros in L. rewrite repeat_length in L.
    assert (B : read_buffer bs (dead (mkCell Plain b true))) by (exists b; split; [reflexivity|exact L]).
    destruct o as [u|e| |].
    + apply IH in R as (new & -> & F). rewrite <- app_assoc. eexists. split; [reflexivity|].
      constructor; assumption.
    + injection R as _ <-. eexists. split; [reflexivity|]. constructor; [exact B|constructor].
    + injection R as _ <-. eexists. split; [reflexivity|]. constructor; [exact B|constructor].
    + injection R as _ <-. eexists. split; [reflexivity|]. constructor; [exact B|constructor].
  - destruct (has_name _ acc); [|exact (IH _ _ _ _ _ R)]. injection R as _ <-.
    exists []. rewrite app_nil_r. split; [reflexivity|constructor].
Qed.
Lemma post_reads D bs (k new : memory) ok : Forall (read_buffer bs) new -> post D (Blocks bs) k ok (k ++ new).
Proof.
  intros F. exists k, new. split; [reflexivity|]. split; [apply keeps_refl|]. split.
  - eapply Forall_impl; [|exact F]. intros c (b & -> & _). apply settled_plain.
  - cbn [stain_ok]. rewrite Forall_forall in F |- *. intros c I. unfold stains in I.
    apply filter_In in I as [I _]. destruct (F c I) as (b & -> & L). cbn. lia.
Qed.

Lemma tame_then {S E A B} D b (m : M (S * memory) E A) (f : A -> M (S * memory) E B) :
  tame D b m -> (forall a, tame D b (f a)) -> tame D b (bind m f).
Proof. apply tame_bind. Qed.
Lemma tame_pack (D : nat -> Prop) E Z pick bs i req : D i ->
  tame D (Blocks bs) (pack_execute_at E Z pick bs i req).
Proof.
  intros Di. unfold pack_execute_at. apply tame_owning_protected; [exact Di|].
  apply tame_bind; [apply tame_thru|]. intros [h0|p]; [|apply tame_err].
  apply tame_bind.
  { intros [s t] k o a' k' HD R. cbn [fst snd] in R.
    destruct (pack_archive_m Z bs req h0 s k) as [x k1] eqn:P.
    destruct (lift_h x t) as [o1 a1]. injection R as <- <- <-.
    unfold pack_archive_m in P. destruct (pack_add_m bs (pr_files req) [] s k) as [[[o2 zs] s1] k2] eqn:Q.
    destruct (put_archive _ h0 s1) as [[w h'] s2]. injection P as _ <-.
    apply pack_add_memory in Q as (new & -> & F). apply post_reads, F. }
  intros r1. apply tame_bind; [apply tame_thru|]. intros cap a k o a' k' HD R.
  match type of R with context [run_world_m ?m ?hi ?ho ?hh ?ak] =>
    assert (T := tame_world D (Blocks bs) m hi ho hh (tame_blocks _ _ _ (tame_encrypt_at D E bs i _ Di)) a k);
    cbv beta in T; change (a, k) with ak in T; destruct (run_world_m m hi ho hh ak) as [[o1 [h2 h3]] [a1 k1]] end.
  specialize (T _ _ _ HD eq_refl).
  assert (W : forall ok, post D (Blocks bs) k (is_ok o1) k1 -> post D (Blocks bs) k ok k1)
    by (intros ok; apply (fun H => H)).
  destruct o1 as [u|e| |]; try (injection R as <- <- <-; exact T).
  - unfold thru in R. cbn [fst snd] in R.
    match type of R with (let '(_, _) := ?t in _) = _ => destruct t as [o2 a2] end.
    injection R as <- <- <-. apply W, T.
  - unfold thru in R. cbn [fst snd] in R.
    match type of R with (let '(_, _) := ?t in _) = _ => destruct t as [o2 a2] end.
    injection R as <- <- <-. apply W, T.
Qed.

(** ** After the secret was obtained *)

(** The buffers there were are wiped, the new ones settled. *)
Definition over (b : budget) (ok : bool) (m : memory) : Prop :=
  exists old new, m = old ++ new /\ (forall c, In c old -> wiped c)
    /\ Forall settled new /\ stain_ok b ok new.

Lemma update_dead i : forall (m : memory), (forall c, In c m -> c_live c = false) ->
  update i dead_protected m = m.
Proof.
  induction i as [|i IH]; intros [|c m] H; cbn [update]; try reflexivity.
  - unfold dead_protected. rewrite (H c (or_introl eq_refl)). reflexivity.
  - f_equal. apply IH. intros d I. apply H. right. exact I.
Qed.
Lemma over_dead b ok m : over b ok m -> forall c, In c m -> c_live c = false.
Proof.
  intros (old & new & -> & O & F & _) c I. apply in_app_iff in I as [I|I]; [apply O, I|].
  rewrite Forall_forall in F. apply F, I.
Qed.
Lemma over_more b ok m : over b true m -> over b ok m.
Proof.
  intros (old & new & H1 & H2 & H3 & H4). exists old, new.
  repeat (split; [assumption|]). destruct b; cbn [stain_ok] in *; try exact H4.
  destruct H4 as [H4|[X _]]; [left; exact H4|discriminate].
Qed.

Lemma dead_protected_wiped c : c_live c = true \/ wiped c -> wiped (dead_protected c).
Proof.
  intros H. unfold dead_protected. destruct (c_live c) eqn:L.
  - split; [reflexivity|]. cbn. apply zero_zeros.
  - destruct H as [H|H]; [discriminate|exact H].
Qed.
Lemma handed_over (k : memory) i s b ok : handed_on_alone k i s -> over b ok (update i dead_protected k).
Proof.
  intros [H1 H2]. exists (update i dead_protected k), []. rewrite app_nil_r. split; [reflexivity|].
  split; [|split; [constructor|apply stain_ok_nil]].
  intros c I. apply In_nth_error in I as [j I]. rewrite update_nth in I.
  destruct (Nat.eqb_spec j i) as [Q|N]; [subst j|].
  - rewrite H1 in I. cbn [option_map] in I. injection I as <-.
    apply dead_protected_wiped. left. reflexivity.
  - exact (H2 j c I N).
Qed.
Lemma post_over b i ok (k k1 : memory) raw :
  handed_on_alone k i raw -> post (fun j => j = i) b k ok k1 -> over b ok (update i dead_protected k1).
Proof.
  intros [H1 H2] (ka & new & -> & [L K] & F & S1).
  assert (Hi : i < List.length k) by (apply nth_error_Some; congruence).
  rewrite update_app by lia. exists (update i dead_protected ka), new.
  split; [reflexivity|]. split; [|split; assumption].
  intros c I. apply In_nth_error in I as [j I].
  assert (Hj : j < List.length k).
  { rewrite <- L, <- (WipeLib.update_length i dead_protected ka). apply nth_error_Some. congruence. }
  destruct (nth_error k j) as [c0|] eqn:E0; [|apply nth_error_None in E0; lia].
  destruct (K j c0 E0) as (c1 & E1 & O). rewrite update_nth, E1 in I. cbn [option_map] in I.
  destruct (Nat.eqb_spec j i) as [Q|N]; [subst j|].
  - injection I as <-. rewrite H1 in E0. injection E0 as <-. apply dead_protected_wiped.
    destruct O as [->|[_ O]]; [left; reflexivity|]. apply O. left. reflexivity.
  - injection I as <-. destruct O as [->|[X _]]; [exact (H2 j c0 E0 N)|congruence].
Qed.

(** Begun with memory [k], [m] stops early and leaves it as it is, by [process::exit]
    only if [Q], or has dealt with the secret. *)
Definition stage_at {S A} (s : S) (k : memory) (Q : Prop) (b : budget) (m : M (S * memory) cli_error A) : Prop :=
  forall o s' (k' : memory), m (s, k) = (o, (s', k')) ->
  ((forall a, o <> Ok a) /\ (o = Err CExit -> Q) /\ k' = k) \/ over b (is_ok o) k'.
Definition stage {S A} (k : memory) (Q : Prop) (b : budget) (m : M (S * memory) cli_error A) : Prop :=
  forall s : S, stage_at s k Q b m.

Lemma stage_at_thru {S A B} s k (Q : Prop) b (m : M S cli_error A) (f : A -> M (S * memory) cli_error B) :
  (forall s', m s = (Err CExit, s') -> Q) -> (forall a s1, m s = (Ok a, s1) -> stage_at s1 k Q b (f a)) ->
  stage_at s k Q b (bind (thru m) f).
Proof.
  intros H F o s' k' R. unfold bind, thru in R. cbn [fst snd] in R.
  destruct (m s) as [[a|e| |] s1] eqn:Em.
  - exact (F a _ eq_refl _ _ _ R).
  - injection R as <- <- <-. left. split; [congruence|]. split; [|reflexivity].
    intros X. injection X as ->. exact (H _ eq_refl).
  - injection R as <- <- <-. left. split; [congruence|]. split; [discriminate|reflexivity].
  - injection R as <- <- <-. left. split; [congruence|]. split; [discriminate|reflexivity].
Qed.
Lemma stage_thru {S A B} k (Q : Prop) b (m : M S cli_error A) (f : A -> M (S * memory) cli_error B) :
  (forall s s', m s = (Err CExit, s') -> Q) -> (forall a, stage k Q b (f a)) -> stage k Q b (bind (thru m) f).
Proof. intros H F s. apply stage_at_thru; [apply H|]. intros a s1 _. apply F. Qed.
(** Steps that do not touch the memory *)
Definition calm {S E A} (m : M (S * memory) E A) : Prop :=
  forall (s : S) (k : memory), snd (snd (m (s, k))) = k.
Lemma calm_thru {S E A} (m : M S E A) : calm (thru m).
Proof. intros s k. unfold thru. cbn [fst snd]. destruct (m s). reflexivity. Qed.
Lemma calm_bind {S E A B} (m : M (S * memory) E A) (f : A -> M (S * memory) E B) :
  calm m -> (forall a, calm (f a)) -> calm (bind m f).
Proof.
  intros H F s k. specialize (H s k). unfold bind. destruct (m (s, k)) as [[a|e| |] [s1 k1]];
    cbn [fst snd] in *; subst; try reflexivity. exact (F a s1 k).
Qed.
Lemma stage_at_then s k (Q : Prop) b (m : M (asys * memory) cli_error unit) f i raw :
  handed_on_alone k i raw ->
  (forall o a1 k1, m (c_a s, k) = (o, (a1, k1)) -> post (fun j => j = i) b k (is_ok o) k1) ->
  (forall a, calm (f a)) ->
  stage_at s k Q b (bind (on_a_m (owning_protected i m)) f : M (cli * memory) cli_error unit).
Proof.
  intros H T C o s' k' R. right. unfold bind, on_a_m, owning_protected in R. cbn [fst snd] in R.
  destruct (m (c_a s, k)) as [o1 [a1 k0]] eqn:Em.
  pose proof (post_over _ _ _ _ _ _ H (T _ _ _ eq_refl)) as O. set (k1 := update i dead_protected k0) in *.
  destruct o1 as [u|e| |]; try (injection R as <- <- <-; exact O).
  match type of R with f u ?x = _ => pose proof (C u (fst x) (snd x)) as X end.
  cbn [fst snd] in X. rewrite R in X. cbn [snd] in X. subst k'. apply over_more. exact O.
Qed.
Lemma stage_then k (Q : Prop) b (m : M (asys * memory) cli_error unit) f i raw :
  handed_on_alone k i raw -> tame (fun j => j = i) b m -> (forall a, calm (f a)) ->
  stage k Q b (bind (on_a_m (owning_protected i m)) f : M (cli * memory) cli_error unit).
Proof.
  intros H T C s. apply (stage_at_then s k Q b m f i raw H); [|exact C].
  intros o a1 k1 R. apply (T _ _ _ _ _) in R; [exact R|].
  intros j ->. apply nth_error_Some. destruct H as [H _]. congruence.
Qed.

Lemma after_secret {S} k (Q : Prop) b i raw (m : M (S * memory) cli_error unit) s o s' k' :
  handed_on_alone k i raw -> stage_at s k Q b m -> owning_or_exit i m (s, k) = (o, (s', k')) ->
  over b (is_ok o) k' \/ (o = Err CExit /\ Q /\ k' = k).
Proof.
  intros H St R. unfold owning_or_exit in R. destruct (m (s, k)) as [o1 [s1 k1]] eqn:Em.
  specialize (St _ _ _ Em).
  assert (X : o1 = Err CExit \/ (o1, (s1, update i dead_protected k1)) = (o, (s', k'))).
  { destruct o1 as [a|e| |]; try (right; exact R). destruct e; try (right; exact R). left. reflexivity. }
  destruct X as [->|X].
  - injection R as <- <- <-. destruct St as [(_ & Hq & ->)|O]; [|left; exact O].
    right. split; [reflexivity|]. split; [apply Hq; reflexivity|reflexivity].
  - injection X as <- <- <-. left. destruct St as [(_ & _ & ->)|O]; [exact (handed_over _ _ _ _ _ H)|].
    rewrite update_dead by exact (over_dead _ _ _ O). exact O.
Qed.

(** ** The secret is not obtained *)

Lemma direct_bad V c o c' (m : memory) : (forall x, o <> Ok x) ->
  get_secret_m V User Direct (c, []) = (o, (c', m)) -> all_wiped m.
Proof.
  intros N R. unfold get_secret_m in R. cbn [bind] in R. unfold get_password_m in R.
  unfold bind in R at 1. cbn [fst password_loop_m] in R. unfold bind, thru in R. cbn [fst snd] in R.
  destruct (prompt_password c) as [[l|e| |] c1]; try (injection R as _ _ <-; intros x []).
  unfold alloc, ret, handing_on_protected in R. cbn [fst snd app List.length] in R.
  destruct l as [|x l]; cbn [is_nil] in R.
  - injection R as _ _ <-. intros y [<-|[]] _. split; [reflexivity|]. intros z [].
  - injection R as <- _ _. exfalso. exact (N _ eq_refl).
Qed.
Lemma keyfile_bad V p st c o c' (m : memory) : (forall x, o <> Ok x) ->
  get_secret_m V (Keyfile p) st (c, []) = (o, (c', m)) ->
  all_wiped m \/ (o = Err CKeyfile /\ read_of (disk c') (os_path p) m).
Proof.
  intros N R. pose proof (secret_bad _ _ _ _ _ _ _ N R) as B. cbn iota in B.
  destruct (String.eqb p "-") eqn:P; [left; exact B|].
  unfold get_secret_m in R. rewrite P in R. unfold get_bytes_m, thru in R. unfold bind in R at 1 2.
  cbn [fst snd] in R.
  assert (W : all_wiped [forgotten []]).
  { intros x [<-|[]] _. apply nil_wiped, zero_nil. }
  destruct (on_fs (read_keyfile_b (os_path p)) c) as [[l|[e l]| |] d] eqn:E.
  - unfold bind, alloc, ret, handing_on_protected in R. cbn [fst snd app List.length] in R.
    destruct l as [|x l]; cbn [is_nil] in R; [injection R as _ _ <-; left; exact W|].
    injection R as <- _ _. exfalso. exact (N _ eq_refl).
  - unfold bind, alloc, owning, err in R. cbn [fst snd app List.length update] in R.
    assert (X : e = CKeyfile).
    { unfold on_fs, on_a, on_sys, zoom in E. destruct (read_keyfile_b (os_path p) (fst (c_a c))) as [o1 s1] eqn:Er.
      injection E as -> _. unfold read_keyfile_b, call_or in Er.
      destruct (next_fault (fst (c_a c))) as [b s2]. destruct b; [injection Er as <- _ _; reflexivity|].
      destruct (stat s2 (os_path p)) as [[|i|t]|]; try (injection Er as <- _ _; reflexivity).
      destruct (next_plan s2) as [plan s3].
      destruct (dev_read_to_end _) as [[l1|e1| |] d1]; try discriminate. injection Er as <- _ _. reflexivity. }
    subst e. injection R as <- <- <-. right. split; [reflexivity|exact B].
  - injection R as _ _ <-. left. intros x [].
  - injection R as _ _ <-. left. intros x [].
Qed.
