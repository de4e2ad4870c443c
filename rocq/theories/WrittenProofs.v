(** What a successful unpack has written. *)
From Coq Require Import List Arith NArith ZArith Ascii String Lia Bool.
From Verif Require Import Bytes Outcome IO Primitives Crypto Header Stream KeyModel EncDec Overwrite FS Archive.
From Verif Require Import BytesFacts IOSpec IOFacts FSSpec FSFacts ArchiveSpec ArchiveWalk ArchiveProofs EraseProofs UnpackProofs.
From Verif Require Import CrashSpec CrashLib CrashLog WrittenSpec.
Import ListNotations.
Local Open Scope nat_scope.
Local Open Scope list_scope.

(** ** Names are only added, new files under new names *)

Record more (s s' : sys) : Prop := {
  mo_grown : grown (s_nodes s) (s_nodes s');
  mo_cwd : s_cwd s' = s_cwd s;
  mo_next : s_next s <= s_next s';
  mo_new : forall q i, lookup (s_nodes s') q = Some (NFile i) ->
    lookup (s_nodes s) q = Some (NFile i) \/ s_next s <= i < s_next s'
}.
Lemma more_refl : forall s, more s s.
Proof. intros s. constructor; auto. apply grown_refl. Qed.
Lemma more_trans : forall a b c, more a b -> more b c -> more a c.
Proof.
  intros a b c [G1 C1 N1 W1] [G2 C2 N2 W2]. constructor.
  - eapply grown_trans; eassumption.
  - congruence.
  - lia.
  - intros q i L. destruct (W2 q i L) as [L1|L1]; [|right; lia].
    destruct (W1 q i L1) as [L0|L0]; [left; exact L0|right; lia].
Qed.
Lemma more_disk : forall s s', same_disk s s' -> more s s'.
Proof.
  intros s s' (H1 & H2 & H3 & H4 & H5 & H6). constructor.
  - rewrite H1. apply grown_refl.
  - exact H4.
  - rewrite H3. lia.
  - intros q i L. rewrite H1 in L. left. exact L.
Qed.
Lemma more_same : forall s s', s_nodes s' = s_nodes s -> s_cwd s' = s_cwd s -> s_next s' = s_next s -> more s s'.
Proof.
  intros s s' H1 H4 H3. constructor.
  - rewrite H1. apply grown_refl.
  - exact H4.
  - rewrite H3. lia.
  - intros q i L. rewrite H1 in L. left. exact L.
Qed.

Lemma stat_more : forall s s' p n, more s s' -> stat s p = Some n -> stat s' p = Some n.
Proof.
  intros s s' p n [G C _ _] H. unfold stat in H. destruct (resolve true s p) as [q|] eqn:R; [|discriminate H].
  unfold stat. rewrite (resolve_grown_some true s s' p q n G C R H). apply G, H.
Qed.
(** A name that has been added is found. *)
Lemma stat_added : forall s s' p q n, resolve false s p = Some q -> lookup (s_nodes s) q = None ->
  s_nodes s' = s_nodes s ++ [(q, n)] -> s_cwd s' = s_cwd s -> (forall t, n <> NLink t) ->
  stat s' p = Some n.
Proof.
  intros s s' p q n R L N C NL.
  assert (G : grown (s_nodes s) (s_nodes s')) by (rewrite N; apply grown_add, L).
  assert (R' : resolve false s' p = Some q).
  { apply (resolve_grown false s s' p q G C R). intros F. discriminate F. }
  assert (L' : lookup (s_nodes s') q = Some n) by (rewrite N, lookup_add by exact L; rewrite cpath_eqb_refl; reflexivity).
  unfold stat. rewrite (resolve_same s' p q n R' L' NL). exact L'.
Qed.
Lemma more_added : forall s s' q n, lookup (s_nodes s) q = None -> s_nodes s' = s_nodes s ++ [(q, n)] ->
  s_cwd s' = s_cwd s -> s_next s <= s_next s' ->
  (forall i, n = NFile i -> s_next s <= i < s_next s') -> more s s'.
Proof.
  intros s s' q n L N C X W. constructor; [rewrite N; apply grown_add, L|exact C|exact X|].
  intros r i Lr. rewrite N, lookup_add in Lr by exact L. destruct (cpath_eqb r q); [|left; exact Lr].
  right. apply W. congruence.
Qed.

(** ** Making directories in threads *)

(** Whatever other threads add, the rest [r] of a thread only adds names, and if it ends
    without an error [Q] holds. *)
Fixpoint leads {E A} (Q : sys -> Prop) (r : R E A) (s : sys) : Prop :=
  match r with
  | Done (Ok _) => Q s
  | Done _ => True
  | Step X m k => forall s1, more s s1 -> forall x s2, m s1 = (x, s2) -> more s1 s2 /\ leads Q (k x) s2
  end.
Definition lasting (Q : sys -> Prop) : Prop := forall s s', more s s' -> Q s -> Q s'.

Lemma leads_more : forall {E A} Q (r : R E A) s s', lasting Q -> more s s' -> leads Q r s -> leads Q r s'.
Proof.
  intros E A Q [o|X m k] s s' LQ M H.
  - destruct o; cbn in *; auto. eapply LQ; eassumption.
  - cbn in *. intros s1 M1. apply H. eapply more_trans; eassumption.
Qed.
Lemma leads_bind : forall {E A B} (P Q : sys -> Prop) (r : R E A) (k : A -> R E B) s,
  leads P r s -> (forall a s1, P s1 -> leads Q (k a) s1) -> leads Q (rbind r k) s.
Proof.
  intros E A B P Q r k. induction r as [o|X m c IH]; intros s H K; cbn in *.
  - destruct o; cbn in *; auto.
  - intros s1 M x s2 Hm. destruct (H s1 M x s2 Hm) as [M2 H2]. split; [exact M2|]. apply IH; assumption.
Qed.
Lemma leads_err : forall {E E' A} Q (f : E -> E') (r : R E A) s, leads Q r s -> leads Q (rmap_err f r) s.
Proof.
  intros E E' A Q f r. induction r as [o|X m c IH]; intros s H; cbn in *.
  - destruct o; cbn in *; auto.
  - intros s1 M x s2 Hm. destruct (H s1 M x s2 Hm) as [M2 H2]. split; [exact M2|]. apply IH; assumption.
Qed.

Definition dir_there (p : path) (s : sys) : Prop := stat s p = Some NDir.
Lemma dir_lasts : forall p, lasting (dir_there p).
Proof. intros p s s' M H. exact (stat_more s s' p NDir M H). Qed.

Lemma mkdir_more : forall p s x s', mkdir p s = (x, s') ->
  more s s' /\ (x = None -> dir_there p s').
Proof.
  intros p s x s' H. destruct (mkdir_any p s x s' H) as [(X & D & _)|(q & R & L & X & N & _ & Nx & C & _)].
  - split; [apply more_disk, D|]. intros ->. contradiction.
  - split.
    + eapply more_added; [exact L|exact N|exact C|lia|]. intros i F. discriminate F.
    + intros _. eapply stat_added; [exact R|exact L|exact N|exact C|]. intros t F. discriminate F.
Qed.
Lemma leads_is_dir : forall p s, leads (dir_there p)
  (d <~ act (fun s => (is_dir s p, s)) ;; if (d : bool) then rret tt else rerr StCreateDir)%r s.
Proof.
  intros p s. cbn. intros s1 M x s2 H. injection H as <- <-. split; [apply more_refl|].
  destruct (is_dir s1 p) eqn:D; cbn; [|exact I]. unfold is_dir in D. unfold dir_there.
  destruct (stat s1 p) as [[|i|t]|]; try discriminate D. reflexivity.
Qed.
Lemma leads_mkdir : forall {B} p Q (k : option bool -> R st_error B) s,
  (forall s1, dir_there p s1 -> leads Q (k None) s1) -> (forall b s1, leads Q (k (Some b)) s1) ->
  leads Q (b <~ act (mkdir p) ;; k b)%r s.
Proof.
  intros B p Q k s K1 K2. cbn. intros s1 M x s2 H. destruct (mkdir_more p s1 x s2 H) as [M2 D].
  split; [exact M2|]. destruct x as [b|]; [apply K2|apply K1, D; reflexivity].
Qed.
Lemma leads_mkdir_or : forall p s, leads (dir_there p) (mkdir_or_is_dir p) s.
Proof.
  intros p s. unfold mkdir_or_is_dir. apply leads_mkdir.
  - intros s1 D. exact D.
  - intros b s1. apply leads_is_dir.
Qed.
Lemma leads_parents : forall abs rcs s, leads (fun _ => True) (create_parents abs rcs) s.
Proof.
  intros abs rcs. assert (W : forall {B} (r : R st_error B) p s, leads (dir_there p) r s -> leads (fun _ => True) r s).
  { intros B r p. induction r as [o|X m c IH]; intros s H; cbn in *; [destruct o; exact I|].
    intros s1 M x s2 Hm. destruct (H s1 M x s2 Hm) as [M2 H2]. split; [exact M2|]. apply IH, H2. }
  induction rcs as [|c rcs IH]; intros s; cbn [create_parents].
  - destruct abs; [apply (W _ _ (mkPath true [])), leads_mkdir_or|exact I].
  - cbv zeta. apply leads_mkdir; [intros s1 _; exact I|]. intros [] s1.
    + apply (leads_bind (fun _ => True)); [apply IH|]. intros _ s2 _. apply (W _ _ (mkPath abs (rev (c :: rcs)))), leads_mkdir_or.
    + apply (W _ _ (mkPath abs (rev (c :: rcs)))), leads_is_dir.
Qed.
Lemma leads_create_dir : forall p s, lookup (s_nodes s) (s_cwd s) = Some NDir ->
  leads (dir_there p) (create_dir_all p) s.
Proof.
  intros p s CW. unfold create_dir_all.
  assert (G : leads (dir_there p) (b <~ act (mkdir p) ;;
      match b with
      | None => rret tt
      | Some false => d <~ act (fun s => (is_dir s p, s)) ;;
                      if (d : bool) then rret tt else rerr StCreateDir
      | Some true =>
          match rev (components p) with
          | [] => rerr StCreateDir
          | _ :: rcs' => create_parents (p_abs p) rcs' ~;; mkdir_or_is_dir p
          end
      end)%r s).
  { apply leads_mkdir; [intros s1 D; exact D|]. intros [] s1; [|apply leads_is_dir].
    destruct (rev (components p)) as [|c rcs]; [exact I|].
    apply (leads_bind (fun _ => True)); [apply leads_parents|]. intros _ s2 _. apply leads_mkdir_or. }
  destruct (p_abs p) eqn:A; [exact G|]. destruct (p_comps p) as [|c r] eqn:P; [|exact G].
  cbn. unfold dir_there, stat. rewrite resolve_eq. unfold FSFacts.start. rewrite A, P, walk_nil. exact CW.
Qed.

Lemma leads_tick : forall {E A} Q (r : R E A) s, leads Q r s ->
  more s (snd (tick r s)) /\ leads Q (fst (tick r s)) (snd (tick r s)).
Proof.
  intros E A Q [o|X m k] s H; cbn [tick].
  - split; [apply more_refl|exact H].
  - cbn in H. destruct (m s) as [x s2] eqn:Hm. apply (H s (more_refl s) x s2 Hm).
Qed.
Definition each_leads {E A} (Qs : list (sys -> Prop)) (ts : list (R E A)) (s : sys) : Prop :=
  Forall2 (fun Q t => lasting Q /\ leads Q t s) Qs ts.
Lemma each_more : forall {E A} Qs (ts : list (R E A)) s s', more s s' -> each_leads Qs ts s -> each_leads Qs ts s'.
Proof.
  intros E A Qs ts s s' M H. induction H as [|Q t Qs ts [L H] _ IH]; constructor; [|exact IH].
  split; [exact L|]. eapply leads_more; eassumption.
Qed.
Lemma each_step : forall {E A} i Qs (ts : list (R E A)) s, each_leads Qs ts s ->
  more s (snd (step_nth i ts s)) /\ each_leads Qs (fst (step_nth i ts s)) (snd (step_nth i ts s)).
Proof.
  intros E A i. induction i as [|i IH]; intros Qs ts s H; destruct H as [|Q t Qs ts [L H] F]; cbn [step_nth];
    try (split; [apply more_refl|constructor]).
  - destruct (leads_tick Q t s H) as [M H2]. destruct (tick t s) as [t' s']. cbn [fst snd] in *.
    split; [exact M|]. constructor; [split; assumption|]. eapply each_more; eassumption.
  - destruct (IH Qs ts s F) as [M H2]. destruct (step_nth i ts s) as [ts2 s']. cbn [fst snd] in *.
    split; [exact M|]. constructor; [|exact H2]. split; [exact L|]. eapply leads_more; eassumption.
Qed.
Lemma each_sched : forall {E A} sched Qs (ts : list (R E A)) s ts' s', each_leads Qs ts s ->
  run_sched sched ts s = (ts', s') -> more s s' /\ each_leads Qs ts' s'.
Proof.
  intros E A sched. induction sched as [|i sched IH]; intros Qs ts s ts' s' H R; cbn [run_sched] in R.
  - injection R as <- <-. split; [apply more_refl|exact H].
  - destruct (each_step i Qs ts s H) as [M H2]. destruct (step_nth i ts s) as [ts1 s1]. cbn [fst snd] in *.
    destruct (IH _ _ _ _ _ H2 R) as [M2 H3]. split; [eapply more_trans; eassumption|exact H3].
Qed.
Lemma each_joined : forall {E} Qs (ts : list (R E unit)) s, each_leads Qs ts s -> join_all ts = Ok tt ->
  Forall (fun Q => Q s) Qs.
Proof.
  intros E Qs ts s H. induction H as [|Q t Qs ts [L H] _ IH]; intros J; constructor;
    cbn [join_all] in J; destruct t as [[|e| |]|]; try discriminate J; [exact H|apply IH, J].
Qed.

(** ** Files *)

Lemma open_new : forall p s f s', or_else (create_file p) (fun _ => write_file p) s = (Ok f, s') ->
  exists i plan, f = EFile (mkHandle p i 0 plan) /\ more s s' /\ stat s' p = Some (NFile i)
    /\ s_data s' i = [] /\ forall j, j <> i -> s_data s' j = s_data s j.
Proof.
  intros p s f s' H. unfold or_else in H. destruct (create_file p s) as [o s1] eqn:C.
  destruct (create_file_any p s o s1 C) as [(-> & D & _)|(q & plan & R & L & -> & N & Dt & Nx & Cw & _)].
  - unfold write_file in H. apply call_or_inv in H as (s2 & D2 & _ & _ & _ & [(F & _)|H]); [discriminate F|].
    destruct (stat s2 p) as [[|i|t]|] eqn:S; try discriminate H.
    unfold new_handle in H. destruct (next_plan (with_data i [] [FTrunc i] s2)) as [plan s3] eqn:NP.
    injection H as <- <-. apply next_plan_spec in NP as (D3 & _).
    pose proof D3 as (N1 & N2 & N3 & N4 & _). cbn in N1, N2, N3, N4.
    pose proof (same_disk_trans _ _ _ D D2) as D4. pose proof D4 as (M1 & M2 & M3 & M4 & _).
    exists i, plan. split; [reflexivity|]. split.
    { eapply more_trans; [apply more_disk, D4|]. apply more_same; assumption. }
    split; [|split].
    + assert (Z : stat s3 p = stat s2 p).
      { unfold stat. rewrite (resolve_nodes true s2 s3 p N1 N4). rewrite N1. reflexivity. }
      rewrite Z. exact S.
    + rewrite N2. unfold set_data. rewrite Nat.eqb_refl. reflexivity.
    + intros j Nj. rewrite N2. unfold set_data. destruct (Nat.eqb_spec j i); [contradiction|].
      rewrite M2. reflexivity.
  - injection H as <- <-. exists (s_next s), plan. split; [reflexivity|].
    assert (X : more s s1).
    { eapply more_added; [exact L|exact N|exact Cw|lia|]. intros i F. injection F as <-. lia. }
    split; [exact X|]. split.
    { eapply stat_added; [exact R|exact L|exact N|exact Cw|]. intros t F. discriminate F. }
    rewrite Dt. unfold set_data. split.
    + rewrite Nat.eqb_refl. reflexivity.
    + intros j Nj. destruct (Nat.eqb_spec j (s_next s)); [contradiction|reflexivity].
Qed.

Lemma extract_ok : forall e s s', extract e s = (Ok tt, s') ->
  zr_ok (snd e) = true /\ more s s'
  /\ exists i, stat s' (fst e) = Some (NFile i) /\ s_data s' i = zr_data (snd e)
     /\ forall j, j <> i -> s_data s' j = s_data s j.
Proof.
  intros e s s' H. unfold extract in H.
  destruct (zr_open (snd e)); [|discriminate H]. unfold bind at 1 in H. cbn [ret] in H.
  unfold bind at 1 in H. unfold map_err at 1 in H.
  destruct (or_else (create_file (fst e)) (fun _ => write_file (fst e)) s) as [[f|x| |] s1] eqn:O; try discriminate H.
  destruct (open_new _ _ _ _ O) as (i & plan & -> & M & S & D & K).
  unfold bind at 1 in H. unfold map_err at 1, put_archive in H.
  destruct (run_handle (ow_dev (dev_write_all (zr_data (snd e)))) (mkHandle (fst e) i 0 plan) s1) as [[o h'] s2] eqn:RH.
  destruct (run_handle_tree _ _ _ _ _ _ RH) as ((T1 & T2 & T3 & T4 & _) & _ & _ & T5 & _).
  cbn [h_ino] in T5. unfold run_handle, ow_dev, zoom in RH. cbn [fst snd] in RH.
  destruct (dev_write_all (zr_data (snd e)) (handle_dev s1 (mkHandle (fst e) i 0 plan))) as [o1 d] eqn:W.
  injection RH as <- <- <-.
  destruct o1 as [[]|x| |]; try discriminate H.
  apply dev_write_all_spec in W as [_ (W & _)]. cbn [handle_dev d_data d_pos h_ino h_pos] in W.
  destruct (zr_ok (snd e)); [|discriminate H]. injection H as <-. split; [reflexivity|].
  split; [eapply more_trans; [exact M|apply more_same; assumption]|].
  exists i. split.
  { apply (stat_more s1); [apply more_same; assumption|exact S]. }
  split.
  - cbn [with_rng put_handle with_data s_data h_ino]. unfold set_data. rewrite Nat.eqb_refl, W, D.
    destruct (zr_data (snd e)) as [|b l]; [reflexivity|]. cbn. rewrite app_nil_r. reflexivity.
  - intros j Nj. rewrite T5 by exact Nj. apply K, Nj.
Qed.

(** What [all_written] asks of the files, as far as they are not removed again. *)
Definition files_in (s : sys) (es : list entity) : Prop :=
  forall before e later, es = before ++ e :: later -> zr_ok (snd e) = true
    /\ exists i, stat s (fst e) = Some (NFile i)
       /\ ((forall e2, In e2 later -> stat s (fst e2) <> Some (NFile i)) -> s_data s i = zr_data (snd e)).

Lemma extract_all_ok : forall es s s', extract_all es s = (Ok tt, s') ->
  more s s' /\ files_in s' es
  /\ forall j, (forall e, In e es -> stat s' (fst e) <> Some (NFile j)) -> s_data s' j = s_data s j.
Proof.
  induction es as [|e es IH]; intros s s' H; cbn [extract_all] in H.
  - injection H as <-. split; [apply more_refl|]. split; [|auto].
    intros before e later X. destruct before; discriminate X.
  - unfold bind in H. destruct (extract e s) as [[[]|x| |] s1] eqn:X; try discriminate H.
    destruct (extract_ok e s s1 X) as (Ok1 & M1 & i & S1 & D1 & K1).
    destruct (IH s1 s' H) as (M2 & F2 & K2).
    pose proof (stat_more _ _ _ _ M2 S1) as S2.
    split; [eapply more_trans; eassumption|]. split.
    + intros [|b before] e0 later Y; injection Y as <- Y.
      * subst later. split; [exact Ok1|]. exists i. split; [exact S2|]. intros L. rewrite (K2 i L). exact D1.
      * apply (F2 before e0 later Y).
    + intros j L. rewrite K2 by (intros e0 I0; apply L; right; exact I0). apply K1. intros ->.
      apply (L e (or_introl eq_refl)). exact S2.
Qed.

(** ** The names of the specification *)

Lemma enclosed_relative : forall n p, enclosed_name n = Some p -> p_abs p = false.
Proof.
  intros n p H. unfold enclosed_name in H. destruct (has_nul n); [discriminate H|]. cbv zeta in H.
  destruct (p_abs (parse_path n)) eqn:A; [discriminate H|].
  destruct (depth_ok 0 (p_comps (parse_path n))); [|discriminate H]. injection H as <-. exact A.
Qed.
Lemma targets_eq : forall o zs, map fst (entities o zs) = targets o zs.
Proof.
  intros o zs. induction zs as [|z zs IH]; [reflexivity|]. cbn [entities flat_map targets]. unfold target.
  fold (entities o zs). destruct (zr_open z); [|exact IH].
  destruct (enclosed_name (zr_name z)) as [p|] eqn:N; [|exact IH]. cbn [app map fst]. rewrite IH. f_equal.
  unfold path_push. apply enclosed_relative in N. rewrite N. reflexivity.
Qed.
Lemma chosen_eq : forall o zs answers, accepted (entities o zs) answers = chosen o zs answers.
Proof.
  intros o zs. induction zs as [|z zs IH]; intros answers; [reflexivity|].
  cbn [entities flat_map chosen]. unfold target. fold (entities o zs).
  destruct (zr_open z); [|apply IH].
  destruct (enclosed_name (zr_name z)) as [p|] eqn:N; [|apply IH]. cbn [app].
  destruct answers as [|b l]; [reflexivity|]. unfold accepted in *. cbn [combine filter snd].
  assert (P : path_push o p = mkPath (p_abs o) (p_comps o ++ p_comps p)).
  { unfold path_push. apply enclosed_relative in N. rewrite N. reflexivity. }
  destruct b; cbn [map fst]; rewrite ?IH, ?P; reflexivity.
Qed.

Lemma wiped_cwd : forall h cap passes s o s', wipe_temp h cap passes s = (o, s') -> s_cwd s' = s_cwd s.
Proof.
  intros h cap passes s o s' H. apply t_wipe in H as (es & _ & _ & _ & C & _). rewrite C. clear C.
  revert s. induction es as [|e es IH]; intros s; [reflexivity|]. cbn [redo fold_left]. exact (IH (redo1 s e)).
Qed.

(** ** The whole *)
Lemma unpack_written : forall E Z pick bs sched req s tr a',
  inodes_ok s -> lookup (s_nodes s) (s_cwd s) = Some NDir ->
  h_ino (ur_in req) < s_next s -> (forall h, ur_hdr req = Some h -> h_ino h < s_next s) ->
  unpack_execute_bs E Z pick bs sched req (s, tr) = (Ok tt, a') ->
  exists zs answers temp, resolve false s (temp_path pick s) = Some temp
    /\ archive_in E Z bs req s zs
    /\ ur_ask req (targets (ur_out req) zs) = Some answers
    /\ stat (fst a') (ur_out req) = Some NDir
    /\ all_written (Some temp) (fst a') (chosen (ur_out req) zs answers).
Proof.
  intros E Z pick bs sched req s tr a' IO CW HI HH H. unfold unpack_execute_bs in H.
  unfold bind at 1 in H. unfold map_err at 1, on_sys at 1, zoom at 1 in H. cbn [fst snd] in H.
  destruct (create_temp_file pick s) as [o1 s1] eqn:CT.
  destruct (create_temp_any True pick s o1 s1 CT) as [(_ & ->)|(T & plan & R & L & -> & TM & D0 & _)]; [discriminate H|].
  unfold bind at 1 in H.
  destruct (run_world _ _ _ _ _) as [[o2 [hi' h1]] a1] eqn:RW in H.
  destruct o2 as [[]|e| |]; try discriminate H.
  destruct (decrypt_world _ _ _ _ _ _ _ _ _ _ _ _ RW) as (ST & HO & HP & _ & DO & _). cbn [fst h_ino h_path] in ST, HO, HP, DO.
  set (t := s_next s) in *.
  assert (AR : exists g w, decrypt_execute_bs E bs (match ur_hdr req with Some _ => true | None => false end) (ur_raw_key req)
      (mkWorld (handle_dev s (ur_in req)) (mkDev [] 0 plan []) (opt_dev s (ur_hdr req)) g tr) = (Ok tt, w)
      /\ s_data (fst a1) t = d_data (w_out w)).
  { unfold run_world in RW. cbn [fst snd] in RW.
    assert (X1 : handle_dev s1 (ur_in req) = handle_dev s (ur_in req)).
    { unfold handle_dev. rewrite (tm_data _ _ _ _ TM) by lia. reflexivity. }
    assert (X2 : opt_dev s1 (ur_hdr req) = opt_dev s (ur_hdr req)).
    { destruct (ur_hdr req) as [h|]; [|reflexivity]. cbn. unfold handle_dev.
      pose proof (HH h eq_refl). rewrite (tm_data _ _ _ _ TM) by lia. reflexivity. }
    assert (X3 : handle_dev s1 (mkHandle (temp_path pick s) t 0 plan) = mkDev [] 0 plan []).
    { unfold handle_dev. cbn. rewrite D0. reflexivity. }
    rewrite X1, X2, X3 in RW.
    destruct (decrypt_execute_bs _ _ _ _ _) as [o3 w] eqn:DE in RW. injection RW as -> _ _ <-.
    exists (s_rng s1), w. split; [exact DE|]. cbn [fst].
    destruct (ur_hdr req) as [h|]; cbn [put_opt put_handle with_rng with_data s_data h_ino]; unfold set_data.
    - pose proof (HH h eq_refl). destruct (Nat.eqb_spec t (h_ino h)); [lia|]. rewrite Nat.eqb_refl. reflexivity.
    - rewrite Nat.eqb_refl. reflexivity. }
  destruct AR as (g & w & DE & DW).
  unfold bind at 1 in H. unfold map_err at 1, on_sys at 1, zoom at 1 in H. cbn [fst snd] in H.
  destruct (file_len (EFile h1) (fst a1)) as [[cap|e| |] s3] eqn:FL; try discriminate H.
  assert (D3 : same_disk (fst a1) s3).
  { unfold file_len in FL. apply call_or_inv in FL as (s2 & D2 & _ & _ & _ & [(F & _)|F]); [discriminate F|].
    injection F as _ <-. exact D2. }
  unfold bind at 1 in H. unfold on_sys at 1, zoom at 1 in H. cbn [fst snd] in H.
  destruct (unpack_archive Z sched req h1 s3) as [[h2|e| |] s6] eqn:UA; try discriminate H.
  unfold on_sys, zoom, map_err in H. cbn [fst snd] in H.
  destruct (wipe_temp h2 cap 1 s6) as [o7 s7] eqn:WT. destruct o7 as [[]|e| |]; try discriminate H.
  injection H as <-. cbn [fst].
  unfold unpack_archive in UA.
  destruct (run_handle (ow_dev dev_rewind) h1 s3) as [[o4 h4] s4] eqn:RR.
  destruct o4 as [[]|e| |]; try discriminate UA.
  destruct (run_handle_tree _ _ _ _ _ _ RR) as ((T1 & T2 & T3 & T4 & _) & HI4 & HP4 & _).
  assert (D4 : s_data s4 (h_ino h1) = d_data (w_out w)).
  { unfold run_handle, ow_dev, zoom in RR. cbn [fst snd] in RR.
    destruct (dev_rewind (handle_dev s3 h1)) as [o5 d5] eqn:RD. injection RR as _ _ <-.
    cbn [with_rng put_handle with_data s_data]. unfold set_data. rewrite Nat.eqb_refl.
    assert (Y : d_data d5 = s_data s3 (h_ino h1)).
    { unfold dev_rewind, dev_seek_start, next_ev in RD. destruct (d_plan (handle_dev s3 h1)) as [|[| | |] l];
        injection RD as _ <-; reflexivity. }
    rewrite Y. destruct D3 as (_ & D3 & _). rewrite D3, HO. exact DW. }
  rewrite D4 in UA. destruct (z_decode Z (d_data (w_out w))) as [zs|] eqn:ZD; [|discriminate UA].
  cbv zeta in UA. rewrite targets_eq in UA.
  destruct (ur_ask req (targets (ur_out req) zs)) as [answers|] eqn:ASK; [|discriminate UA].
  rewrite chosen_eq in UA.
  set (es := chosen (ur_out req) zs answers) in *.
  unfold bind at 1 in UA. destruct (run_sched sched (mkdir_threads (ur_out req) es) s4) as [ts s5] eqn:RS.
  unfold bind at 1, lift in UA. destruct (join_all ts) as [[]|e| |] eqn:J; try discriminate UA.
  unfold bind at 1 in UA.
  destruct (extract_all (filter (fun e => negb (ent_is_dir e)) es) s5) as [[[]|e| |] s6'] eqn:XA; try discriminate UA.
  injection UA as <- <-. rename s6' into s6.
  (* the tree *)
  destruct ST as (U1 & U2 & U3 & U4 & _). destruct D3 as (V1 & _ & V3 & V4 & _).
  assert (M0 : more s s1).
  { eapply more_added; [exact L|apply (tm_nodes _ _ _ _ TM)|apply (tm_cwd _ _ _ _ TM)|rewrite (tm_next _ _ _ _ TM); lia|].
    intros i F. injection F as <-. rewrite (tm_next _ _ _ _ TM). lia. }
  assert (M4 : more s1 s4).
  { apply more_same; congruence. }
  assert (CW4 : lookup (s_nodes s4) (s_cwd s4) = Some NDir).
  { pose proof (more_trans _ _ _ M0 M4) as [G C _ _]. rewrite C. apply G, CW. }
  assert (EL : each_leads (map dir_there (map fst (filter ent_is_dir es) ++ [ur_out req])) (mkdir_threads (ur_out req) es) s4).
  { unfold each_leads, mkdir_threads. generalize (map fst (filter ent_is_dir es) ++ [ur_out req]).
    induction l as [|p l IHl]; constructor; [|exact IHl]. split; [apply dir_lasts|].
    apply leads_err, leads_create_dir, CW4. }
  destruct (each_sched _ _ _ _ _ _ EL RS) as [M5 EJ]. pose proof (each_joined _ _ _ EJ J) as DIRS. clear EL EJ.
  destruct (extract_all_ok _ _ _ XA) as (M6 & FI & _).
  pose proof (more_trans _ _ _ M4 (more_trans _ _ _ M5 M6)) as M16.
  assert (LT1 : lookup (s_nodes s1) T = Some (NFile t)).
  { rewrite (tm_nodes _ _ _ _ TM), lookup_add by exact L. rewrite cpath_eqb_refl. reflexivity. }
  assert (LT : lookup (s_nodes s6) T = Some (NFile t)) by (apply (mo_grown _ _ M16), LT1).
  assert (UT : forall q, lookup (s_nodes s6) q = Some (NFile t) -> q = T).
  { intros q Lq. destruct (mo_new _ _ M16 q t Lq) as [Lq1|Lq1].
    - rewrite (tm_nodes _ _ _ _ TM), lookup_add in Lq1 by exact L. destruct (cpath_eqb q T) eqn:Q.
      + apply cpath_eqb_eq in Q. exact Q.
      + apply IO in Lq1. unfold t in Lq1. lia.
    - rewrite (tm_next _ _ _ _ TM) in Lq1. unfold t in Lq1. lia. }
  assert (TN : T <> []) by (intros ->; discriminate L).
  assert (RT : resolve false s6 (temp_path pick s) = Some T).
  { pose proof (more_trans _ _ _ M0 M16) as [G C _ _]. apply (resolve_grown false s s6 _ _ G C R). intros F. discriminate F. }
  (* removing the archive *)
  pose proof (wiped_cwd _ _ _ _ _ _ WT) as C7.
  destruct (wipe_any _ _ _ _ _ _ WT) as (WD & WN & _). rewrite HI4, HO in WD. rewrite HP4, HP in WN.
  assert (LL : forall q, lookup (s_nodes s7) q = lookup (s_nodes s6) q \/ (q = T /\ lookup (s_nodes s7) q = None)).
  { intros q. destruct WN as [->|(q0 & R0 & ->)]; [left; reflexivity|].
    rewrite RT in R0. injection R0 as <-. rewrite lookup_remove by exact TN.
    destruct (cpath_eqb q T) eqn:Q; [right; apply cpath_eqb_eq in Q; auto|left; reflexivity]. }
  assert (RS7 : forall f p, resolve f s7 p = resolve f s6 p).
  { intros f p. apply resolve_lost_files; [|exact C7]. intros q. destruct (LL q) as [X|[-> X]]; [left; exact X|].
    right. split; [exact X|]. exists t. exact LT. }
  assert (S7 : forall p n, stat s6 p = Some n -> n <> NFile t -> stat s7 p = Some n).
  { intros p n X Nn. unfold stat in *. rewrite RS7. destruct (resolve true s6 p) as [q|]; [|discriminate X].
    destruct (LL q) as [Y|[-> Y]]; [rewrite Y; exact X|]. rewrite LT in X. congruence. }
  rewrite map_app in DIRS. apply Forall_app in DIRS as [DIRS DO1].
  exists zs, answers, T. split; [exact R|]. split.
  { exists plan, g, tr, w. split; [exact DE|exact ZD]. }
  split; [exact ASK|]. split.
  { inversion DO1 as [|? ? X _]; subst. apply S7; [|discriminate]. exact (stat_more _ _ _ _ M6 X). }
  intros before p z later X. fold es in X. split.
  - intros FD. apply S7; [|discriminate]. apply (stat_more s5 s6); [exact M6|].
    rewrite Forall_forall in DIRS. apply (DIRS (dir_there p)). apply in_map. apply (in_map fst _ (p, z)).
    apply filter_In. split; [rewrite X; apply in_elt|exact FD].
  - intros FD. assert (X' : filter (fun e => negb (ent_is_dir e)) es
      = filter (fun e => negb (ent_is_dir e)) before ++ (p, z) :: filter (fun e => negb (ent_is_dir e)) later).
    { rewrite X, filter_app. cbn [filter]. unfold ent_is_dir at 2. cbn [snd]. unfold for_dir in FD.
      destruct (zip_is_dir (zr_name z)); [contradiction|reflexivity]. }
    destruct (FI _ _ _ X') as (OKz & i & Si & Di). cbn [fst snd] in *. split; [exact OKz|].
    destruct (Nat.eq_dec i t) as [->|Ni].
    + left. rewrite RS7. unfold stat in Si. destruct (resolve true s6 p) as [q|]; [|discriminate Si].
      f_equal. apply UT, Si.
    + right. exists i. split; [apply S7; [exact Si|congruence]|]. intros Q. rewrite WD by exact Ni. apply Di.
      intros [p2 z2] I2 F2. apply filter_In in I2 as [I2 N2]. cbn [fst] in F2.
      apply (Q p2 z2 I2).
      * unfold for_dir. unfold ent_is_dir in N2. cbn [snd] in N2. destruct (zip_is_dir (zr_name z2)); discriminate.
      * apply S7; [exact F2|congruence].
Qed.
