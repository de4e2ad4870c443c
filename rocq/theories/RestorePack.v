(** What packing a directory puts into the encrypted archive. *)
From Coq Require Import List Arith NArith Ascii String Bool Lia.
From Verif Require Import Bytes Outcome IO Primitives Crypto Header Stream KeyModel EncDec Overwrite FS Archive.
From Verif Require Import BytesFacts IOSpec IOFacts FileFacts FileProofs.
From Verif Require Import FSSpec FSFacts EraseDirProofs EraseSched ArchiveSpec UnpackProofs PackProofs.
From Verif Require Import RestoreSpec RestoreNames.
Import ListNotations.
Local Open Scope nat_scope.
Local Open Scope list_scope.
Strategy 1000 [walk MAX_LINKS resolve].

(** ** Reading *)

Lemma pack_read_calm : forall fuel bs acc d, 0 < bs -> d_plan d = [] ->
  List.length (d_data d) - d_pos d < fuel ->
  exists d', pack_read fuel bs acc d = ((Ok tt, acc ++ rest d), d').
Proof.
  induction fuel as [|fuel IH]; intros bs acc d B P F; [lia|]. cbn [pack_read].
  rewrite dev_read_ok by exact P. fold (rest d).
  destruct (List.length (firstn bs (rest d)) =? bs) eqn:E.
  - apply Nat.eqb_eq in E. rewrite E.
    destruct (IH bs (acc ++ firstn bs (rest d)) (set_pos (d_pos d + bs) d) B) as [d' H].
    + exact P.
    + cbn [set_pos d_data d_pos]. rewrite firstn_length in E. unfold rest in E. rewrite skipn_length in E. lia.
    + exists d'. rewrite H. rewrite <- app_assoc. do 3 f_equal.
      unfold rest. cbn [set_pos d_data d_pos].
      rewrite <- skipn_skipn'.
      apply firstn_skipn.
  - apply Nat.eqb_neq in E. exists (set_pos (d_pos d + List.length (firstn bs (rest d))) d).
    do 3 f_equal. apply firstn_all2. rewrite firstn_length in E. lia.
Qed.

Definition entry_of (s : sys) (p : path) : entry :=
  match stat s p with Some (NFile i) => EFile (mkHandle p i 0 []) | _ => EDir p end.

Lemma read_all_eq : forall ps s, no_faults s ->
  (forall p, In p ps -> stat s p = Some NDir \/ exists i, stat s p = Some (NFile i)) ->
  read_all ps s = (Ok (map (entry_of s) ps), s).
Proof.
  induction ps as [|p ps IH]; intros s NF H; [reflexivity|]. cbn [read_all map].
  assert (R : read_file p s = (Ok (entry_of s p), s)).
  { unfold read_file, is_dir, entry_of. destruct NF as [N1 N2].
    destruct (H p (or_introl eq_refl)) as [S|[i S]]; rewrite S; [reflexivity|].
    rewrite call_or_calm by exact N1. cbv beta. rewrite S. unfold new_handle, next_plan. rewrite N2.
    reflexivity. }
  erewrite bind_ok by exact R.
  erewrite bind_ok by (apply IH; [exact NF|intros x I; apply H; right; exact I]).
  reflexivity.
Qed.

(** ** The entries *)

Section Tree.

Variables (s : sys) (p : path) (q : cpath) (bs : nat).
Hypothesis BS : 0 < bs.
Hypothesis TREE : tree_ok s.
Hypothesis NF : no_faults s.
Hypothesis PK : packable p.
Hypothesis RT : resolve true s p = Some q.
Hypothesis DIR : lookup (s_nodes s) q = Some NDir.
Hypothesis NL : no_links_inside s q.
Hypothesis GN : forall rel, at_place s (q ++ rel) <> None -> Forall good_name rel.

Definition all_rels : list (list string) := [] :: rels (s_nodes s) q.

Definition stored_data (rel : list string) : option bytes :=
  match lookup (s_nodes s) (q ++ rel) with Some (NFile i) => Some (s_data s i) | _ => None end.

Definition zent_of (rel : list string) : zent :=
  match stored_data rel with
  | Some l => mkZent (stored_name false (sub p rel)) l
  | None => mkZent (stored_name true (sub p rel)) []
  end.

Lemma rel_stat : forall rel, In rel all_rels -> stat s (sub p rel) = lookup (s_nodes s) (q ++ rel).
Proof.
  intros rel [<-|I]; unfold stat.
  - rewrite sub_nil, RT, app_nil_r. reflexivity.
  - rewrite (rel_resolve s p q TREE RT DIR NL true rel I). reflexivity.
Qed.

Lemma rel_kind : forall rel, In rel all_rels ->
  lookup (s_nodes s) (q ++ rel) = Some NDir \/ exists i, lookup (s_nodes s) (q ++ rel) = Some (NFile i).
Proof.
  intros rel [<-|I]; [rewrite app_nil_r; auto|].
  destruct (rels_in _ _ _ I) as [_ IK]. destruct (key_lookup s (q ++ rel) TREE IK) as [[|i|t] LN]; eauto.
  destruct (NL (q ++ rel) t); [exists rel; reflexivity|exact LN].
Qed.

Lemma rel_there : forall rel, lookup (s_nodes s) (q ++ rel) <> None -> In rel all_rels.
Proof.
  intros rel H. destruct rel as [|x r]; [left; reflexivity|]. right. apply in_rels; [discriminate|].
  destruct (lookup (s_nodes s) (q ++ x :: r)) as [n|] eqn:L; [|contradiction].
  unfold lookup in L. destruct (q ++ x :: r) as [|y l] eqn:E; [destruct q; discriminate|].
  apply find_in in L. apply (in_map fst) in L. exact L.
Qed.

Lemma rel_packable : forall rel, In rel all_rels -> packable (sub p rel).
Proof.
  intros rel I. assert (G : Forall good_name rel).
  { apply GN. unfold at_place. destruct (rel_kind rel I) as [L|[i L]]; rewrite L; discriminate. }
  destruct PK as [A [C [a [n E]]]]. unfold sub, packable. cbn [p_abs p_comps]. split; [exact A|]. split.
  - apply Forall_app. split; [exact C|]. apply Forall_forall. intros c IC.
    apply in_map_iff in IC. destruct IC as [x [<- IX]]. exact (proj1 (Forall_forall _ _) G x IX).
  - destruct rel as [|m rel'] using rev_ind.
    + exists a, n. cbn [map]. rewrite app_nil_r. exact E.
    + exists (p_comps p ++ map Nm rel'), m. rewrite map_app, app_assoc. reflexivity.
Qed.

Lemma sub_inj : forall a b, sub p a = sub p b -> a = b.
Proof.
  intros a b H. injection H as H. apply app_inv_head in H.
  revert b H. induction a as [|x a IH]; intros [|y b] H; try discriminate; [reflexivity|].
  cbn in H. injection H as -> H. f_equal. apply IH, H.
Qed.

Lemma zent_name : forall rel, exists d, ze_name (zent_of rel) = stored_name d (sub p rel).
Proof. intros rel. unfold zent_of. destruct (stored_data rel); eexists; reflexivity. Qed.

Lemma all_rels_nodup : NoDup all_rels.
Proof.
  constructor; [|apply rels_nodup, TREE]. intros I. apply rels_in in I. destruct I as [I _]. apply I. reflexivity.
Qed.

Lemma zent_inj : forall a b, In a all_rels -> In b all_rels ->
  ze_name (zent_of a) = ze_name (zent_of b) -> a = b.
Proof.
  intros a b IA IB H. destruct (zent_name a) as [d A]. destruct (zent_name b) as [d' B].
  rewrite A, B in H. apply sub_inj.
  eapply stored_name_inj; [apply rel_packable, IA|apply rel_packable, IB|exact H].
Qed.

Lemma names_nodup : NoDup (map ze_name (map zent_of all_rels)).
Proof.
  rewrite map_map. assert (X : forall l, incl l all_rels -> NoDup l ->
    NoDup (map (fun r => ze_name (zent_of r)) l)).
  { induction l as [|a l IH]; intros I N; cbn [map]; [constructor|].
    inversion N as [|x y N1 N2]; subst. constructor; [|apply IH; [|exact N2]; intros z Z; apply I; right; exact Z].
    intros H. apply in_map_iff in H. destruct H as [b [E B]].
    apply zent_inj in E; [subst b; contradiction|apply I; right; exact B|apply I; left; reflexivity]. }
  apply X; [apply incl_refl|apply all_rels_nodup].
Qed.

Lemma has_name_false : forall n l, ~ In n (map ze_name l) -> has_name n l = false.
Proof.
  intros n l H. unfold has_name. induction l as [|e l IH]; [reflexivity|]. cbn [existsb map In] in *.
  rewrite IH by tauto. destruct (String.eqb_spec (ze_name e) n); [tauto|reflexivity].
Qed.

Lemma pack_add_all : forall l done, all_rels = done ++ l ->
  pack_add bs (map (entry_of s) (map (sub p) l)) (map zent_of done) s
  = ((Ok tt, map zent_of (done ++ l)), s).
Proof.
  induction l as [|rel l IH]; intros done E.
  - rewrite app_nil_r. reflexivity.
  - assert (I : In rel all_rels) by (rewrite E; apply in_or_app; right; left; reflexivity).
    assert (FR : has_name (ze_name (zent_of rel)) (map zent_of done) = false).
    { apply has_name_false. intros H.
      pose proof names_nodup as ND. rewrite E, map_app, map_app in ND. cbn [map] in ND.
      apply NoDup_remove_2 in ND. apply ND, in_or_app. left. exact H. }
    specialize (IH (done ++ [rel])). rewrite <- app_assoc in IH. cbn [app] in IH. specialize (IH E).
    rewrite map_app in IH. cbn [map] in IH |- *.
    unfold entry_of at 1. rewrite rel_stat by exact I.
    unfold zent_of in FR at 1. unfold stored_data in FR at 1.
    assert (ZE : zent_of rel = match lookup (s_nodes s) (q ++ rel) with
      | Some (NFile i) => mkZent (stored_name false (sub p rel)) (s_data s i)
      | _ => mkZent (stored_name true (sub p rel)) [] end).
    { unfold zent_of, stored_data. destruct (lookup (s_nodes s) (q ++ rel)) as [[|i|t]|]; reflexivity. }
    destruct (rel_kind rel I) as [L|[i L]]; rewrite L in *.
    + cbn [pack_add]. cbn [ze_name stored_name] in FR. rewrite FR.
      rewrite ZE in IH. exact IH.
    + cbn [pack_add h_path]. cbn [ze_name stored_name] in FR. rewrite FR.
      destruct (pack_read_calm (S (List.length (d_data (handle_dev s (mkHandle (sub p rel) i 0 [])))))
                  bs [] (handle_dev s (mkHandle (sub p rel) i 0 [])) BS eq_refl) as [d' PR].
      { cbn. lia. }
      rewrite PR. cbn [app]. rewrite ZE in IH. exact IH.
Qed.

Lemma tree_entries : read_dir (EDir p) s = (Ok (map (entry_of s) (map (sub p) all_rels)), s).
Proof.
  unfold read_dir. rewrite call_or_calm by apply NF. rewrite (listing_rels s p q RT).
  change (p :: map (sub p) (rels (s_nodes s) q)) with ([p] ++ map (sub p) (rels (s_nodes s) q)).
  rewrite <- (sub_nil p) at 1. cbn [app]. change (sub p [] :: map (sub p) (rels (s_nodes s) q)) with (map (sub p) all_rels).
  apply read_all_eq; [exact NF|]. intros x I. apply in_map_iff in I. destruct I as [rel [<- I]].
  rewrite rel_stat by exact I. apply rel_kind, I.
Qed.

Lemma tree_packed : fst (pack_add bs (map (entry_of s) (map (sub p) all_rels)) [] s)
  = (Ok tt, map zent_of all_rels).
Proof. pose proof (pack_add_all all_rels [] eq_refl) as H. cbn [map app] in H. rewrite H. reflexivity. Qed.

End Tree.

(** ** The encrypted file *)

Lemma encrypted_back : forall E bs req w w', env_ok E -> 0 < bs -> bs <= BLOCK_SIZE ->
  ht_version (er_header_type req) = V5 -> er_detached req = false ->
  d_plan (w_in w) = [] -> d_plan (w_out w) = [] -> d_data (w_out w) = [] ->
  encrypt_execute_bs E bs req w = (Ok tt, w') ->
  forall v, d_plan (w_in v) = [] -> d_plan (w_out v) = [] -> rest (w_in v) = d_data (w_out w') ->
  exists v', decrypt_execute_bs E bs false (er_raw_key req) v = (Ok tt, v')
    /\ wrote (w_out v) (w_out v') (d_data (w_in w)).
Proof.
  intros E bs req w w' HE B1 B2 V5' DT PI PO DO EN v VI VO VR.
  destruct (encrypt_ok_inv E bs req w tt w' HE B1 EN)
    as (key & wrapped & b & aad & ct & cs & k & HK & _ & _ & HM & _).
  pose proof (hash_known _ _ _ _ _ HK) as KH.
  destruct (encrypt_execute_result E bs req w key HE B1 B2 HM) as
    (wr & b' & aad' & _ & _ & _ & _ & _ & R6); auto; [|congruence|].
  { intros. apply e_header_wf_v5; auto. }
  destruct (N.of_nat (List.length (d_data (w_in w)) / bs) <=? counter_max E)%N eqn:CM.
  2:{ destruct R6 as [w2 R6]. congruence. }
  apply N.leb_le in CM.
  destruct (file_round_trip_bs E bs req w key HE B1 B2 HM) as (w2 & file & F1 & F2 & F3 & F4); auto.
  { intros. apply e_header_wf_v5; auto. }
  assert (w2 = w') by congruence. subst w2. rewrite (F3 DO) in VR. apply F4; auto.
Qed.

Lemma pack_back : forall E Z pick bs req s tr a1 zs,
  env_ok E -> 0 < bs -> bs <= BLOCK_SIZE -> no_faults s ->
  h_ino (pr_out req) < s_next s -> pr_hdr req = None ->
  h_plan (pr_out req) = [] -> s_data s (h_ino (pr_out req)) = [] ->
  ht_version (pr_header_type req) = V5 ->
  (forall h, In (EFile h) (pr_files req) -> h_ino h < s_next s) ->
  fst (pack_add bs (pr_files req) [] s) = (Ok tt, zs) ->
  pack_execute_bs E Z pick bs req (s, tr) = (Ok tt, a1) ->
  forall v, d_plan (w_in v) = [] -> d_plan (w_out v) = [] ->
  rest (w_in v) = s_data (fst a1) (h_ino (pr_out req)) ->
  exists v', decrypt_execute_bs E bs false (pr_raw_key req) v = (Ok tt, v')
    /\ wrote (w_out v) (w_out v') (z_encode Z (pr_compression req) zs).
Proof.
  intros E Z pick bs req s tr a1 zs HE B1 B2 NF HO HH PO DO V FO PA RUN v VI VO VR.
  apply pack_stages in RUN; [|exact B1|exact HO|intros x X; congruence].
  destruct RUN as [? X|? ? ? ? ? ? ? ? ? X|? ? ? ? ? ? X
    |T zs' h1 aa h hx a2 cap oe o6 RT LT MD ZD CO TR RNG HI HP RW N1 N2 SL HI2 HP2 HPL2 CAP WT X];
    [discriminate|congruence|destruct X; discriminate|].
  specialize (ZD NF). specialize (CO FO). specialize (HP NF).
  assert (zs' = zs) by congruence. subst zs'.
  assert (OE : oe = Ok tt) by (destruct o6, oe as [[]|?| |]; congruence).
  subst oe.
  apply wipe_any in WT. destruct WT as [WD _]. rewrite HI2 in WD.
  unfold run_world in RW.
  set (w0 := mkWorld (handle_dev (fst aa) h1) (handle_dev (fst aa) (pr_out req))
               (opt_dev (fst aa) (pr_hdr req)) (s_rng (fst aa)) (snd aa)) in RW.
  destruct (encrypt_execute_bs E bs (encreq req) w0) as [oo w1] eqn:EN.
  injection RW as R1 R2 R3 R4. subst oo.
  assert (OD : s_data (fst aa) (h_ino (pr_out req)) = []).
  { rewrite (tm_data _ _ _ _ MD) by lia. exact DO. }
  assert (VR' : rest (w_in v) = d_data (w_out w1)).
  { rewrite VR, WD by lia. rewrite <- R4. cbn [fst with_rng s_data]. rewrite HH. cbn [put_opt].
    unfold put_handle. cbn [with_data s_data]. unfold set_data.
    rewrite Nat.eqb_refl. reflexivity. }
  destruct (encrypted_back E bs (encreq req) w0 w1 HE B1 B2) with (v := v) as [v' [D1 D2]]; auto.
  - unfold encreq. cbn [er_detached]. rewrite HH. reflexivity.
  - exists v'. split; [exact D1|]. cbn [w0 w_in handle_dev d_data] in D2. rewrite HI, ZD in D2. exact D2.
Qed.
