(** Proofs about the function behind the subcommand [unpack]. *)
From Coq Require Import List Arith NArith ZArith Ascii String Bool Lia.
From Verif Require Import Bytes Outcome IO Primitives Crypto Header Stream KeyModel EncDec KeyOps HeaderOps.
From Verif Require Import Overwrite Hash FS Erase Archive Cli CliTools.
From Verif Require Import BytesFacts IOSpec IOFacts DecSim WorldFrames.
From Verif Require Import FSSpec FSFacts ArchiveSpec ArchiveWalk EraseProofs EraseDirProofs UnpackProofs ArchiveResults.
From Verif Require Import CliSpec CliKeys CliRuns CliProofs CliSafety CliToolsSpec CliToolsRuns.
Import ListNotations.
Local Open Scope nat_scope.
Local Open Scope list_scope.

(** ** The questions *)

Lemma expect_any : forall prompt force c o c', expect_answer prompt force c = (o, c') ->
  c_a c' = c_a c /\ c_tty c' = c_tty c /\ ((exists b, o = Ok b) \/ o = Panic)
  /\ (force = Force -> o = Ok true)
  /\ (force = Prompt -> forall ls, lines (c_stdin c) ls ->
       (forall b, o = Ok b -> exists n r, dialogue true ls (Some b) n r /\ lines (c_stdin c') r)
       /\ (o = Panic -> exists n r, dialogue true ls None n r)).
Proof.
  intros prompt force c o c' H. unfold expect_answer in H.
  destruct (get_answer prompt true force c) as [r c1] eqn:G.
  destruct (get_answer_any _ _ _ _ _ _ G) as (A & B & C).
  assert (X : c1 = c' /\ ((exists b, r = Ok b /\ o = Ok b) \/ (r = Err CAnswer /\ o = Panic))).
  { destruct C as [(b & ->)| ->]; injection H as <- <-; eauto 6. }
  clear H. destruct X as [-> X]. split; [exact A|]. split; [exact B|].
  split; [destruct X as [(b & _ & ->)|[_ ->]]; eauto|]. split.
  - intros ->. cbn in G. injection G as <- <-. destruct X as [(b & Y & ->)|[Y _]]; [injection Y as <-; reflexivity|discriminate].
  - intros -> ls LS. pose proof (get_answer_holds prompt true Prompt c ls LS) as (ob & n & rr & c2 & ns & D & E & F & _).
    rewrite G in E. injection E as E ->. split.
    + intros b ->. destruct X as [(b' & -> & Y)|[_ Y]]; [|discriminate]. injection Y as <-.
      destruct ob as [b0|]; [|discriminate]. injection E as ->. eauto.
    + intros ->. destruct X as [(b' & _ & Y)|[-> _]]; [discriminate|]. destruct ob; [discriminate|]. eauto.
Qed.

Lemma note_run : forall (b verbose : bool) c, exists c2,
  (if b then (if verbose then say NInfo else ret tt) else say NWarn) c = (Ok tt, c2)
  /\ c_a c2 = c_a c /\ c_tty c2 = c_tty c /\ c_stdin c2 = c_stdin c.
Proof. intros [|] [|] c; unfold say, ret; eauto 6. Qed.

Lemma file_name_nameless : forall p, file_name p = None -> nameless p.
Proof.
  intros p H (a & n & d & E & D). unfold file_name in H. rewrite E, filter_app in H. cbn [filter] in H.
  assert (X : filter (fun c => match c with Cur => false | _ => true end) d = []).
  { clear -D. induction D as [|x d <- _ IH]; [reflexivity|exact IH]. }
  rewrite X, rev_app_distr in H. discriminate H.
Qed.

Lemma zip_questions_any : forall s force verbose ps c o c', zip_questions s force verbose ps c = (o, c') ->
  (o = Panic \/ exists bs, o = Ok bs /\ List.length bs = List.length ps)
  /\ (force = Force -> (o = Panic /\ exists p, In p ps /\ nameless p)
                       \/ o = Ok (map (fun _ => true) ps))
  /\ (force = Prompt -> forall ls, lines (c_stdin c) ls ->
       (forall bs, o = Ok bs -> exists r, asked s ls ps bs r) /\ (o = Panic -> unanswered s ls ps)).
Proof.
  intros s force verbose. induction ps as [|p ps IH]; intros c o c' H; cbn [zip_questions] in H.
  - injection H as <- <-. split; [eauto|]. split; [auto|]. intros _ ls _. split; [|discriminate].
    intros bs E. injection E as <-. eexists. constructor.
  - destruct (file_name p) as [name|] eqn:FN.
    2:{ injection H as <- <-. split; [auto|]. split; [intros _; left; split; [reflexivity|exists p; split; [left; reflexivity|apply file_name_nameless, FN]]|].
        intros _ ls _. split; [discriminate|]. intros _. exists [], p, ps, [], ls. split; [reflexivity|].
        split; [constructor|]. left. apply file_name_nameless, FN. }
    unfold bind at 1 in H.
    assert (X : exists r c1, (if exists_path s p then expect_answer (exists_prompt name) force else ret true) c = (r, c1)
       /\ ((exists b, r = Ok b) \/ r = Panic) /\ (force = Force -> r = Ok true)
       /\ (force = Prompt -> forall ls, lines (c_stdin c) ls ->
             (forall b, r = Ok b -> exists ls', lines (c_stdin c1) ls'
                /\ forall qs bs r', asked s ls' qs bs r' -> asked s ls (p :: qs) (b :: bs) r')
             /\ (r = Panic -> unanswered s ls (p :: ps)))).
    { destruct (exists_path s p) eqn:EX.
      - destruct (expect_answer (exists_prompt name) force c) as [r c1] eqn:G. exists r, c1. split; [reflexivity|].
        destruct (expect_any _ _ _ _ _ G) as (_ & _ & A & B & C). split; [exact A|]. split; [exact B|].
        intros EF ls LS. destruct (C EF ls LS) as [C1 C2]. split.
        + intros b E. destruct (C1 b E) as (n & r0 & D & L). exists r0. split; [exact L|].
          intros qs bs r' K. econstructor; eauto.
        + intros E. destruct (C2 E) as (n & r0 & D). exists [], p, ps, [], ls. split; [reflexivity|].
          split; [constructor|]. right. eauto.
      - exists (Ok true), c. split; [reflexivity|]. split; [eauto|]. split; [auto|].
        intros _ ls LS. split; [|discriminate]. intros b E. injection E as <-. exists ls.
        split; [exact LS|]. intros qs bs r' K. constructor; assumption. }
    destruct X as (r & c1 & X & A & B & C). rewrite X in H. clear X.
    destruct A as [(b & ->)| ->].
    2:{ injection H as <- <-. split; [auto|]. split; [intros E; discriminate (B E)|].
        intros E ls LS. destruct (C E ls LS) as (_ & C3). split; [discriminate|intros _; exact (C3 eq_refl)]. }
    unfold bind at 1 in H. destruct (note_run b verbose c1) as (c2 & Y & A2 & B2 & S2). rewrite Y in H. clear Y.
    unfold bind in H. destruct (zip_questions s force verbose ps c2) as [o3 c3] eqn:Z.
    destruct (IH _ _ _ Z) as (I1 & I2 & I3).
    assert (O : (o3 = Panic /\ o = Panic) \/ exists bs, o3 = Ok bs /\ o = Ok (b :: bs) /\ List.length bs = List.length ps).
    { destruct I1 as [->|(bs & -> & L)]; injection H as <- <-; eauto 6. }
    clear H. split; [destruct O as [[_ ->]|(bs & _ & -> & L)]; [auto|right; eexists; split; [reflexivity|cbn; congruence]]|].
    split.
    + intros EF. specialize (B EF). injection B as ->. destruct (I2 EF) as [[E (q & IQ & FQ)]|E].
      * left. destruct O as [[_ ->]|(bs & E' & _)]; [|congruence]. split; [reflexivity|]. exists q. split; [right; exact IQ|exact FQ].
      * right. destruct O as [[E' _]|(bs & E' & -> & _)]; [congruence|]. rewrite E in E'. injection E' as <-. reflexivity.
    + intros EF ls LS. destruct (C EF ls LS) as (C1 & _). destruct (C1 b eq_refl) as (ls' & L' & K).
      rewrite <- S2 in L'. destruct (I3 EF ls' L') as [J1 J2]. split.
      * intros bs0 E. destruct O as [[_ ->]|(bs & E' & -> & _)]; [discriminate|]. injection E as <-.
        destruct (J1 _ E') as (r' & R'). exists r'. apply K. exact R'.
      * intros E. destruct O as [[E' _]|(bs & _ & E' & _)]; [|congruence]. destruct (J2 E') as (qs & q & rest & bs & rr & -> & K1 & K2).
        exists (p :: qs), q, rest, (b :: bs), rr. split; [reflexivity|]. split; [apply K; exact K1|exact K2].
Qed.

(** ** The run *)

Lemma read_file_rng : forall p s, s_rng (snd (read_file p s)) = s_rng s.
Proof.
  intros p s. unfold read_file. destruct (is_dir s p); [reflexivity|].
  match goal with |- s_rng (snd ?m) = _ => destruct m as [o s'] eqn:H end. cbn [snd].
  apply call_or_inv in H. destruct H as (s1 & _ & R1 & _ & _ & [(_ & -> & _)|H]); [exact R1|].
  destruct (stat s1 p) as [[|i|t]|]; try (injection H as _ <-; exact R1).
  unfold new_handle in H. destruct (next_plan s1) as [pl s2] eqn:NP.
  apply next_plan_spec in NP. destruct NP as (_ & R2 & _). injection H as _ <-. congruence.
Qed.

(** What happens before the archive is touched, with the state [c1] it leaves. *)
Record ready (V : cenv) (input : string) (p : crypto_params) (c c1 : cli) (hi : handle)
  (hh : option handle) (raw : bytes) : Prop := {
  rd_disk : same_disk (disk c) (disk c1);
  rd_trace : snd (c_a c1) = snd (c_a c);
  rd_rng : s_rng (disk c1) = s_rng (disk c);
  rd_calm : no_faults (disk c) -> no_faults (disk c1);
  rd_stdin : c_stdin c1 = stdin_left (cp_key p) c;
  rd_input : exists i plan, hi = mkHandle (os_path input) i 0 plan
    /\ stat (disk c) (os_path input) = Some (NFile i) /\ (no_faults (disk c) -> plan = []);
  rd_header : match cp_header p with
    | None => hh = None
    | Some hp => hh = None \/ exists j plan, hh = Some (mkHandle (os_path hp) j 0 plan)
        /\ stat (disk c) (os_path hp) = Some (NFile j) /\ (no_faults (disk c) -> plan = [])
    end;
  rd_key : exists t, yields V c (cp_key p) Direct raw t
}.

Lemma unpack_cli_any : forall V input output verbose p c o c',
  unpack_cli V input output verbose p c = (o, c') ->
  (same_disk (disk c) (disk c') /\ snd (c_a c') = snd (c_a c) /\ o <> Ok tt /\ o <> Diverge
   /\ (o = Panic -> exists n, cp_key p = Generate n
         /\ generate_passphrase (ce_words V) (ce_draw V) n = Panic))
  \/ exists c1 hi hh raw r a2,
       ready V input p c c1 hi hh raw
       /\ unpack_execute (ce_E V) (ce_Z V) (ce_pick V) (ce_sched V)
            (mkUnpackReq hi hh raw (parse_path output) (ask_user V (cp_force p) verbose c1)) (c_a c1)
          = (r, a2)
       /\ same_disk (fst a2) (disk c') /\ snd (c_a c') = snd a2
       /\ (r <> Ok tt -> o = omap TUnpack r /\ disk c' = fst a2)
       /\ (r = Ok tt -> o = Ok tt \/ exists e, o = Err (TCli e) /\ hash_error_of e)
       /\ (cp_hash p = false -> o = omap TUnpack r /\ disk c' = fst a2).
Proof.
  intros V input output verbose p c o c' H. unfold unpack_cli in H.
  unfold bind at 1, up at 1 in H. rewrite map_err_run, storage_run in H.
  destruct (read_file (os_path input) (disk c)) as [r1 s1] eqn:RF. cbn [fst snd] in H.
  pose proof (read_file_rng (os_path input) (disk c)) as RN1. rewrite RF in RN1. cbn [snd] in RN1.
  destruct (read_file_any _ _ _ _ RF) as (D1 & C1 & R1).
  assert (R1' : (exists fi, r1 = Ok fi) \/ exists e, r1 = Err e)
    by (destruct R1 as [[-> _]|[(i & plan & -> & _)|[-> _]]]; eauto).
  destruct R1' as [(fi & ->)|(e & ->)]; cbn [omap] in H.
  2:{ injection H as <- <-. left. split; [exact D1|]. split; [reflexivity|]. do 2 (split; [discriminate|]). discriminate. }
  unfold bind at 1, up at 1 in H. rewrite map_err_run in H.
  destruct (read_header p (set_disk s1 c)) as [r2 c2] eqn:RH. cbn [fst snd] in H.
  assert (RN2 : s_rng (disk c2) = s_rng s1).
  { unfold read_header in RH. destruct (cp_header p) as [hp|].
    - unfold bind in RH. rewrite storage_run in RH. pose proof (read_file_rng (os_path hp) (disk (set_disk s1 c))) as X.
      destruct (fst (read_file (os_path hp) (disk (set_disk s1 c)))); cbn [omap] in RH; unfold ret in RH; injection RH as _ <-; exact X.
    - unfold ret in RH. injection RH as _ <-. reflexivity. }
  destruct (read_header_any _ _ _ _ RH) as (D2 & T2 & Y2 & I2 & NP2 & ND2 & _ & C2 & K2).
  change (snd (c_a c2) = snd (c_a c)) in T2. change (c_tty c2 = c_tty c) in Y2. change (c_stdin c2 = c_stdin c) in I2.
  assert (D12 : same_disk (disk c) (disk c2)) by (eapply same_disk_trans; [exact D1|exact D2]).
  destruct r2 as [fh|e| |]; try congruence; cbn [omap] in H.
  2:{ injection H as <- <-. left. split; [exact D12|]. split; [exact T2|]. do 2 (split; [discriminate|]). discriminate. }
  unfold bind at 1, up at 1 in H. rewrite map_err_run in H.
  destruct (get_secret V (cp_key p) Direct c2) as [r3 c3] eqn:GS. cbn [fst snd] in H.
  destruct (get_secret_any _ _ _ _ _ _ GS) as (D3 & T3 & C3 & ND3 & P3 & Y3 & _).
  destruct (get_secret_rest _ _ _ _ _ _ GS) as (RN3 & I3).
  assert (D13 : same_disk (disk c) (disk c3)) by (eapply same_disk_trans; [exact D12|exact D3]).
  destruct r3 as [raw|e| |]; try congruence; cbn [omap] in H.
  2:{ injection H as <- <-. left. split; [exact D13|]. split; [congruence|]. do 2 (split; [discriminate|]). discriminate. }
  2:{ injection H as <- <-. left. split; [exact D13|]. split; [congruence|]. do 2 (split; [discriminate|]). intros _. apply P3. reflexivity. }
  unfold bind at 1, up at 1 in H. rewrite map_err_run in H.
  destruct fi as [hi|q]; cbn [try_handle] in H; unfold ret, err in H; cbn [fst snd omap] in H.
  2:{ injection H as <- <-. left. split; [exact D13|]. split; [congruence|]. do 2 (split; [discriminate|]). discriminate. }
  unfold bind at 1 in H. rewrite on_a_run, map_err_run in H. cbn [fst snd] in H.
  match type of H with context [unpack_execute ?a ?b ?d ?e ?f ?g] => destruct (unpack_execute a b d e f g) as [r a2] eqn:UX end.
  cbn [fst snd] in H. right.
  exists c3, hi, (ok_handle fh), raw, r, a2. split; [|split; [exact UX|]].
  { assert (N1 : no_faults (disk c) -> no_faults (disk (set_disk s1 c))) by (intros N; rewrite set_disk_disk, (C1 N); exact N).
    constructor; auto.
    - rewrite T3, T2. reflexivity.
    - congruence.
    - intros N. apply C3. rewrite (C2 (N1 N)). exact (N1 N).
    - rewrite (I3 []). unfold stdin_left, after_key. cbn [c_stdin]. rewrite I2. reflexivity.
    - destruct R1 as [[X _]|[(i & plan & X & ST & PL)|[X _]]]; try discriminate X. injection X as ->. eauto 6.
    - specialize (K2 _ eq_refl). destruct (cp_header p) as [hp|]; [|subst fh; reflexivity].
      destruct K2 as [->|(j & plan & -> & ST & PL)]; [left; reflexivity|]. right. exists j, plan. split; [reflexivity|].
      split; [|auto]. rewrite <- ST. symmetry. apply stat_disk. exact D1.
    - exists (c_tty c3). eapply yields_un; [apply un_disk; exact D12|exact I2|rewrite Y2; reflexivity|]. apply Y3. reflexivity. }
  assert (HH : forall o c', (if cp_hash p then up (hash_files V [input]) else ret tt) (set_a a2 c3) = (o, c') ->
    same_disk (fst a2) (disk c') /\ snd (c_a c') = snd a2 /\ (o = Ok tt \/ exists e, o = Err (TCli e) /\ hash_error_of e)
    /\ (cp_hash p = false -> o = Ok tt /\ disk c' = fst a2)).
  { clear. intros o c' H. destruct (cp_hash p).
    - unfold up in H. rewrite map_err_run in H. destruct (hash_files V [input] (set_a a2 c3)) as [ro c4] eqn:HF.
      cbn [fst snd] in H. injection H as <- <-.
      destruct (hash_files_any _ _ _ _ _ HF) as (D & T & _ & _ & EE & NP & ND & _).
      split; [exact D|]. split; [exact T|]. split; [|discriminate].
      destruct ro as [[]|e| |]; try congruence; [left; reflexivity|right]. eexists. split; [reflexivity|]. apply EE. reflexivity.
    - unfold ret in H. injection H as <- <-. split; [apply same_disk_refl|]. split; [reflexivity|].
      split; [auto|]. intros _. split; reflexivity. }
  destruct r as [[]|e| |]; cbn [omap] in H.
  - destruct (HH _ _ H) as (A & B & C & D). split; [exact A|]. split; [exact B|]. split; [congruence|].
    split; [intros _; exact C|exact D].
  - injection H as <- <-. split; [apply same_disk_refl|]. split; [reflexivity|]. split; [intros _; split; reflexivity|].
    split; [discriminate|]. intros _; split; reflexivity.
  - injection H as <- <-. split; [apply same_disk_refl|]. split; [reflexivity|]. split; [intros _; split; reflexivity|].
    split; [discriminate|]. intros _; split; reflexivity.
  - injection H as <- <-. split; [apply same_disk_refl|]. split; [reflexivity|]. split; [intros _; split; reflexivity|].
    split; [discriminate|]. intros _; split; reflexivity.
Qed.

(** ** What is overwritten *)

Lemma at_place_disk : forall s s' x, same_disk s s' -> at_place s' x = at_place s x.
Proof. intros s s' x (A & B & _). unfold at_place. rewrite A, B. reflexivity. Qed.
Lemma tree_disk : forall s s', same_disk s s' -> tree_ok s -> tree_ok s'.
Proof. intros s s' (A & _) H. unfold tree_ok. rewrite A. exact H. Qed.
Lemma inodes_disk : forall s s', same_disk s s' -> inodes_ok s -> inodes_ok s'.
Proof. intros s s' (A & _ & B & _) H. unfold inodes_ok. rewrite A, B. exact H. Qed.
Lemma output_disk : forall s s' o q0 names, same_disk s s' -> output_at s o q0 names -> output_at s' o q0 names.
Proof.
  intros s s' o q0 names SD [(c0 & B1 & B2) D W I]. pose proof SD as (A & _). constructor.
  - exists c0. split; [exact B1|]. rewrite (FSFacts.resolve_disk _ _ _ _ SD). exact B2.
  - rewrite A. exact D.
  - rewrite A. exact W.
  - unfold no_links_inside. rewrite A. exact I.
Qed.

Lemma walk_straight : forall t f l a n q, ~ In Up a ->
  (forall b d, lexical q (a ++ [Nm n]) = b ++ d -> inside q b -> d <> [] -> lookup t b = Some NDir) ->
  (forall target, lookup t (lexical q (a ++ [Nm n])) <> Some (NLink target)) ->
  walk l t f q (a ++ [Nm n]) = Some (lexical q (a ++ [Nm n])).
Proof.
  intros t f l. induction a as [|[| |m] a IH]; intros n q NU D NL; cbn [app lexical] in *.
  - rewrite walk_nm. destruct (lookup t (q ++ [n])) as [[|i|target]|] eqn:L; auto.
    + rewrite walk_nil. reflexivity.
    + destruct (NL target eq_refl).
  - rewrite walk_cur. apply IH; auto. intros X. apply NU. right. exact X.
  - destruct NU. left. reflexivity.
  - rewrite walk_nm. assert (X : exists d, d <> [] /\ lexical (q ++ [m]) (a ++ [Nm n]) = (q ++ [m]) ++ d).
    { assert (NU' : ~ In Up a) by (intros X; apply NU; right; exact X). clear - NU'.
      revert NU'. generalize (q ++ [m]) as p. induction a as [|[| |k] a IH]; intros p NU; cbn [app lexical].
      - exists [n]. split; [discriminate|reflexivity].
      - apply IH. intros X. apply NU. right. exact X.
      - destruct NU. left. reflexivity.
      - destruct (IH (p ++ [k])) as (d & _ & E); [intros X; apply NU; right; exact X|].
        exists (k :: d). split; [discriminate|]. rewrite E, <- app_assoc. reflexivity. }
    destruct X as (d & ND & E).
    rewrite (D (q ++ [m]) d E) by (try exact ND; exists [m]; reflexivity).
    apply IH.
    + intros X. apply NU. right. exact X.
    + intros b d' E' (rel & ->) ND'. apply (D _ d' E'); [|exact ND']. exists ([m] ++ rel). rewrite app_assoc. reflexivity.
    + exact NL.
Qed.


Lemma found_key : forall t r n, lookup t r = Some n -> r <> [] -> In r (map fst t).
Proof.
  intros t r n L NR. destruct r as [|x y]; [contradiction|].
  unfold lookup in L. apply find_in in L. apply (in_map fst) in L. exact L.
Qed.

Lemma straight_walk : forall k s st c0 q0 names a n i, tree_ok s ->
  walk k (s_nodes s) true st c0 = Some q0 -> lookup (s_nodes s) q0 = Some NDir -> ~ In Up a ->
  lookup (s_nodes s) (lexical (q0 ++ names) (a ++ [Nm n])) = Some (NFile i) ->
  walk k (s_nodes s) true st (c0 ++ map Nm names ++ a ++ [Nm n])
  = Some (lexical (q0 ++ names) (a ++ [Nm n])).
Proof.
  intros k s st c0 q0 names a n i TO B2 D NU L.
  assert (L0 : lexical (q0 ++ names) (a ++ [Nm n]) = lexical q0 ((map Nm names ++ a) ++ [Nm n])).
  { rewrite <- app_assoc, (lexical_app (map Nm names)), lexical_names. reflexivity. }
  rewrite L0 in *.
  destruct (walk_app (s_nodes s) true (map Nm names ++ a ++ [Nm n]) k _ _ _ B2 D) as (l' & _ & E).
  { intros X. apply app_eq_nil in X. destruct X as [_ X]. apply app_eq_nil in X. destruct X as [_ X]. discriminate. }
  rewrite E, app_assoc. apply walk_straight.
  - intros X. apply in_app_or in X. destruct X as [X|X]; [|contradiction].
    apply in_map_iff in X. destruct X as (y & Y & _). discriminate.
  - intros b d EQ _ ND. rewrite EQ in L. eapply ancestors; [exact TO|exact ND|]. eapply found_key; [exact L|].
    intros X. apply app_eq_nil in X. destruct X as [_ X]. contradiction.
  - intros target. rewrite L. discriminate.
Qed.

Lemma straight_exists : forall s o q0 names cs i, tree_ok s -> output_at s o q0 names -> straight cs ->
  lookup (s_nodes s) (lexical (q0 ++ names) cs) = Some (NFile i) ->
  resolve true s (below_path o cs) = Some (lexical (q0 ++ names) cs).
Proof.
  intros s o q0 names cs i TO [(c0 & B1 & B2) D _ I] (a & n & -> & NU) L.
  rewrite resolve_eq in B2. rewrite resolve_eq. unfold below_path. rewrite B1.
  rewrite <- app_assoc. unfold start in *. cbn [p_abs p_comps] in *.
  exact (straight_walk MAX_LINKS s _ c0 q0 names a n i TO B2 D NU L).
Qed.

Lemma temp_with : forall pick s, with_temp s (snd (create_temp_file pick s)).
Proof.
  intros pick s. destruct (create_temp_file pick s) as [o s1] eqn:C. cbn [snd].
  destruct (create_temp_any True _ _ _ _ C) as [[(A & _ & _ & B & _) _]|(T & plan & _ & L & _ & TM & _)].
  - split; auto.
  - split; [exact (tm_cwd _ _ _ _ TM)|]. right. exists T. split; [exact L|exact (tm_nodes _ _ _ _ TM)].
Qed.

Lemma with_temp_disk : forall s s' s1, same_disk s s' -> with_temp s' s1 -> with_temp s s1.
Proof.
  intros s s' s1 (A & _ & N & B & _) [C D]. split; [congruence|]. rewrite A, N in D. exact D.
Qed.

Lemma temp_exists : forall s s1 p q n, with_temp s s1 -> resolve true s p = Some q ->
  lookup (s_nodes s) q = Some n -> exists_path s1 p = true.
Proof.
  intros s s1 p q n [C D] R L.
  assert (G : grown (s_nodes s) (s_nodes s1)).
  { destruct D as [->|(T & LT & ->)]; [apply grown_refl|apply grown_add; exact LT]. }
  unfold exists_path, stat. rewrite (resolve_grown_some _ _ _ _ _ _ G C R L).
  rewrite (G q n L). reflexivity.
Qed.

(** The answers matter only for the paths in the archive that was decoded. *)
Definition asks_of (Z : zip_env) (out : path) {S Er A} (ask : list path -> option (list bool))
  (F : (list path -> option (list bool)) -> M S Er A) (s : S) : Prop :=
  (forall ask', F ask' s = F ask s)
  \/ exists ps, offered Z out ps /\ forall ask', ask' ps = ask ps -> F ask' s = F ask s.
Lemma asks_before : forall Z out {S Er A B} ask (m : M S Er A) (k : _ -> A -> M S Er B) s,
  (forall x s', m s = (Ok x, s') -> asks_of Z out ask (fun f => k f x) s') ->
  asks_of Z out ask (fun f => bind m (k f)) s.
Proof.
  intros Z out S Er A B ask m k s H. unfold asks_of, bind in *.
  destruct (m s) as [[x|e| |] s']; try (left; reflexivity). apply H. reflexivity.
Qed.
Lemma asks_after : forall Z out {S Er A B} ask (F : _ -> M S Er A) (k : A -> M S Er B) s,
  asks_of Z out ask F s -> asks_of Z out ask (fun f => bind (F f) k) s.
Proof.
  intros Z out S Er A B ask F k s [H|(ps & O & H)]; [left|right; exists ps; split; [exact O|]];
    intros ask'; unfold bind; [rewrite H; reflexivity|]. intros X. rewrite (H _ X). reflexivity.
Qed.
Lemma unpack_asks : forall E Z pick sched hi hh raw out ask a,
  asks_of Z out ask (fun f => unpack_execute E Z pick sched (mkUnpackReq hi hh raw out f)) a.
Proof.
  intros E Z pick sched hi hh raw out ask a. unfold unpack_execute, unpack_execute_bs.
  apply asks_before. intros [h0|d] a1 _; [|left; reflexivity].
  cbn [ur_hdr ur_raw_key ur_in]. apply asks_before. intros h1 a2 _.
  apply asks_before. intros cap a3 _. apply asks_after.
  assert (UA : asks_of Z out ask (fun f => unpack_archive Z sched (mkUnpackReq hi hh raw out f) h1) (fst a3)).
  { unfold asks_of, unpack_archive. cbn [ur_out ur_ask].
    destruct (run_handle (ow_dev dev_rewind) h1 (fst a3)) as [[[u|e| |] h2] s1]; try (left; reflexivity).
    destruct (z_decode Z (s_data s1 (h_ino h1))) as [zs|] eqn:ZD; [|left; reflexivity].
    right. exists (map fst (entities out zs)). split; [exists (s_data s1 (h_ino h1)), zs; split; [exact ZD|reflexivity]|].
    intros ask' ->. reflexivity. }
  unfold asks_of, on_sys, zoom. destruct UA as [H|(ps & O & H)]; [left|right; exists ps; split; [exact O|]];
    intros ask'; [rewrite H; reflexivity|]. intros X. rewrite (H _ X). reflexivity.
Qed.

Lemma path_eq_dec : forall a b : path, {a = b} + {a <> b}.
Proof.
  decide equality; [|apply Bool.bool_dec]. apply list_eq_dec. decide equality. apply string_dec.
Qed.
(** [ask] for the paths in the archive only. *)
Lemma unpack_pinned : forall E Z pick sched hi hh raw out ask a,
  exists ask', unpack_execute E Z pick sched (mkUnpackReq hi hh raw out ask') a
               = unpack_execute E Z pick sched (mkUnpackReq hi hh raw out ask) a
    /\ forall ps l, ask' ps = Some l -> offered Z out ps /\ ask ps = Some l.
Proof.
  intros E Z pick sched hi hh raw out ask a.
  destruct (unpack_asks E Z pick sched hi hh raw out ask a) as [H|(ps & O & H)].
  - exists (fun _ => None). split; [apply H|discriminate].
  - exists (fun x => if list_eq_dec path_eq_dec x ps then ask x else None). split.
    + apply H. destruct (list_eq_dec path_eq_dec ps ps); [reflexivity|contradiction].
    + intros x l X. destruct (list_eq_dec path_eq_dec x ps) as [->|]; [auto|discriminate].
Qed.

Theorem unpack_consent : forall V input output verbose p c o c' q0 names x i l,
  tree_ok (disk c) -> lookup (s_nodes (disk c)) (s_cwd (disk c)) = Some NDir -> inodes_ok (disk c) ->
  output_at (disk c) (parse_path output) q0 names -> cp_force p = Prompt ->
  unpack_cli V input output verbose p c = (o, c') ->
  at_place (disk c) x = Some (SFile i l) -> at_place (disk c') x <> Some (SFile i l) ->
  exists cs x', x' = lexical (q0 ++ names) cs /\ inside (q0 ++ names) x'
    /\ lookup (s_nodes (disk c)) x' = Some (NFile i)
    /\ (straight cs ->
        exists s1 ls ps, with_temp (disk c) s1 /\ lines (stdin_left (cp_key p) c) ls
          /\ offered (ce_Z V) (parse_path output) ps
          /\ agreed s1 ls ps (below_path (parse_path output) cs)).
Proof.
  intros V input output verbose p c o c' q0 names x i l TO CW IO OA FP H AT CH.
  destruct (unpack_cli_any _ _ _ _ _ _ _ _ H) as [(SD & _)|(c1 & hi & hh & raw & r & a2 & RD & UX & SD & _)].
  { rewrite (at_place_disk _ _ _ SD) in CH. contradiction. }
  pose proof (rd_disk _ _ _ _ _ _ _ _ RD) as SD1. pose proof SD1 as (N1 & _ & X1 & W1 & _).
  assert (CH2 : at_place (fst a2) x <> at_place (disk c1) x).
  { rewrite <- (at_place_disk _ _ _ SD), (at_place_disk _ _ _ SD1), AT. exact CH. }
  destruct (c_a c1) as [s1 tr] eqn:CA. assert (DC : disk c1 = s1) by (unfold disk; rewrite CA; reflexivity).
  rewrite DC in *.
  destruct (unpack_pinned (ce_E V) (ce_Z V) (ce_pick V) (ce_sched V) hi hh raw (parse_path output)
              (ask_user V (cp_force p) verbose c1) (s1, tr)) as (ask' & PIN & OFF).
  rewrite <- PIN in UX. unfold unpack_execute in UX.
  assert (CW1 : lookup (s_nodes s1) (s_cwd s1) = Some NDir) by (rewrite N1, W1; exact CW).
  destruct (unpack_does _ _ _ _ _ _ _ _ _ _ _ _ (tree_disk _ _ SD1 TO) CW1 (inodes_disk _ _ SD1 IO)
    (output_disk _ _ _ _ _ SD1 OA : output_at s1 (ur_out (mkUnpackReq hi hh raw (parse_path output) _)) q0 names) UX)
    as (paths & answers & es & AN & _ & _ & AL).
  specialize (AL x CH2). unfold allowed_change in AL. cbn [ur_out ur_ask] in *.
  assert (LX : lookup (s_nodes (disk c)) x = Some (NFile i)).
  { unfold at_place in AT. destruct (lookup (s_nodes (disk c)) x) as [[|j|t]|]; try discriminate. injection AT as -> _. reflexivity. }
  assert (ACC : exists x', accepted_place paths answers (parse_path output) (q0 ++ names) x'
                 /\ lookup (s_nodes (disk c)) x' = Some (NFile i)).
  { rewrite (at_place_disk _ _ _ SD1), AT in AL.
    destruct AL as [[_ X]|[(_ & X & _)|[(_ & X & _)|[X|(j & r' & X & Y & Z)]]]]; try discriminate; [eauto|].
    rewrite N1 in Y, Z. exists r'. split; [exact X|]. congruence. }
  destruct ACC as (x' & (cs & (j & J1 & J2) & E & IN) & LX').
  exists cs, x'. split; [exact E|]. split; [exact IN|]. split; [exact LX'|]. intros ST.
  destruct AN as [->|AN]; [destruct j; discriminate J2|].
  apply OFF in AN. destruct AN as (OF & AN).
  set (s2 := snd (create_temp_file (ce_pick V) s1)).
  assert (WT : with_temp (disk c) s2) by (eapply with_temp_disk; [exact SD1|apply temp_with]).
  destruct (lines_exist (stdin_left (cp_key p) c)) as (ls & LS).
  exists s2, ls, paths. split; [exact WT|]. split; [exact LS|]. split; [exact OF|].
  unfold ask_user in AN. rewrite CA in AN. cbn [fst] in AN. fold s2 in AN.
  destruct (zip_questions s2 (cp_force p) verbose paths c1) as [zo c2] eqn:ZQ. cbn [fst] in AN.
  destruct zo as [bs|e| |]; try discriminate. injection AN as ->.
  destruct (zip_questions_any _ _ _ _ _ _ _ ZQ) as (_ & _ & Q). rewrite FP in Q.
  rewrite <- (rd_stdin _ _ _ _ _ _ _ _ RD) in LS. destruct (Q eq_refl _ LS) as (Q1 & _).
  destruct (Q1 _ eq_refl) as (rr & AS). exists answers, rr, j.
  split; [exact AS|]. split; [exact J1|]. split; [exact J2|].
  subst x'. eapply temp_exists; [exact WT| |exact LX']. eapply straight_exists; eauto.
Qed.

(** ** Confinement *)

Theorem unpack_cli_confined : forall V input output verbose p c o c' q0 names,
  tree_ok (disk c) -> lookup (s_nodes (disk c)) (s_cwd (disk c)) = Some NDir -> inodes_ok (disk c) ->
  output_at (disk c) (parse_path output) q0 names -> no_outside_names (disk c) (q0 ++ names) ->
  unpack_cli V input output verbose p c = (o, c') ->
  (forall x, at_place (disk c') x <> at_place (disk c) x ->
     inside (q0 ++ names) x
     \/ (resolve false (disk c) (temp_path (ce_pick V) (disk c)) = Some x /\ at_place (disk c) x = None)
     \/ (on_the_way q0 names x /\ at_place (disk c) x = None /\ at_place (disk c') x = Some SDir))
  /\ (no_faults (disk c) ->
      (forall r, resolve false (disk c) (temp_path (ce_pick V) (disk c)) = Some r -> ~ inside (q0 ++ names) r) ->
      o = Ok tt -> temp_wiped (disk c) (disk c') (temp_path (ce_pick V) (disk c))).
Proof.
  intros V input output verbose p c o c' q0 names TO CW IO OA NO H.
  destruct (unpack_cli_any _ _ _ _ _ _ _ _ H) as [(SD & _ & NK & _)|(c1 & hi & hh & raw & r & a2 & RD & UX & SD & _ & NK & OK & _)].
  { split; [|intros _ _ X; contradiction]. intros x X. rewrite (at_place_disk _ _ _ SD) in X. contradiction. }
  pose proof (rd_disk _ _ _ _ _ _ _ _ RD) as SD1. pose proof SD1 as (N1 & D1 & X1 & W1 & T1 & L1).
  destruct (c_a c1) as [s1 tr] eqn:CA. assert (DC : disk c1 = s1) by (unfold disk; rewrite CA; reflexivity).
  pose proof (rd_rng _ _ _ _ _ _ _ _ RD) as RN.
  rewrite DC in *. unfold unpack_execute in UX.
  assert (CW1 : lookup (s_nodes s1) (s_cwd s1) = Some NDir) by (rewrite N1, W1; exact CW).
  assert (TP : temp_path (ce_pick V) s1 = temp_path (ce_pick V) (disk c)) by (unfold temp_path; rewrite T1, RN; reflexivity).
  assert (OA1 : output_at s1 (ur_out (mkUnpackReq hi hh raw (parse_path output) (ask_user V (cp_force p) verbose c1))) q0 names)
    by (cbn [ur_out]; eapply output_disk; eauto).
  destruct (unpack_does _ _ _ _ _ _ _ _ _ _ _ _ (tree_disk _ _ SD1 TO) CW1 (inodes_disk _ _ SD1 IO) OA1 UX)
    as (paths & answers & es & _ & AD & _ & _).
  destruct (unpack_confined _ _ _ _ _ _ _ _ _ _ _ _ _ (tree_disk _ _ SD1 TO) CW1 (inodes_disk _ _ SD1 IO) OA1 UX AD) as [_ CF].
  assert (NO1 : no_outside_names s1 (q0 ++ names)) by (unfold no_outside_names; rewrite N1; exact NO).
  split.
  - intros x CH. rewrite (at_place_disk _ _ _ SD) in *. rewrite <- (at_place_disk _ _ x SD1) in *.
    specialize (CF NO1 x CH). rewrite TP, (FSFacts.resolve_disk _ _ _ _ SD1) in CF. exact CF.
  - intros NF NT ->.
    assert (R : r = Ok tt).
    { destruct r as [[]|e| |]; [reflexivity| | |]; destruct NK as [Y _]; discriminate. }
    subst r. pose proof (rd_calm _ _ _ _ _ _ _ _ RD NF) as NF1. rewrite DC in NF1.
    assert (HH : forall x, ur_hdr (mkUnpackReq hi hh raw (parse_path output) (ask_user V (cp_force p) verbose c1)) = Some x -> h_ino x < s_next s1).
    { cbn [ur_hdr]. intros x ->. pose proof (rd_header _ _ _ _ _ _ _ _ RD) as RH.
      destruct (cp_header p) as [hp|]; [|discriminate]. destruct RH as [Y|(j & plan & Y & ST & _)]; [discriminate|].
      injection Y as ->. cbn [h_ino]. rewrite X1. unfold stat in ST.
      destruct (resolve true (disk c) (os_path hp)) as [y|]; [|discriminate]. eapply IO. exact ST. }
    assert (NT1 : forall y, resolve false s1 (temp_path (ce_pick V) s1) = Some y -> ~ inside (q0 ++ names) y)
      by (intros y; rewrite TP, (FSFacts.resolve_disk _ _ _ _ SD1); apply NT).
    pose proof (unpack_temp_gone _ _ _ _ _ _ _ _ _ (tree_disk _ _ SD1 TO) CW1 (inodes_disk _ _ SD1 IO) OA1 tr a2 UX NF1 HH NT1) as TW.
    rewrite TP in TW. destruct TW as (T & n & before & cs & A1 & A2 & A3 & A4 & A5 & A6).
    pose proof SD as (N2 & D2 & _ & _ & _ & L2).
    exists T, n, before, cs. rewrite (FSFacts.resolve_disk _ _ _ _ SD1) in A1. rewrite <- X1.
    split; [exact A1|]. split; [rewrite (at_place_disk _ _ _ SD); exact A2|]. split; [rewrite D2; exact A3|].
    split; [unfold added in *; rewrite L2, A4, L1; reflexivity|]. split; [exact A5|exact A6].
Qed.
