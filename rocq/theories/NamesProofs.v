(** Proofs about names that are not UTF-8. *)
From Coq Require Import List Arith NArith ZArith Ascii String Bool Lia.
From Verif Require Import Bytes Outcome IO Primitives Crypto Header Stream KeyModel EncDec.
From Verif Require Import Overwrite Hash FS Erase Archive Cli.
From Verif Require Import FSSpec FSFacts IOFacts ArchiveSpec EraseProofs EraseDirProofs UnpackProofs PackProofs ArchiveWalk.
From Verif Require Import CliSpec CliKeys CliRuns CliCommands CliPack Utf8Facts SharedCalls RestoreSpec RestorePack RestoreProofs RestoreFiles Names NamesSpec.
Import ListNotations.
Local Open Scope nat_scope.
Local Open Scope list_scope.

(** ** UTF-8 *)

Lemma ascii_not : forall x lo hi, between 0 127 x = true -> (128 <= lo)%N -> between lo hi x = false.
Proof.
  intros x lo hi H L. unfold between in *. apply andb_true_iff in H. destruct H as [_ H]. apply N.leb_le in H.
  apply andb_false_iff. left. apply N.leb_gt. lia.
Qed.

Lemma utf8_cut : forall n a x b, List.length a <= n -> between 0 127 x = true ->
  utf8 (a ++ x :: b) = utf8 a && utf8 b.
Proof.
  induction n as [|n IH]; intros a x b L X.
  - destruct a; [|cbn in L; lia]. cbn [utf8 app]. rewrite X. reflexivity.
  - assert (NO : forall lo hi, (128 <= lo)%N -> between lo hi x = false) by (intros; apply ascii_not; assumption).
    assert (NT : tail_byte x = false) by (apply NO; lia).
    assert (N1 : between 160 191 x = false) by (apply NO; lia).
    assert (N2 : between 128 159 x = false) by (apply NO; lia).
    assert (N3 : between 144 191 x = false) by (apply NO; lia).
    assert (N4 : between 128 143 x = false) by (apply NO; lia).
    destruct a as [|a0 a]; [cbn [utf8 app]; rewrite X; reflexivity|].
    cbn [List.length] in L. cbn [utf8 app].
    destruct (between 0 127 a0); [apply IH; [lia|exact X]|].
    destruct a as [|a1 a]; cbn [app].
    + rewrite NT, N1, N2, N3, N4. destruct (between 194 223 a0); [reflexivity|].
      destruct b as [|b1 b]; [reflexivity|].
      destruct (between 224 239 a0).
      * destruct (between 224 224 a0), (between 237 237 a0); reflexivity.
      * destruct b; [reflexivity|]. destruct (between 240 240 a0), (between 244 244 a0), (between 240 244 a0); reflexivity.
    + cbn [List.length] in L. destruct (between 194 223 a0).
      { rewrite IH by (exact X || lia). destruct (tail_byte a1); reflexivity. }
      destruct a as [|a2 a]; cbn [app].
      * rewrite NT. destruct (between 224 239 a0).
        { destruct (if between 224 224 a0 then _ else _); reflexivity. }
        destruct b as [|b1 b]; [reflexivity|].
        destruct (between 240 244 a0), (if between 240 240 a0 then _ else _); reflexivity.
      * cbn [List.length] in L. destruct (between 224 239 a0).
        { rewrite IH by (exact X || lia). rewrite !andb_assoc. reflexivity. }
        destruct a as [|a3 a]; cbn [app].
        -- rewrite NT. destruct (between 240 244 a0), (if between 240 240 a0 then _ else _), (tail_byte a2); reflexivity.
        -- cbn [List.length] in L. rewrite IH by (exact X || lia). rewrite !andb_assoc. reflexivity.
Qed.

Definition text (s : string) : bool := utf8 (list_byte_of_string s).
Lemma text_iff : forall s, text s = true <-> is_name s.
Proof. intros s. apply utf8_iff. Qed.

Lemma bytes_append : forall a b,
  list_byte_of_string (String.append a b) = list_byte_of_string a ++ list_byte_of_string b.
Proof.
  unfold list_byte_of_string. induction a as [|c a IH]; intros b; cbn; [reflexivity|]. rewrite IH. reflexivity.
Qed.
Lemma text_slash : forall a b, text (String.append a (String slash b)) = text a && text b.
Proof.
  intros a b. unfold text. rewrite bytes_append.
  change (list_byte_of_string (String slash b)) with (byte_of_ascii slash :: list_byte_of_string b).
  apply (utf8_cut (List.length (list_byte_of_string a))); [lia|reflexivity].
Qed.

Lemma text_concat : forall l, text (String.concat "/" l) = forallb text l.
Proof.
  induction l as [|a l IH]; [reflexivity|].
  destruct l as [|b l].
  - cbn [String.concat forallb]. rewrite andb_true_r. reflexivity.
  - change (String.concat "/" (a :: b :: l)) with (String.append a (String slash (String.concat "/" (b :: l)))).
    rewrite text_slash, IH. reflexivity.
Qed.

Lemma text_render : forall p, text (render p) = forallb text (map comp_string (p_comps p)).
Proof.
  intros p. unfold render. rewrite <- text_concat. destruct (p_abs p); [|reflexivity].
  change (String.append "/" ?x) with (String.append "" (String slash x)). rewrite text_slash. reflexivity.
Qed.
Lemma render_named : forall p, text (render p) = true <-> named p.
Proof.
  intros p. rewrite text_render, forallb_forall. unfold named. split.
  - intros H n I. apply text_iff, H. apply (in_map comp_string) in I. exact I.
  - intros H x I. apply in_map_iff in I. destruct I as [[| |n] [<- I]]; [reflexivity..|].
    apply text_iff, H, I.
Qed.
Lemma to_str_some : forall p, named p -> to_str p = Some (render p).
Proof. intros p H. apply render_named in H. unfold to_str. fold (text (render p)). rewrite H. reflexivity. Qed.
Lemma to_str_none : forall p, ~ named p -> to_str p = None.
Proof.
  intros p H. unfold to_str. fold (text (render p)). destruct (text (render p)) eqn:T; [|reflexivity].
  exfalso. apply H, render_named, T.
Qed.
Lemma named_dec : forall p, {named p} + {~ named p}.
Proof.
  intros p. destruct (text (render p)) eqn:T; [left; apply render_named, T|right].
  intros H. apply render_named in H. congruence.
Qed.

(** Pieces of a text are. *)
Lemma split_append : forall s x l, split_slash s = x :: l ->
  (l = [] /\ s = x) \/ exists s', s = String.append x (String slash s') /\ l = split_slash s'.
Proof.
  induction s as [|c s IH]; intros x l H; cbn [split_slash] in H.
  - injection H as <- <-. left. auto.
  - destruct (Ascii.eqb c slash) eqn:C.
    + injection H as <- <-. right. exists s. apply Ascii.eqb_eq in C. subst c. auto.
    + destruct (split_slash s) as [|y m] eqn:S; injection H as <- <-.
      * destruct s; cbn in S; [discriminate|]. destruct (Ascii.eqb _ _); [discriminate|]. destruct (split_slash s); discriminate.
      * destruct (IH y m eq_refl) as [[-> ->]|(s' & -> & ->)]; [left; auto|right; exists s'; auto].
Qed.
Lemma split_text : forall n s, List.length (split_slash s) <= n -> text s = true ->
  forallb text (split_slash s) = true.
Proof.
  induction n as [|n IH]; intros s L T; destruct (split_slash s) as [|x l] eqn:S; try reflexivity; [cbn in L; lia|].
  destruct (split_append _ _ _ S) as [[-> ->]|(s' & -> & ->)]; cbn [forallb].
  - rewrite T. reflexivity.
  - rewrite text_slash in T. apply andb_true_iff in T. destruct T as [-> T]. cbn in L.
    rewrite IH; [reflexivity|lia|exact T].
Qed.
Lemma os_path_named : forall f, is_name f -> named (os_path f).
Proof.
  intros f H n I. unfold os_path in I. destruct (String.eqb f ""); cbn [p_comps] in I.
  - destruct I as [E|[E|[]]]; injection E as <-; apply text_iff; reflexivity.
  - apply text_iff in H. unfold parse_path in I. cbn [p_comps] in I. apply in_flat_map in I.
    destruct I as (x & I & IX). pose proof (split_text _ f (le_n _) H) as A. rewrite forallb_forall in A.
    specialize (A x I). unfold piece_comp in IX.
    destruct (String.eqb x ""); [destruct IX|]. destruct (String.eqb x "."); [destruct IX as [E|[]]; discriminate|].
    destruct (String.eqb x ".."); [destruct IX as [E|[]]; discriminate|].
    destruct IX as [E|[]]. injection E as <-. apply text_iff, A.
Qed.

(** ** Resolved names *)

Definition comps_ok (cs : list comp) : Prop := forall n, In (Nm n) cs -> is_name n.

Lemma removelast_ok : forall (q : cpath), Forall is_name q -> Forall is_name (removelast q).
Proof.
  intros q H. rewrite Forall_forall in *. intros x I. apply H.
  destruct q as [|a q]; [destruct I|]. assert (N : a :: q <> []) by discriminate.
  rewrite (app_removelast_last ""%string N). apply in_or_app. left. exact I.
Qed.

Lemma walk_names : forall t, (forall q tg, In (q, NLink tg) t -> named tg) ->
  forall f l cur cs, Forall is_name cur -> comps_ok cs ->
  forall q, walk l t f cur cs = Some q -> Forall is_name q.
Proof.
  intros t LK f. apply (walk_ind t (fun l cur cs => Forall is_name cur -> comps_ok cs ->
    forall q, walk l t f cur cs = Some q -> Forall is_name q)).
  - intros l cur C _ q H. rewrite walk_nil in H. injection H as <-. exact C.
  - intros l cur r IH C K q H. rewrite walk_cur in H. apply (IH C); [intros n I; apply K; right; exact I|exact H].
  - intros l cur r IH C K q H. rewrite walk_up in H.
    apply (IH (removelast_ok _ C)); [intros n I; apply K; right; exact I|exact H].
  - intros l cur n r IH1 IH2 C K q H. rewrite walk_nm in H.
    assert (C' : Forall is_name (cur ++ [n])).
    { apply Forall_app. split; [exact C|]. constructor; [apply K; left; reflexivity|constructor]. }
    assert (K' : comps_ok r) by (intros m I; apply K; right; exact I).
    assert (LINK : forall target l', lookup t (cur ++ [n]) = Some (NLink target) -> l = S l' ->
      walk l' t f (if p_abs target then [] else cur) (p_comps target ++ r) = Some q -> Forall is_name q).
    { intros tg l' LT El W. eapply (IH2 tg l' LT El); [| |exact W].
      - destruct (p_abs tg); [constructor|exact C].
      - intros m I. apply in_app_or in I. destruct I as [I|I]; [|apply K', I].
        destruct (cur ++ [n]) as [|y z] eqn:E; [apply app_eq_nil in E; destruct E; discriminate|].
        cbn [lookup] in LT. apply find_in in LT. exact (LK _ _ LT _ I). }
    destruct (lookup t (cur ++ [n])) as [[|i|target]|] eqn:LT.
    + apply (IH1 eq_refl C' K' q H).
    + destruct r; [injection H as <-; exact C'|discriminate].
    + destruct r as [|c r'].
      * destruct f; [|injection H as <-; exact C'].
        destruct l as [|l']; [discriminate|]. exact (LINK target l' eq_refl eq_refl H).
      * destruct l as [|l']; [discriminate|]. exact (LINK target l' eq_refl eq_refl H).
    + destruct r; [injection H as <-; exact C'|discriminate].
Qed.

Lemma resolve_names : forall f s p q, all_names s -> named p -> resolve f s p = Some q -> Forall is_name q.
Proof.
  intros f s p q A N H. rewrite resolve_eq in H.
  eapply walk_names; [exact (an_links _ A)| |exact N|exact H].
  unfold FSFacts.start. destruct (p_abs p); [constructor|exact (an_cwd _ A)].
Qed.

Lemma names_disk : forall s s', same_disk s s' -> all_names s -> all_names s'.
Proof.
  intros s s' (N & _ & _ & C & _) A. constructor; rewrite ?N, ?C; apply A.
Qed.
Lemma names_made : forall p s o s', all_names s -> named p -> create_or_write p s = (o, s') -> all_names s'.
Proof.
  intros p s o s' A N H.
  destruct (create_or_write_any _ _ _ _ H) as [(e & _ & D)|(h & _ & _ & _ & _ & C & _ & _ & _ & _ & NEW)];
    [exact (names_disk _ _ D A)|].
  destruct NEW as [(q & R & _ & _ & _ & NN & _)|(_ & _ & NN & _)].
  - pose proof (resolve_names _ _ _ _ A N R) as RQ. constructor; rewrite ?NN, ?C.
    + intros r n I. apply in_app_or in I. destruct I as [I|[I|[]]]; [exact (an_nodes _ A _ _ I)|].
      injection I as <- <-. exact RQ.
    + intros r t I. apply in_app_or in I. destruct I as [I|[I|[]]]; [exact (an_links _ A _ _ I)|discriminate].
    + exact (an_cwd _ A).
  - constructor; rewrite ?NN, ?C; apply A.
Qed.

Lemma strip_some : forall p q r, strip_prefix p q = Some r -> q = p ++ r.
Proof.
  induction p as [|x p IH]; intros q r H; cbn in H; [injection H as <-; reflexivity|].
  destruct q as [|y q]; [discriminate|]. destruct (String.eqb x y) eqn:E; [|discriminate].
  apply String.eqb_eq in E. subst y. cbn. f_equal. apply IH, H.
Qed.
Lemma strip_self : forall p r, strip_prefix p (p ++ r) = Some r.
Proof. induction p as [|x p IH]; intros r; cbn; [reflexivity|]. rewrite String.eqb_refl. apply IH. Qed.

Lemma listing_names : forall s p, all_names s -> named p -> Forall named (listing s p).
Proof.
  intros s p A N. unfold listing. destruct (resolve true s p) as [q|]; [|constructor].
  constructor; [exact N|]. rewrite Forall_forall. intros x I. apply in_flat_map in I.
  destruct I as ([r n] & I & IX). cbn [fst] in IX.
  destruct (strip_prefix q r) as [[|m l]|] eqn:S; try contradiction. destruct IX as [<-|[]].
  apply strip_some in S. subst r. pose proof (an_nodes _ A _ _ I) as F. rewrite Forall_app in F.
  destruct F as [_ F]. rewrite Forall_forall in F.
  intros y J. cbn [p_comps] in J. apply in_app_or in J. destruct J as [J|J]; [apply N, J|].
  apply in_map_iff in J. destruct J as (z & E & J). injection E as ->. apply F, J.
Qed.

(** ** The archive *)

Lemma pack_add_same : forall bs es acc s, Forall (fun e => named (entry_path e)) es ->
  pack_add_t bs es acc s = pack_add bs es acc s.
Proof.
  intros bs. induction es as [|e es IH]; intros acc s F; [reflexivity|].
  inversion F as [|e' es' N F' E1]; subst. cbn [pack_add_t pack_add].
  rewrite (to_str_some _ N). destruct e as [h|p]; cbn [entry_path].
  - destruct (has_name _ acc); [reflexivity|].
    destruct (pack_read _ _ _ _) as [[[] data] d']; try reflexivity. apply IH, F'.
  - destruct (has_name _ acc); [reflexivity|]. apply IH, F'.
Qed.
Lemma pack_add_t_state : forall bs es acc s o zs s', pack_add_t bs es acc s = ((o, zs), s') -> s' = s.
Proof.
  intros bs. induction es as [|e es IH]; intros acc s o zs s' H; cbn [pack_add_t] in H; [congruence|].
  destruct (to_str (entry_path e)) as [n|]; [|congruence].
  destruct e as [h|p].
  - destruct (has_name _ acc); [congruence|]. destruct (pack_read _ _ _ _) as [[[] data] d']; try congruence.
    eapply IH, H.
  - destruct (has_name _ acc); [congruence|]. eapply IH, H.
Qed.
Lemma pack_add_t_ok : forall bs es acc s x s', pack_add_t bs es acc s = ((Ok tt, x), s') ->
  Forall (fun e => named (entry_path e)) es.
Proof.
  intros bs. induction es as [|e es IH]; intros acc s x s' H; cbn [pack_add_t] in H; [constructor|].
  destruct (named_dec (entry_path e)) as [N|N]; [|rewrite (to_str_none _ N) in H; discriminate].
  constructor; [exact N|]. rewrite (to_str_some _ N) in H. destruct e as [h|p].
  - destruct (has_name _ acc); [discriminate|]. destruct (pack_read _ _ _ _) as [[[] data] d']; try discriminate.
    eapply IH, H.
  - destruct (has_name _ acc); [discriminate|]. eapply IH, H.
Qed.
Lemma pack_add_t_stops : forall bs e es2 s, ~ named (entry_path e) ->
  forall es1 acc zs, Forall (fun e => named (entry_path e)) es1 ->
  fst (pack_add bs es1 acc s) = (Ok tt, zs) ->
  pack_add_t bs (es1 ++ e :: es2) acc s = ((Err PkReadData, zs), s).
Proof.
  intros bs e es2 s N. induction es1 as [|e1 es1 IH]; intros acc zs F H; cbn [app pack_add_t].
  - rewrite (to_str_none _ N). cbn in H. congruence.
  - inversion F as [|e' es' N1 F' E1]; subst. rewrite (to_str_some _ N1). cbn [pack_add] in H.
    destruct e1 as [h|p]; cbn [entry_path].
    + destruct (has_name _ acc); [discriminate|].
      destruct (pack_read _ _ _ _) as [[[] data] d']; try discriminate. apply IH; assumption.
    + destruct (has_name _ acc); [discriminate|]. apply IH; assumption.
Qed.

Section Lib.
Variables (E : env) (Z : zip_env) (pick : rng -> string * rng) (bs : nat) (req : pack_request).

Lemma execute_same : forall a, Forall (fun e => named (entry_path e)) (pr_files req) ->
  pack_execute_t_bs E Z pick bs req a = pack_execute_bs E Z pick bs req a.
Proof.
  intros a F. unfold pack_execute_t_bs, pack_execute_bs. apply bind_congr. intros [h0|p] a1; [|reflexivity].
  apply first_congr. unfold pack_archive_t, pack_archive. rewrite pack_add_same by exact F. reflexivity.
Qed.

Lemma execute_ok : forall a a', pack_execute_t_bs E Z pick bs req a = (Ok tt, a') ->
  Forall (fun e => named (entry_path e)) (pr_files req).
Proof.
  intros a a' H. unfold pack_execute_t_bs in H. apply bind_inv in H.
  destruct H as [[tmp [a1 [_ H]]]|[[e [_ X]]|[[_ X]|[_ X]]]]; [|discriminate..].
  destruct tmp as [h0|p]; [|discriminate]. apply bind_inv in H.
  destruct H as [[r1 [a2 [H _]]]|[[e [_ X]]|[[_ X]|[_ X]]]]; [|discriminate..].
  unfold pack_archive_t in H. destruct (pack_add_t bs (pr_files req) [] (fst a1)) as [[o zs] s1] eqn:A.
  destruct (put_archive _ h0 s1) as [[w h'] s2]. destruct o as [[]|e| |]; try discriminate.
  eapply pack_add_t_ok, A.
Qed.

Lemma execute_stops : forall s tr es1 e es2 zs, no_faults s ->
  (forall h, In (EFile h) (pr_files req) -> h_ino h < s_next s) ->
  pr_files req = es1 ++ e :: es2 -> Forall (fun e => named (entry_path e)) es1 -> ~ named (entry_path e) ->
  fst (pack_add bs es1 [] s) = (Ok tt, zs) ->
  exists r s', pack_execute_t_bs E Z pick bs req (s, tr) = (Err r, (s', tr))
  /\ ((r = PkCreateArchive /\ same_disk s s')
      \/ (r = PkReadData /\ exists T, resolve false s (temp_path pick s) = Some T
          /\ at_place s T = None
          /\ at_place s' T = Some (SFile (s_next s) (z_encode Z (pr_compression req) zs)))).
Proof.
  intros s tr es1 e es2 zs NF FO EQ F1 N ADD. unfold pack_execute_t_bs.
  destruct (create_temp_file pick s) as [o s1] eqn:CT.
  assert (FIRST : map_err (fun _ => PkCreateArchive) (on_sys (create_temp_file pick)) (s, tr)
    = (match o with Ok x => Ok x | Err _ => Err PkCreateArchive | Panic => Panic | Diverge => Diverge end, (s1, tr))).
  { unfold map_err, on_sys, zoom. cbn [fst snd]. rewrite CT. destruct o; reflexivity. }
  destruct (create_temp_any True _ _ _ _ CT) as [[SD ->]|(T & plan & RT & LT & -> & TM & ZD & PL)].
  - exists PkCreateArchive, s1. split; [|left; auto]. unfold bind at 1. rewrite FIRST. reflexivity.
  - specialize (PL NF). subst plan. unfold bind at 1. rewrite FIRST. unfold bind at 1. cbn [fst snd].
    assert (ADD1 : fst (pack_add bs es1 [] s1) = (Ok tt, zs)).
    { rewrite <- ADD. apply pack_add_data. intros h I. apply (tm_data _ _ _ _ TM).
      assert (L : h_ino h < s_next s) by (apply FO; rewrite EQ; apply in_or_app; left; exact I). lia. }
    unfold pack_archive_t. rewrite EQ, (pack_add_t_stops bs e es2 s1 N es1 [] zs F1 ADD1).
    destruct (put_archive_calm (z_encode Z (pr_compression req) zs)
      (mkHandle (temp_path pick s) (s_next s) 0 []) s1 eq_refl eq_refl ZD) as (h' & s2 & PA & ST & SD2 & _).
    rewrite PA. exists PkReadData, s2. split; [reflexivity|]. right. split; [reflexivity|].
    exists T. split; [exact RT|]. split; [unfold at_place; rewrite LT; reflexivity|].
    unfold at_place. destruct ST as (SN & _). rewrite SN, (tm_nodes _ _ _ _ TM), lookup_add, cpath_eqb_refl by exact LT.
    cbn [h_ino] in SD2. rewrite SD2. reflexivity.
Qed.
End Lib.

Lemma add_items : forall bs s, 0 < bs -> forall es done, Forall just_opened es ->
  NoDup (map ze_name (done ++ map (item s) es)) ->
  fst (pack_add bs es done s) = (Ok tt, done ++ map (item s) es).
Proof.
  intros bs s BS. induction es as [|e es IH]; intros done F N; cbn [map] in *.
  - cbn [pack_add fst]. rewrite app_nil_r. reflexivity.
  - apply Forall_cons_iff in F. destruct F as [J F].
    assert (FR : has_name (ze_name (item s e)) done = false).
    { apply has_name_false. intros H. rewrite map_app in N. cbn [map] in N. apply NoDup_remove_2 in N.
      apply N, in_or_app. left. exact H. }
    specialize (IH (done ++ [item s e]) F). rewrite <- !app_assoc in IH. cbn [app] in IH. specialize (IH N).
    destruct e as [h|p]; cbn [item ze_name] in FR; cbn [pack_add]; rewrite FR; [|exact IH].
    destruct J as [J0 JP].
    destruct (pack_read_calm (S (List.length (d_data (handle_dev s h)))) bs [] (handle_dev s h) BS JP) as [d' PR]; [cbn; lia|].
    rewrite PR. cbn [app]. unfold rest. cbn [handle_dev d_data d_pos]. rewrite J0. exact IH.
Qed.

Lemma stopped : forall E Z pick req s tr es1 e es2, no_faults s ->
  (forall h, In (EFile h) (pr_files req) -> h_ino h < s_next s) ->
  pr_files req = es1 ++ e :: es2 ->
  Forall (fun e => named (entry_path e)) es1 -> Forall just_opened es1 -> NoDup (map ze_name (map (item s) es1)) ->
  ~ named (entry_path e) ->
  exists r s', pack_execute_t E Z pick req (s, tr) = (Err r, (s', tr))
  /\ ((r = PkCreateArchive /\ same_disk s s')
      \/ (r = PkReadData /\ exists T, resolve false s (temp_path pick s) = Some T
          /\ at_place s T = None
          /\ at_place s' T = Some (SFile (s_next s) (z_encode Z (pr_compression req) (map (item s) es1))))).
Proof.
  intros E Z pick req s tr es1 e es2 NF FO EQ N1 J ND N. unfold pack_execute_t.
  apply (execute_stops E Z pick BLOCK_SIZE req s tr es1 e es2 (map (item s) es1) NF FO EQ N1 N).
  apply (add_items BLOCK_SIZE s ToolProofs.BLOCK_SIZE_pos es1 [] J ND).
Qed.
Lemma library_same : forall E Z pick req a, Forall (fun e => named (entry_path e)) (pr_files req) ->
  pack_execute_t E Z pick req a = pack_execute E Z pick req a.
Proof. intros E Z pick req a. apply execute_same. Qed.
Lemma library_ok : forall E Z pick req a a', pack_execute_t E Z pick req a = (Ok tt, a') ->
  Forall (fun e => named (entry_path e)) (pr_files req).
Proof. intros E Z pick req a a'. apply execute_ok. Qed.
