(** Paths written to an archive and read back. *)
From Coq Require Import List Arith Ascii String Bool Lia.
From Verif Require Import Bytes Outcome IO Primitives FS Archive.
From Verif Require Import FSSpec ArchiveSpec RestoreSpec.
Import ListNotations.
Local Open Scope nat_scope.
Local Open Scope list_scope.

Definition no_slash (x : string) : Prop := ~ In "/"%char (list_ascii_of_string x).

Lemma split_piece : forall x, no_slash x -> split_slash x = [x].
Proof.
  induction x as [|c x IH]; intros N; [reflexivity|]. cbn [split_slash].
  destruct (Ascii.eqb_spec c slash) as [E|E]; [exfalso; apply N; left; exact E|].
  rewrite IH; [reflexivity|]. intros I. apply N. right. exact I.
Qed.

Lemma split_cons : forall x y, no_slash x ->
  split_slash (x ++ String slash y) = x :: split_slash y.
Proof.
  induction x as [|c x IH]; intros y N.
  - cbn [String.append split_slash]. rewrite Ascii.eqb_refl. reflexivity.
  - cbn [String.append split_slash].
    destruct (Ascii.eqb_spec c slash) as [E|E]; [exfalso; apply N; left; exact E|].
    rewrite IH; [reflexivity|]. intros I. apply N. right. exact I.
Qed.

Lemma append_assoc : forall a b c, ((a ++ b) ++ c = a ++ (b ++ c))%string.
Proof. induction a as [|x a IH]; intros b c; cbn; [|rewrite IH]; reflexivity. Qed.

Lemma append_nil : forall a, (a ++ "" = a)%string.
Proof. induction a as [|x a IH]; cbn; [|rewrite IH]; reflexivity. Qed.

Lemma split_concat : forall l, l <> [] -> Forall no_slash l ->
  split_slash (String.concat "/" l) = l
  /\ split_slash (String.concat "/" l ++ "/") = l ++ [""%string].
Proof.
  induction l as [|x l IH]; intros N F; [contradiction|]. inversion F as [|y l' X F']; subst.
  destruct l as [|y l].
  - cbn [String.concat]. split; [apply split_piece, X|].
    change "/"%string with (String slash ""). rewrite split_cons by exact X. reflexivity.
  - cbn [String.concat] in *. destruct IH as [IH1 IH2]; [discriminate|exact F'|].
    change ("/"%string) with (String slash "") in *. cbn [String.append] in *.
    rewrite append_assoc. cbn [String.append].
    rewrite !split_cons, IH1, IH2 by exact X. auto.
Qed.

Lemma good_comp_string : forall c, good_comp c ->
  no_slash (comp_string c) /\ comp_string c <> ""%string /\ piece_comp (comp_string c) = [c]
  /\ ~ In zero (list_ascii_of_string (comp_string c)).
Proof.
  intros [| |n] G; cbn [good_comp comp_string] in *.
  - split; [cbn; intros [X|[]]; discriminate|]. split; [discriminate|].
    split; [reflexivity|]. cbn; intros [X|[]]; discriminate.
  - contradiction.
  - destruct G as [G1 [G2 [G3 [G4 [G5 _]]]]]. split; [exact G4|]. split; [exact G1|]. split; [|exact G5].
    unfold piece_comp. apply String.eqb_neq in G1, G2, G3. rewrite G1, G2, G3. reflexivity.
Qed.

Lemma pieces_back : forall cs, Forall good_comp cs ->
  flat_map piece_comp (map comp_string cs) = cs.
Proof.
  induction 1 as [|c cs G F IH]; cbn [map flat_map]; [reflexivity|].
  destruct (good_comp_string c G) as [_ [_ [X _]]]. rewrite X, IH. reflexivity.
Qed.

Lemma concat_first : forall x l, x <> ""%string -> exists c y z,
  x = String c y /\ String.concat "/" (x :: l) = String c z.
Proof.
  intros [|c y] l N; [contradiction|]. exists c, y. destruct l as [|a l]; cbn; eauto.
Qed.

(** The path itself, or with a slash at the end. *)
Lemma parse_back : forall p, packable p ->
  parse_path (render p) = p /\ parse_path (render p ++ "/") = p.
Proof.
  intros [ab cs] [A [G [a [n E]]]]. cbn [p_abs p_comps] in *. subst ab.
  unfold render. cbn [p_abs p_comps String.append].
  assert (NE : map comp_string cs <> []) by (subst cs; destruct a; discriminate).
  assert (NS : Forall no_slash (map comp_string cs)).
  { apply Forall_forall. intros x I. apply in_map_iff in I. destruct I as [c [<- I]].
    apply good_comp_string. exact (proj1 (Forall_forall _ _) G c I). }
  destruct (split_concat _ NE NS) as [S1 S2].
  pose proof (pieces_back cs G) as PB.
  assert (FC : exists c z, String.concat "/" (map comp_string cs) = String c z /\ c <> slash).
  { destruct cs as [|c cs]; [destruct a; discriminate|]. inversion G as [|c' cs' G1 G2]; subst.
    destruct (good_comp_string c G1) as [X1 [X2 _]]. cbn [map].
    destruct (concat_first (comp_string c) (map comp_string cs) X2) as [ch [y [z [Y1 Y2]]]].
    exists ch, z. split; [exact Y2|]. intros ->. apply X1. rewrite Y1. left. reflexivity. }
  destruct FC as [c [z [FC NC]]]. unfold parse_path. rewrite S1, S2.
  rewrite flat_map_app, PB. cbn [flat_map piece_comp String.eqb app]. rewrite app_nil_r.
  rewrite FC. cbn [String.append]. destruct (Ascii.eqb_spec c slash); [contradiction|]. auto.
Qed.

Lemma last_char_spec : forall s,
  last_char s = match rev (list_ascii_of_string s) with [] => None | c :: _ => Some c end.
Proof.
  induction s as [|c s IH]; [reflexivity|]. cbn [last_char list_ascii_of_string rev].
  destruct s as [|d s]; [reflexivity|]. rewrite IH.
  destruct (rev (list_ascii_of_string (String d s))) as [|e l] eqn:E; [|reflexivity].
  apply (f_equal (@List.length ascii)) in E. rewrite rev_length in E. discriminate.
Qed.

Lemma chars_append : forall a b,
  list_ascii_of_string (a ++ b) = list_ascii_of_string a ++ list_ascii_of_string b.
Proof. induction a as [|c a IH]; intros b; cbn; [|rewrite IH]; reflexivity. Qed.

Lemma last_append : forall a b, b <> ""%string -> last_char (a ++ b) = last_char b.
Proof.
  intros a b N. rewrite !last_char_spec, chars_append, rev_app_distr.
  destruct (rev (list_ascii_of_string b)) as [|c l] eqn:E; [|reflexivity].
  apply (f_equal (@List.length ascii)) in E. rewrite rev_length in E. destruct b; [contradiction|discriminate].
Qed.

Lemma last_concat : forall l n, n <> ""%string ->
  last_char (String.concat "/" (l ++ [n])) = last_char n.
Proof.
  induction l as [|x l IH]; intros n N; [reflexivity|].
  specialize (IH n N). cbn [app].
  assert (C : String.concat "/" (x :: l ++ [n]) = (x ++ "/" ++ String.concat "/" (l ++ [n]))%string)
    by (destruct (l ++ [n]) as [|y r] eqn:E; [destruct l; discriminate|reflexivity]).
  rewrite C, <- IH, !last_append; [reflexivity| |discriminate].
  intros X. rewrite X, (last_char_spec n) in IH. cbn [last_char] in IH.
  destruct (rev (list_ascii_of_string n)) as [|c z] eqn:Z; [|discriminate].
  apply (f_equal (@List.length ascii)) in Z. rewrite rev_length in Z. destruct n; [contradiction|discriminate].
Qed.

Lemma not_dir_name : forall p, packable p -> zip_is_dir (render p) = false.
Proof.
  intros [ab cs] [A [G [a [n E]]]]. cbn [p_abs p_comps] in *. subst ab cs.
  unfold render, zip_is_dir. cbn [p_abs p_comps String.append].
  apply Forall_app in G. destruct G as [_ G]. inversion G as [|c l G1 _]; subst. cbn [good_comp] in G1.
  destruct G1 as [G1 [_ [_ [G4 [_ G6]]]]].
  rewrite map_app. cbn [map comp_string]. rewrite last_concat by exact G1.
  rewrite last_char_spec. destruct (rev (list_ascii_of_string n)) as [|c l] eqn:R; [reflexivity|].
  apply (f_equal (@rev ascii)) in R. rewrite rev_involutive in R. cbn [rev] in R.
  destruct (Ascii.eqb_spec c slash) as [X|X].
  { exfalso. apply G4. rewrite R, X. apply in_or_app. right. left. reflexivity. }
  destruct (Ascii.eqb_spec c "\"%char) as [Y|Y]; [|reflexivity].
  exfalso. apply (G6 (rev l)). rewrite R, Y. reflexivity.
Qed.

Lemma dir_name_slash : forall p, packable p -> dir_name (render p) = (render p ++ "/")%string.
Proof. intros p P. unfold dir_name. rewrite not_dir_name by exact P. reflexivity. Qed.

Lemma is_dir_slash : forall x, zip_is_dir (x ++ "/") = true.
Proof. intros x. unfold zip_is_dir. rewrite last_append by discriminate. reflexivity. Qed.

Lemma has_nul_spec : forall x, has_nul x = false <-> ~ In zero (list_ascii_of_string x).
Proof.
  induction x as [|c x IH]; cbn [has_nul list_ascii_of_string In]; [tauto|].
  rewrite orb_false_iff, IH. destruct (Ascii.eqb_spec c zero); [|tauto].
  split; [intros [X _]; discriminate|tauto].
Qed.

Lemma concat_chars : forall c l, In c (list_ascii_of_string (String.concat "/" l)) ->
  c = slash \/ exists x, In x l /\ In c (list_ascii_of_string x).
Proof.
  intros c. induction l as [|x l IH]; [contradiction|]. destruct l as [|y l].
  - cbn [String.concat]. right. exists x. split; [left; reflexivity|assumption].
  - cbn [String.concat] in *. rewrite !chars_append. intros I.
    apply in_app_or in I. destruct I as [I|I]; [right; exists x; split; [left; reflexivity|exact I]|].
    apply in_app_or in I. destruct I as [I|I]; [destruct I as [I|[]]; left; symmetry; exact I|].
    destruct (IH I) as [X|[z [X Y]]]; [auto|]. right. exists z. split; [right; exact X|exact Y].
Qed.

Lemma render_no_nul : forall p, packable p -> ~ In zero (list_ascii_of_string (render p)).
Proof.
  intros [ab cs] [A [G _]] I. cbn [p_abs p_comps] in *. subst ab.
  unfold render in I. cbn [p_abs p_comps String.append] in I.
  apply concat_chars in I. destruct I as [I|[x [I1 I2]]]; [discriminate|].
  apply in_map_iff in I1. destruct I1 as [c [<- I1]].
  apply (good_comp_string c (proj1 (Forall_forall _ _) G c I1)), I2.
Qed.

Lemma good_depth : forall cs d, Forall good_comp cs -> depth_ok d cs = true.
Proof.
  induction cs as [|c cs IH]; intros d F; [reflexivity|]. inversion F; subst.
  destruct c; cbn [depth_ok]; [apply IH; assumption|contradiction|apply IH; assumption].
Qed.

Lemma enclosed_back : forall p, packable p ->
  enclosed_name (render p) = Some p /\ enclosed_name (dir_name (render p)) = Some p.
Proof.
  intros p P. destruct (parse_back p P) as [B1 B2]. rewrite dir_name_slash by exact P.
  unfold enclosed_name. rewrite B1, B2.
  assert (N1 : has_nul (render p) = false) by (apply has_nul_spec, render_no_nul, P).
  assert (N2 : has_nul (render p ++ "/") = false).
  { apply has_nul_spec. rewrite chars_append. intros I. apply in_app_or in I.
    destruct I as [I|[I|[]]]; [apply (render_no_nul p P I)|discriminate]. }
  rewrite N1, N2. destruct P as [A [G _]]. rewrite A, good_depth by exact G. auto.
Qed.

(** The name under which a path is stored. *)
Definition stored_name (dir : bool) (p : path) : string :=
  if dir then dir_name (render p) else render p.

Lemma stored_name_path : forall d p, packable p -> parse_path (stored_name d p) = p.
Proof.
  intros [|] p P; unfold stored_name; [rewrite dir_name_slash by exact P|]; apply parse_back, P.
Qed.

Lemma stored_name_inj : forall d p d' p', packable p -> packable p' ->
  stored_name d p = stored_name d' p' -> p = p'.
Proof.
  intros d p d' p' P P' H. apply (f_equal parse_path) in H.
  rewrite !stored_name_path in H by assumption. exact H.
Qed.

Lemma stored_name_dir : forall d p, packable p -> zip_is_dir (stored_name d p) = d.
Proof.
  intros [|] p P; unfold stored_name.
  - rewrite dir_name_slash by exact P. apply is_dir_slash.
  - apply not_dir_name, P.
Qed.

Lemma stored_name_enclosed : forall d p, packable p -> enclosed_name (stored_name d p) = Some p.
Proof. intros [|] p P; apply enclosed_back, P. Qed.
