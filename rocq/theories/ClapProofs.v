(** Proofs about the reading of the command line. *)
From Coq Require Import List Arith ZArith Ascii String Bool Lia.
From Verif Require Import Bytes Outcome Cli CliSpec Utf8Facts Clap ClapSpec.
Import ListNotations.
Local Open Scope nat_scope.
Local Open Scope list_scope.

Lemma text_iff : forall v, text v = true <-> as_text v.
Proof. intros v. unfold text, as_text. apply utf8_iff. Qed.

(** ** Words *)

Lemma eqb_char : forall a b : ascii, Ascii.eqb a b = true <-> a = b.
Proof. intros. apply Ascii.eqb_eq. Qed.

Lemma append_nil : forall s, (s ++ "" = s)%string.
Proof. induction s as [|a s IH]; [reflexivity|]. cbn. rewrite IH. reflexivity. Qed.

Lemma after_two : forall s r, after_prefix "--" s = Some r <-> s = ("--" ++ r)%string.
Proof.
  intros s r. split.
  - intros H. destruct s as [|a [|b s]]; cbn [after_prefix] in H; try discriminate.
    + destruct (Ascii.eqb "-" a); discriminate.
    + destruct (Ascii.eqb "-" a) eqn:A; [|discriminate]. destruct (Ascii.eqb "-" b) eqn:B; [|discriminate].
      apply eqb_char in A, B. subst. injection H as ->. reflexivity.
  - intros ->. reflexivity.
Qed.

Lemma split_spec : forall s n v, split_equals s = (n, v) ->
  s = match v with Some x => (n ++ "=" ++ x)%string | None => n end.
Proof.
  induction s as [|a s IH]; intros n v H; cbn [split_equals] in H.
  - injection H as <- <-. reflexivity.
  - destruct (Ascii.eqb a "=") eqn:E.
    + injection H as <- <-. apply eqb_char in E. subst. reflexivity.
    + destruct (split_equals s) as [n' v'] eqn:S. injection H as <- <-. rewrite (IH _ _ eq_refl).
      destruct v'; reflexivity.
Qed.

Fixpoint no_equals (s : string) : bool :=
  match s with EmptyString => true | String a r => negb (Ascii.eqb a "=") && no_equals r end.

Lemma split_name : forall n, no_equals n = true ->
  split_equals n = (n, None) /\ forall v, split_equals (n ++ "=" ++ v) = (n, Some v).
Proof.
  induction n as [|a n IH]; intros H; cbn [no_equals] in H.
  - split; reflexivity.
  - apply andb_prop in H as [A N]. destruct (Ascii.eqb a "=") eqn:E; [discriminate|].
    destruct (IH N) as [I1 I2]. split.
    + cbn [split_equals]. rewrite E, I1. reflexivity.
    + intros v. cbn [append split_equals]. rewrite E. specialize (I2 v). cbn [append] in I2.
      rewrite I2. reflexivity.
Qed.

Lemma classify_value : forall s, classify s = WValue <-> plain s.
Proof.
  intros s. unfold classify, plain. split.
  - intros H. destruct (String.eqb s "--") eqn:E; [discriminate|].
    destruct (after_prefix "--" s) eqn:A; [destruct (split_equals s0); discriminate|].
    destruct s as [|a [|b s]].
    + right. intros [r X]. discriminate.
    + destruct (Ascii.eqb a "-") eqn:M; [apply eqb_char in M; subst; left; reflexivity|].
      right. intros [r X]. injection X as -> _. discriminate.
    + destruct (Ascii.eqb a "-") eqn:M; [discriminate|].
      right. intros [r X]. injection X as -> _. discriminate.
  - intros [->|N]; [reflexivity|]. destruct (String.eqb s "--") eqn:E.
    { apply String.eqb_eq in E. subst. destruct N. exists "-"%string. reflexivity. }
    destruct (after_prefix "--" s) eqn:A.
    { apply after_two in A. subst. destruct N. eexists. reflexivity. }
    destruct s as [|a [|b s]]; try reflexivity. destruct (Ascii.eqb a "-") eqn:M; [|reflexivity].
    apply eqb_char in M. subst. destruct N. eexists. reflexivity.
Qed.

Lemma classify_escape : forall s, classify s = WEscape <-> s = "--"%string.
Proof.
  intros s. split.
  - unfold classify. destruct (String.eqb s "--") eqn:E; [intros _; apply String.eqb_eq, E|].
    destruct (after_prefix "--" s); [destruct (split_equals s0); discriminate|].
    destruct s as [|a [|b s]]; try discriminate. destruct (Ascii.eqb a "-"); discriminate.
  - intros ->. reflexivity.
Qed.

Lemma classify_long : forall s n v, classify s = WLong n v ->
  s = ("--" ++ match v with Some x => n ++ "=" ++ x | None => n end)%string.
Proof.
  intros s n v. unfold classify. destruct (String.eqb s "--"); [discriminate|].
  destruct (after_prefix "--" s) as [r|] eqn:A.
  - destruct (split_equals r) as [n' v'] eqn:S. intros H. injection H as -> ->.
    apply after_two in A. rewrite A, (split_spec _ _ _ S). reflexivity.
  - destruct s as [|a [|b s]]; try discriminate. destruct (Ascii.eqb a "-"); discriminate.
Qed.

Lemma classify_short : forall s a r, classify s = WShort a r -> s = String "-" (String a r).
Proof.
  intros s a r. unfold classify. destruct (String.eqb s "--"); [discriminate|].
  destruct (after_prefix "--" s); [destruct (split_equals s0); discriminate|].
  destruct s as [|x [|b s]]; try discriminate. destruct (Ascii.eqb x "-") eqn:M; [|discriminate].
  intros H. injection H as -> ->. apply eqb_char in M. subst. reflexivity.
Qed.

Lemma long_word : forall n v, no_equals n = true -> n <> EmptyString ->
  classify ("--" ++ match v with Some x => n ++ "=" ++ x | None => n end)%string = WLong n v.
Proof.
  intros n v N E. destruct n as [|a n]; [congruence|]. unfold classify.
  destruct (split_name (String a n) N) as [S1 S2].
  destruct v as [x|].
  - specialize (S2 x). cbn [append] in S2 |- *. cbn [String.eqb].
    change (after_prefix "--" (String "-" (String "-" (String a (n ++ String "=" x))))) with (Some (String a (n ++ String "=" x))).
    cbn. cbn in S2. rewrite S2. reflexivity.
  - cbn [append]. cbn. cbn in S1. rewrite S1. reflexivity.
Qed.

Lemma short_word : forall a r, a <> "-"%char -> classify (String "-" (String a r)) = WShort a r.
Proof.
  intros a r N. unfold classify. assert (M : Ascii.eqb "-" a = false).
  { destruct (Ascii.eqb "-" a) eqn:E; [apply eqb_char in E; congruence|reflexivity]. }
  destruct (String.eqb (String "-" (String a r)) "--") eqn:E.
  { apply String.eqb_eq in E. injection E as -> _. congruence. }
  cbn [after_prefix]. rewrite M. reflexivity.
Qed.

Lemma new_arg_iff : forall s, new_arg s = true <-> option_like s.
Proof.
  intros s. unfold new_arg, option_like. destruct (classify s) eqn:C; split; try discriminate; try reflexivity.
  - intros [_ N]. apply classify_escape in C. contradiction.
  - intros _. split.
    + intros P. apply classify_value in P. congruence.
    + intros E. apply classify_escape in E. congruence.
  - intros _. split.
    + intros P. apply classify_value in P. congruence.
    + intros E. apply classify_escape in E. congruence.
  - intros [N _]. apply classify_value in C. contradiction.
Qed.

(** ** The tables *)

Definition to_named (o : opt) : named := mkNamed (o_id o) (o_long o) (o_short o) (o_equals o).

Ltac in_cases H := cbn [In] in H; repeat (destruct H as [H|H]; [|]); try contradiction.

Definition offersb (c : command) : list named :=
  map fst (filter (fun x => existsb (fun d => match c, d with
    | CmdEncrypt, CmdEncrypt | CmdDecrypt, CmdDecrypt | CmdErase, CmdErase | CmdHash, CmdHash
    | CmdPack, CmdPack | CmdUnpack, CmdUnpack => true | _, _ => false end) (snd x)) interface).

Lemma offers_list : forall c o, offers c o <-> In o (offersb c).
Proof.
  intros c o. unfold offers, offersb. rewrite in_map_iff. split.
  - intros (cs & I & C). exists (o, cs). split; [reflexivity|]. apply filter_In. split; [exact I|].
    apply existsb_exists. exists c. split; [exact C|]. destruct c; reflexivity.
  - intros ([x cs] & E & F). cbn [fst] in E. subst x. apply filter_In in F as [I X].
    apply existsb_exists in X as (d & D & Y). cbn [snd] in D. exists cs. split; [exact I|].
    replace c with d; [exact D|]. destruct c, d; try discriminate; reflexivity.
Qed.

Lemma options_offered : forall c o, In o (options c) -> offers c (to_named o).
Proof.
  intros c o H. apply offers_list. destruct c; cbn [options] in H; in_cases H; subst o; vm_compute; tauto.
Qed.

Lemma long_found : forall c n o, by_long c n = Some o -> offers c (to_named o) /\ o_long o = n.
Proof.
  intros c n o H. apply find_some in H as [I E]. apply String.eqb_eq in E. split; [apply options_offered, I|exact E].
Qed.
Lemma short_found : forall c a o, by_short c a = Some o -> offers c (to_named o) /\ o_short o = Some a.
Proof.
  intros c a o H. apply find_some in H as [I E]. split; [apply options_offered, I|].
  destruct (o_short o) as [b|]; [|discriminate]. apply eqb_char in E. subst. reflexivity.
Qed.

(** An option that is offered can be found by its names, which are as names should
    be, and does not have the name of an operand. *)
Lemma offered_found : forall c x, offers c x -> exists o, to_named o = x
  /\ by_long c (n_name x) = Some o /\ (forall a, n_letter x = Some a -> by_short c a = Some o /\ a <> "-"%char)
  /\ no_equals (n_name x) = true /\ n_name x <> EmptyString
  /\ (n_equals x = true -> n_letter x = None)
  /\ n_id x <> "input"%string /\ n_id x <> "output"%string.
Proof.
  intros c x H. apply offers_list in H.
  destruct c; vm_compute in H; in_cases H; subst x;
    (eexists (mkOpt _ _ _ _); split; [reflexivity|]; split; [reflexivity|]; split;
     [intros a E; first [discriminate | injection E as <-; split; [reflexivity|discriminate]]
     |repeat split; first [discriminate | reflexivity | intros X; discriminate X]]).
Qed.

Lemma same_id : forall c x y, offers c x -> offers c y -> n_id x = n_id y -> x = y.
Proof.
  intros c x y H K E. apply offers_list in H, K.
  destruct c; vm_compute in H, K; in_cases H; subst x; in_cases K; subst y; try reflexivity; discriminate E.
Qed.

(** ** Reading *)

Definition os_values (os : list (named * string)) : values := map (fun x => (n_id (fst x), snd x)) os.
Definition os_ids (os : list (named * string)) : list string := map (fun x => n_id (fst x)) os.

(** The operands, each with the name of its argument. *)
Definition last_place (c : command) (pos : nat) (vs : list string) : nat :=
  if (pos + 2 =? List.length (positionals c)) && existsb (fun x => snd x) (removelast (positionals c))
     && match vs with [] => true | _ => false end then S pos else pos.
Fixpoint assigned (c : command) (pos : nat) (vs : list string) : option values :=
  match vs with
  | [] => Some []
  | v :: r => match nth_error (positionals c) (last_place c pos r) with
              | Some (id, many) =>
                  match assigned c (if many then last_place c pos r else S (last_place c pos r)) r with
                  | Some a => Some ((id, v) :: a)
                  | None => None
                  end
              | None => None
              end
  end.

Lemma given_app : forall g h id, given_values (g ++ h) id = given_values g id ++ given_values h id.
Proof. intros. unfold given_values. rewrite filter_app, map_app. reflexivity. Qed.

Lemma has_app : forall id g h, has id (g ++ h) = has id g || has id h.
Proof. intros. unfold has. apply existsb_app. Qed.

Lemma given_os_operand : forall c os id, (forall o v, In (o, v) os -> offers c o) ->
  id = "input"%string \/ id = "output"%string -> given_values (os_values os) id = [].
Proof.
  induction os as [|[o v] os IH]; intros id F I; [reflexivity|].
  unfold given_values. cbn [os_values map filter fst snd].
  destruct (offered_found c o (F o v (or_introl eq_refl))) as (_ & _ & _ & _ & _ & _ & _ & N1 & N2).
  destruct (String.eqb (n_id o) id) eqn:E.
  { apply String.eqb_eq in E. destruct I; congruence. }
  apply IH; [|exact I]. intros x w H. apply (F x w). right. exact H.
Qed.

Lemma operand_id : forall c p id many, nth_error (positionals c) p = Some (id, many) ->
  id = "input"%string \/ id = "output"%string.
Proof.
  intros c p id many H. destruct c, p as [|[|[|p]]]; cbn in H; try discriminate;
    injection H as <- _; auto.
Qed.

Lemma not_pack_position : forall c pos r, c <> CmdPack -> position c pos r = pos.
Proof. intros c pos r N. unfold position. destruct c; try congruence; cbn [positionals removelast existsb snd]; rewrite ?andb_false_r; cbn; rewrite ?andb_false_r; reflexivity. Qed.
Lemma not_pack_last : forall c pos r, c <> CmdPack -> last_place c pos r = pos.
Proof. intros c pos r N. unfold last_place. destruct c; try congruence; cbn [positionals removelast existsb snd]; rewrite ?andb_false_r; cbn; rewrite ?andb_false_r; reflexivity. Qed.

Definition no_value_next (r : list string) : bool := match r with [] => true | w :: _ => new_arg w end.
Lemma pack_position : forall pos r,
  position CmdPack pos r = match pos with 0 => if no_value_next r then 1 else 0 | S _ => pos end.
Proof.
  intros pos r. unfold position. cbn [positionals removelast existsb snd List.length orb].
  destruct pos as [|pos]; [destruct r; reflexivity|].
  replace (S pos + 2 =? 2) with false by (symmetry; apply Nat.eqb_neq; lia). reflexivity.
Qed.
Lemma pack_last : forall pos vs,
  last_place CmdPack pos vs = match pos with 0 => match vs with [] => 1 | _ => 0 end | S _ => pos end.
Proof.
  intros pos r. unfold last_place. cbn [positionals removelast existsb snd List.length orb].
  destruct pos as [|pos]; [destruct r; reflexivity|].
  replace (S pos + 2 =? 2) with false by (symmetry; apply Nat.eqb_neq; lia). reflexivity.
Qed.
Lemma no_value_iff : forall r, no_value_next r = true <-> (r = [] \/ exists w r', r = w :: r' /\ option_like w).
Proof.
  intros [|w r']; cbn [no_value_next]; [split; auto|]. rewrite new_arg_iff. split.
  - intros O. right. eauto.
  - intros [X|(? & ? & X & O)]; [discriminate|]. injection X as <- <-. exact O.
Qed.

Lemma pack_beyond : forall pos g ws g', 2 <= pos -> read_words CmdPack true None pos g ws = Some g' -> ws = [].
Proof.
  intros pos g ws g' P H. destruct ws as [|s r]; [reflexivity|]. cbn [read_words] in H. cbv zeta in H.
  rewrite pack_position in H. destruct pos as [|[|pos]]; try lia.
  cbn [positionals nth_error] in H. destruct pos; discriminate.
Qed.
Lemma pack_none_left : forall pos vs av, 2 <= pos -> assigned CmdPack pos vs = Some av -> vs = [].
Proof.
  intros pos [|v vs] av P H; [reflexivity|]. cbn [assigned] in H. rewrite pack_last in H.
  destruct pos as [|[|pos]]; try lia. cbn [positionals nth_error] in H. destruct pos; discriminate.
Qed.
Lemma pack_or_not : forall c, c = CmdPack \/ c <> CmdPack.
Proof. destruct c; (left; reflexivity) || (right; discriminate). Qed.

Lemma esc_reads : forall c vs pos g g', read_words c true None pos g vs = Some g' ->
  exists av, assigned c pos vs = Some av /\ g' = g ++ av /\ Forall as_text vs
    /\ (c = CmdPack -> Forall (fun w => ~ option_like w) (tl vs)).
Proof.
  intros c. induction vs as [|v r IH]; intros pos g g' H.
  - injection H as <-. exists []. rewrite app_nil_r. repeat split; constructor.
  - cbn [read_words] in H. set (p := position c pos r) in *.
    destruct (nth_error (positionals c) p) as [[id many]|] eqn:NE; [|discriminate].
    destruct (text v) eqn:T; [|discriminate]. apply text_iff in T.
    assert (P : p = last_place c pos r /\ (c = CmdPack -> Forall (fun w => ~ option_like w) (firstn 1 r))).
    { destruct (pack_or_not c) as [->|N].
      2:{ split; [|congruence]. unfold p. rewrite not_pack_position, not_pack_last by exact N. reflexivity. }
      unfold p in *. rewrite pack_position, pack_last in *. destruct r as [|w r'].
      { split; [destruct pos; reflexivity|]. intros _. constructor. }
      destruct pos as [|pos].
      - destruct (no_value_next (w :: r')) eqn:NA; cbn [positionals nth_error] in NE; injection NE as <- <-.
        + apply pack_beyond in H; [discriminate|lia].
        + split; [reflexivity|]. intros _. cbn [firstn]. constructor; [|constructor]. intros O.
          cbn [no_value_next] in NA. apply new_arg_iff in O. congruence.
      - exfalso. cbn [positionals nth_error] in NE. destruct pos as [|[|pos]]; cbn in NE; try discriminate.
        injection NE as <- <-. apply pack_beyond in H; [discriminate|lia]. }
    destruct P as [P PF]. destruct (IH _ _ _ H) as (av & A & -> & F & O).
    exists ((id, v) :: av). cbn [assigned]. rewrite <- P, NE, A. split; [reflexivity|].
    split; [rewrite <- app_assoc; reflexivity|]. split; [constructor; assumption|].
    intros E. specialize (PF E). specialize (O E). cbn [tl]. destruct r as [|w r']; [constructor|].
    inversion PF; subst. constructor; assumption.
Qed.

Lemma esc_accepts : forall c vs pos g av, assigned c pos vs = Some av -> Forall as_text vs ->
  (c = CmdPack -> Forall (fun w => ~ option_like w) (tl vs)) ->
  read_words c true None pos g vs = Some (g ++ av).
Proof.
  intros c. induction vs as [|v r IH]; intros pos g av A F O.
  - injection A as <-. rewrite app_nil_r. reflexivity.
  - cbn [assigned] in A. cbn [read_words].
    assert (P : position c pos r = last_place c pos r).
    { assert (D : c = CmdPack \/ c <> CmdPack) by (destruct c; (left; reflexivity) || (right; discriminate)).
      destruct D as [->|N]; [|rewrite not_pack_position, not_pack_last by exact N; reflexivity].
      specialize (O eq_refl). cbn [tl] in O. unfold position, last_place. destruct r as [|w r']; [reflexivity|].
      inversion O as [|? ? NW]; subst. destruct (new_arg w) eqn:NA; [apply new_arg_iff in NA; contradiction|reflexivity]. }
    rewrite P. destruct (nth_error (positionals c) (last_place c pos r)) as [[id many]|]; [|discriminate].
    inversion F as [|? ? T F']; subst. apply text_iff in T. rewrite T.
    destruct (assigned c _ r) as [a|] eqn:E; [|discriminate]. injection A as <-.
    rewrite (IH _ (g ++ [(id, v)]) a E F'); [rewrite <- app_assoc; reflexivity|].
    intros X. specialize (O X). cbn [tl] in O. destruct r; [constructor|]. inversion O; assumption.
Qed.

Lemma set_value_inv : forall o v g g1, set_value o v g = Some g1 ->
  has (o_id o) g = false /\ as_text v /\ g1 = g ++ [(o_id o, v)].
Proof.
  intros o v g g1. unfold set_value. destruct (has (o_id o) g); [discriminate|].
  destruct (text v) eqn:T; [|discriminate]. intros H. injection H as <-. apply text_iff in T. auto.
Qed.
Lemma set_value_ok : forall o v g, has (o_id o) g = false -> as_text v ->
  set_value o v g = Some (g ++ [(o_id o, v)]).
Proof. intros o v g H T. unfold set_value. apply text_iff in T. rewrite H, T. reflexivity. Qed.

Lemma line_offers : forall c ws os vs, line_is c ws os vs -> forall o v, In (o, v) os -> offers c o.
Proof.
  induction 1; intros x w I; try contradiction.
  - destruct I as [E|I]; [injection E as <- <-; assumption|eauto].
  - eauto.
Qed.

(** What is read after one option. *)
Definition found (c : command) (ws : list string) (pos : nat) (g g' : values)
  (os : list (named * string)) (vs : list string) (av : values) : Prop :=
  line_is c ws os vs /\ assigned c pos vs = Some av /\ Forall as_text (map snd os ++ vs)
  /\ NoDup (os_ids os) /\ (forall o v, In (o, v) os -> has (n_id o) g = false)
  /\ forall id, given_values g' id = given_values g id ++ given_values (os_values os) id ++ given_values av id.

Lemma found_option : forall c o v sp ws pos g g' os vs av, offers c (to_named o) ->
  has (o_id o) g = false -> as_text v -> spelled (to_named o) v sp ->
  found c ws pos (g ++ [(o_id o, v)]) g' os vs av ->
  found c (sp ++ ws) pos g g' ((to_named o, v) :: os) vs av.
Proof.
  intros c o v sp ws pos g g' os vs av OF FR T SP (L & A & F & ND & H & G). repeat split.
  - constructor; assumption.
  - exact A.
  - cbn [map app snd]. constructor; assumption.
  - cbn [os_ids map fst]. constructor; [|exact ND]. intros I. apply in_map_iff in I as ([x w] & E & I).
    cbn [fst] in E. specialize (H _ _ I). rewrite has_app in H. apply orb_false_iff in H as [_ H].
    rewrite E in H. unfold has in H. cbn [existsb fst to_named n_id] in H. rewrite String.eqb_refl in H. discriminate.
  - intros x w [E|I]; [injection E as <- <-; exact FR|]. specialize (H _ _ I). rewrite has_app in H.
    apply orb_false_iff in H as [H _]. exact H.
  - intros id. rewrite G, given_app, <- app_assoc. f_equal. cbn [os_values map fst snd].
    change ((n_id (to_named o), v) :: map (fun x => (n_id (fst x), snd x)) os)
      with ([(o_id o, v)] ++ os_values os). rewrite given_app, <- app_assoc. reflexivity.
Qed.

Lemma option_starts : forall c o v sp, offers c o -> spelled o v sp -> no_value_next sp = true.
Proof.
  intros c o v sp OF SP. destruct (offered_found _ _ OF) as (x & _ & _ & BS & NEQ & NEM & _).
  destruct SP; cbn [no_value_next]; unfold new_arg.
  - pose proof (long_word (n_name o) (Some v) NEQ NEM) as LW. cbv iota in LW. rewrite LW. reflexivity.
  - pose proof (long_word (n_name o) None NEQ NEM) as LW. cbv iota in LW. rewrite LW. reflexivity.
  - destruct (BS _ H) as [_ NA]. cbn [append]. rewrite short_word by exact NA. reflexivity.
  - destruct (BS _ H) as [_ NA]. cbn [append]. rewrite short_word by exact NA. reflexivity.
  - destruct (BS _ H) as [_ NA]. cbn [append]. rewrite short_word by exact NA. reflexivity.
Qed.

Lemma has_one : forall id x v, has id [(x, v)] = String.eqb x id.
Proof. intros. unfold has. cbn. apply orb_false_r. Qed.

Lemma reads : forall n c ws pos g g', List.length ws <= n -> read_words c false None pos g ws = Some g' ->
  (c = CmdPack -> pos <> 1) ->
  (c = CmdPack -> pos = 0 -> has "output"%string g = false) -> (c = CmdPack -> has "output"%string g' = true) ->
  exists os vs av, found c ws pos g g' os vs av.
Proof.
  induction n as [|n IH]; intros c ws pos g g' LE H NP NO HO.
  { destruct ws; [|cbn in LE; lia]. injection H as <-. exists [], [], [].
    repeat split; try constructor; try contradiction. intros id. cbn. rewrite app_nil_r. reflexivity. }
  destruct ws as [|s r].
  { injection H as <-. exists [], [], []. repeat split; try constructor; try contradiction.
    intros id. cbn. rewrite app_nil_r. reflexivity. }
  cbn [List.length] in LE.
  assert (KEEP : forall o v, offers c (to_named o) -> c = CmdPack -> pos = 0 ->
            has "output"%string (g ++ [(o_id o, v)]) = false).
  { intros o v OF E P. rewrite has_app, (NO E P), has_one. cbn [orb].
    destruct (offered_found _ _ OF) as (_ & _ & _ & _ & _ & _ & _ & _ & N2). apply String.eqb_neq. exact N2. }
  (* the value in the next word *)
  assert (WAIT : forall o, offers c (to_named o) -> o_equals o = false ->
            (forall v, plain v -> spelled (to_named o) v [s; v]) ->
            read_words c false (Some o) pos g r = Some g' -> exists os vs av, found c (s :: r) pos g g' os vs av).
  { intros o OF NE SP R. destruct r as [|v r']; [discriminate|]. cbn [read_words] in R.
    destruct (classify v) eqn:CV; try discriminate. apply classify_value in CV.
    destruct (set_value o v g) as [g1|] eqn:SV; [|discriminate].
    destruct (set_value_inv _ _ _ _ SV) as (FR & T & ->).
    destruct (IH c r' pos _ _ ltac:(cbn in LE; lia) R NP (KEEP o v OF) HO) as (os & vs & av & F).
    exists ((to_named o, v) :: os), vs, av. exact (found_option c o v [s; v] r' pos g g' os vs av OF FR T (SP v CV) F). }
  (* the value in this word *)
  assert (HERE : forall o v g1, offers c (to_named o) -> spelled (to_named o) v [s] -> set_value o v g = Some g1 ->
            read_words c false None pos g1 r = Some g' -> exists os vs av, found c (s :: r) pos g g' os vs av).
  { intros o v g1 OF SP SV R. destruct (set_value_inv _ _ _ _ SV) as (FR & T & ->).
    destruct (IH c r pos _ _ ltac:(lia) R NP (KEEP o v OF) HO) as (os & vs & av & F).
    exists ((to_named o, v) :: os), vs, av. exact (found_option c o v [s] r pos g g' os vs av OF FR T SP F). }
  cbn [read_words] in H. cbv zeta in H. destruct (classify s) as [|nm v|a rest|] eqn:CS.
  - apply classify_escape in CS. subst s. destruct (esc_reads _ _ _ _ _ H) as (av & A & -> & F & O).
    exists [], r, av. split; [constructor; exact O|]. split; [exact A|]. split; [exact F|].
    split; [constructor|]. split; [intros ? ? []|]. intros id. rewrite given_app. reflexivity.
  - apply classify_long in CS. destruct (by_long c nm) as [o|] eqn:BL; [|discriminate].
    destruct (long_found _ _ _ BL) as [OF <-]. unfold option_value in H. destruct v as [x|].
    + rewrite andb_false_r in H. destruct (set_value o x g) as [g1|] eqn:SV; [|discriminate].
      eapply HERE; eauto. rewrite CS. apply (sp_long_equals (to_named o)).
    + rewrite andb_true_r in H. destruct (o_equals o) eqn:OE; [discriminate|].
      apply (WAIT o OF OE); [|exact H]. intros v PV. rewrite CS. apply (sp_long (to_named o)); assumption.
  - apply classify_short in CS. destruct (by_short c a) as [o|] eqn:BS; [|discriminate].
    destruct (short_found _ _ _ BS) as [OF OS]. unfold option_value in H. destruct rest as [|e rest].
    + rewrite andb_true_r in H. destruct (o_equals o) eqn:OE; [discriminate|].
      apply (WAIT o OF OE); [|exact H]. intros v PV. rewrite CS. apply (sp_short (to_named o)); assumption.
    + destruct (Ascii.eqb e "=") eqn:EE.
      * rewrite andb_false_r in H. destruct (set_value o rest g) as [g1|] eqn:SV; [|discriminate].
        apply eqb_char in EE. subst e. eapply HERE; eauto. rewrite CS. apply (sp_short_equals (to_named o)). exact OS.
      * rewrite andb_true_r in H. destruct (o_equals o) eqn:OE; [discriminate|].
        destruct (set_value o (String e rest) g) as [g1|] eqn:SV; [|discriminate].
        eapply HERE; eauto. rewrite CS. eapply (sp_short_joined (to_named o)); [exact OS|exact OE|reflexivity|].
        intros ->. discriminate.
  - apply classify_value in CS. set (p := position c pos r) in *.
    destruct (nth_error (positionals c) p) as [[id many]|] eqn:NE; [|discriminate].
    destruct (text s) eqn:T; [|discriminate]. apply text_iff in T.
    assert (NP' : c = CmdPack -> (if many then p else S p) <> 1).
    { intros ->. unfold p in *. rewrite pack_position in *. destruct pos as [|[|pos]].
      - destruct (no_value_next r); cbn [positionals nth_error] in NE; injection NE as <- <-; discriminate.
      - destruct (NP eq_refl eq_refl).
      - destruct many; discriminate. }
    assert (NO' : c = CmdPack -> (if many then p else S p) = 0 -> has "output"%string (g ++ [(id, s)]) = false).
    { intros -> P0. unfold p in *. rewrite pack_position in *. destruct pos as [|pos].
      - destruct (no_value_next r); cbn [positionals nth_error] in NE; injection NE as <- <-; [discriminate|].
        rewrite has_app, (NO eq_refl eq_refl), has_one. reflexivity.
      - destruct many; discriminate. }
    destruct (IH c r _ _ _ ltac:(lia) H NP' NO' HO) as (os & vs & av & L & A & F & ND & FR & G).
    assert (P : p = last_place c pos vs
                /\ (c = CmdPack -> (vs = [] <-> (r = [] \/ exists w r', r = w :: r' /\ option_like w)))).
    { destruct (pack_or_not c) as [->|N].
      2:{ split; [|congruence]. unfold p. rewrite not_pack_position, not_pack_last by exact N. reflexivity. }
      rewrite <- no_value_iff. unfold p in *. rewrite pack_position, pack_last in *. destruct pos as [|pos].
      - destruct (no_value_next r) eqn:B; cbn [positionals nth_error] in NE; injection NE as <- <-.
        + apply pack_none_left in A; [|lia]. subst vs. split; [reflexivity|]. intros _. split; reflexivity.
        + destruct vs as [|y vs']; [|split; [reflexivity|]; intros _; split; discriminate].
          exfalso. inversion L; subst.
          * discriminate.
          * match goal with OFF : offers _ _, SP : spelled _ _ _ |- _ => pose proof (option_starts _ _ _ _ OFF SP) as X end.
            match goal with SP : spelled _ _ ?w |- _ => destruct w as [|w0 w']; [inversion SP|] end.
            cbn [no_value_next app] in *. congruence.
          * injection H as <-. specialize (HO eq_refl). rewrite has_app, has_one, (NO eq_refl eq_refl) in HO. discriminate.
      - exfalso. cbn [positionals nth_error] in NE. destruct pos as [|[|pos]]; cbn [nth_error] in NE; try discriminate.
        exact (NP eq_refl eq_refl). }
    destruct P as [P PO]. exists os, (s :: vs), ((id, s) :: av). split; [constructor; assumption|].
    split; [cbn [assigned]; rewrite <- P, NE, A; reflexivity|].
    split.
    { apply Forall_app in F as [F1 F2]. apply Forall_app. split; [exact F1|constructor; assumption]. }
    split; [exact ND|]. split.
    { intros o v I. specialize (FR o v I). rewrite has_app in FR. apply orb_false_iff in FR. apply FR. }
    intros x. rewrite G, given_app, <- app_assoc. f_equal.
    change ((id, s) :: av) with ([(id, s)] ++ av). rewrite given_app.
    destruct (String.eqb id x) eqn:E.
    + apply String.eqb_eq in E. subst x.
      rewrite (given_os_operand c os id (line_offers _ _ _ _ L) (operand_id _ _ _ _ NE)). reflexivity.
    + assert (Z : given_values [(id, s)] x = []) by (unfold given_values; cbn [filter fst]; rewrite E; reflexivity).
      rewrite Z. reflexivity.
Qed.

Lemma accepts : forall c ws os vs, line_is c ws os vs -> forall pos g av,
  assigned c pos vs = Some av -> Forall as_text (map snd os ++ vs) -> NoDup (os_ids os) ->
  (forall o v, In (o, v) os -> has (n_id o) g = false) ->
  exists g', read_words c false None pos g ws = Some g'
    /\ forall id, given_values g' id = given_values g id ++ given_values (os_values os) id ++ given_values av id.
Proof.
  induction 1 as [|o v sp r os vs OF SP L IH|v r os vs PV PK L IH|vs PK]; intros pos g av A F ND FR.
  - injection A as <-. exists g. split; [reflexivity|]. intros id. cbn. rewrite app_nil_r. reflexivity.
  - cbn [map app snd] in F. inversion F as [|? ? T F']; subst. cbn [os_ids map fst] in ND.
    inversion ND as [|? ? NI ND']; subst. pose proof (FR o v (or_introl eq_refl)) as F0.
    destruct (offered_found _ _ OF) as (x & TX & BL & BS & NEQ & NEM & EL & _).
    assert (IDX : o_id x = n_id o) by (rewrite <- TX; reflexivity).
    assert (EQX : o_equals x = n_equals o) by (rewrite <- TX; reflexivity).
    destruct (IH pos (g ++ [(n_id o, v)]) av A F' ND') as (g' & R & G).
    { intros y w I. rewrite has_app, (FR y w (or_intror I)), has_one. cbn [orb]. apply String.eqb_neq. intros E.
      apply NI. rewrite E. apply in_map_iff. exists (y, w). auto. }
    exists g'. split.
    2:{ intros id. rewrite G, given_app, <- app_assoc. f_equal. cbn [os_values map fst snd].
        change ((n_id o, v) :: map (fun x => (n_id (fst x), snd x)) os) with ([(n_id o, v)] ++ os_values os).
        rewrite given_app, <- app_assoc. reflexivity. }
    assert (SV : set_value x v g = Some (g ++ [(n_id o, v)])) by (rewrite <- IDX in *; apply set_value_ok; assumption).
    destruct SP as [|NE PV|a LA|a b s' LA NE EV NB|a LA NE PV]; cbn [app read_words]; cbv zeta.
    + pose proof (long_word (n_name o) (Some v) NEQ NEM) as LW. cbv iota in LW. rewrite LW, BL.
      unfold option_value. rewrite andb_false_r, SV. exact R.
    + pose proof (long_word (n_name o) None NEQ NEM) as LW. cbv iota in LW. rewrite LW, BL.
      unfold option_value. rewrite andb_true_r, EQX, NE. apply classify_value in PV. cbn [read_words].
      rewrite PV, SV. exact R.
    + destruct (BS _ LA) as [B NA]. cbn [append]. rewrite short_word by exact NA. rewrite B.
      cbn [Ascii.eqb Bool.eqb]. unfold option_value. rewrite andb_false_r, SV. exact R.
    + destruct (BS _ LA) as [B NA]. cbn [append]. rewrite short_word by exact NA. rewrite B. subst v.
      destruct (Ascii.eqb b "=") eqn:E; [apply eqb_char in E; contradiction|].
      unfold option_value. rewrite andb_true_r, EQX, NE, SV. exact R.
    + destruct (BS _ LA) as [B NA]. cbn [append]. rewrite short_word by exact NA. rewrite B.
      unfold option_value. rewrite andb_true_r, EQX, NE. apply classify_value in PV. cbn [read_words].
      rewrite PV, SV. exact R.
  - cbn [assigned] in A.
    destruct (nth_error (positionals c) (last_place c pos vs)) as [[id many]|] eqn:NE; [|discriminate].
    destruct (assigned c _ vs) as [a|] eqn:AV; [|discriminate]. injection A as <-.
    apply Forall_app in F as [F1 F2]. inversion F2 as [|? ? T F3]; subst.
    assert (P : position c pos r = last_place c pos vs).
    { destruct (pack_or_not c) as [->|N]; [|rewrite not_pack_position, not_pack_last by exact N; reflexivity].
      specialize (PK eq_refl). rewrite <- no_value_iff in PK. rewrite pack_position, pack_last.
      destruct pos; [|reflexivity]. destruct vs as [|y vs].
      - rewrite (proj1 PK eq_refl). reflexivity.
      - destruct (no_value_next r); [|reflexivity]. destruct PK as [_ X]. discriminate (X eq_refl). }
    destruct (IH _ (g ++ [(id, v)]) a AV) as (g' & R & G).
    + apply Forall_app. split; assumption.
    + exact ND.
    + intros o w I. rewrite has_app, (FR o w I), has_one. cbn [orb]. apply String.eqb_neq. intros E.
      destruct (offered_found _ _ (line_offers _ _ _ _ L o w I)) as (_ & _ & _ & _ & _ & _ & _ & N1 & N2).
      destruct (operand_id _ _ _ _ NE); congruence.
    + exists g'. split.
      * cbn [read_words]. cbv zeta. apply classify_value in PV. rewrite PV, P, NE. apply text_iff in T. rewrite T. exact R.
      * intros x. rewrite G, given_app, <- app_assoc. f_equal.
        change ((id, v) :: a) with ([(id, v)] ++ a). rewrite given_app.
        destruct (String.eqb id x) eqn:E.
        -- apply String.eqb_eq in E. subst x.
           rewrite (given_os_operand c os id (line_offers _ _ _ _ L) (operand_id _ _ _ _ NE)). reflexivity.
        -- assert (Z : given_values [(id, v)] x = []) by (unfold given_values; cbn [filter fst]; rewrite E; reflexivity).
           rewrite Z. reflexivity.
  - exists (g ++ av). split.
    + cbn [read_words]. cbv zeta. rewrite (proj2 (classify_escape _) eq_refl). apply esc_accepts; assumption.
    + intros id. rewrite given_app. reflexivity.
Qed.

Lemma has_given : forall id g, has id g = true <-> given_values g id <> [].
Proof.
  intros id g. unfold has, given_values. split.
  - intros H. apply existsb_exists in H as (x & I & E). intros N.
    assert (J : In x (filter (fun x => String.eqb (fst x) id) g)) by (apply filter_In; auto).
    apply (in_map snd) in J. rewrite N in J. destruct J.
  - intros N. destruct (filter (fun x => String.eqb (fst x) id) g) as [|x l] eqn:E; [destruct N; reflexivity|].
    apply existsb_exists. exists x.
    apply (filter_In (fun x => String.eqb (fst x) id)). rewrite E. left. reflexivity.
Qed.
Lemma has_not : forall id g, has id g = false <-> given_values g id = [].
Proof.
  intros id g. pose proof (has_given id g) as H. destruct (has id g).
  - split; [discriminate|]. intros E. destruct (proj1 H eq_refl E).
  - split; [|reflexivity]. intros _. destruct (given_values g id) as [|x l]; [reflexivity|].
    assert (X : false = true) by (apply H; discriminate). discriminate.
Qed.

Definition two (c : command) : bool := match c with CmdErase | CmdHash => false | _ => true end.
Definition makes (c : command) : bool := match c with CmdEncrypt | CmdPack => true | _ => false end.

Lemma valid_iff : forall c g, valid c g = true <->
  (has "input"%string g = true /\ (two c = true -> has "output"%string g = true)
   /\ (makes c = true -> has "autogenerate"%string g && has "keyfile"%string g = false)).
Proof.
  intros c g. destruct c; unfold valid; cbn [args_of forallb required optional defaulted a_required a_conflicts a_id negb orb andb two makes];
    rewrite ?andb_true_r;
    destruct (has "input"%string g), (has "autogenerate"%string g), (has "keyfile"%string g);
    try (destruct (has "output"%string g)); cbn; intuition congruence.
Qed.

Lemma av_other : forall c vs pos av, assigned c pos vs = Some av -> forall id, id <> "input"%string -> id <> "output"%string ->
  given_values av id = [].
Proof.
  intros c. induction vs as [|v r IH]; intros pos av H id N1 N2.
  - injection H as <-. reflexivity.
  - cbn [assigned] in H. destruct (nth_error _ _) as [[x many]|] eqn:NE; [|discriminate].
    destruct (assigned c _ r) as [a|] eqn:A; [|discriminate]. injection H as <-.
    unfold given_values. cbn [filter fst]. destruct (String.eqb x id) eqn:E.
    + apply String.eqb_eq in E. subst x. destruct (operand_id _ _ _ _ NE); contradiction.
    + exact (IH _ _ A id N1 N2).
Qed.

Lemma os_none : forall os id, (forall o v, In (o, v) os -> n_id o <> id) -> given_values (os_values os) id = [].
Proof.
  induction os as [|[o v] os IH]; intros id H; [reflexivity|].
  unfold given_values. cbn [os_values map filter fst snd]. destruct (String.eqb (n_id o) id) eqn:E.
  - apply String.eqb_eq in E. destruct (H o v (or_introl eq_refl) E).
  - apply IH. intros x w I. apply (H x w). right. exact I.
Qed.

Lemma os_one : forall os o v, NoDup (os_ids os) -> In (o, v) os -> given_values (os_values os) (n_id o) = [v].
Proof.
  induction os as [|[x w] os IH]; intros o v ND I; [destruct I|].
  cbn [os_ids map fst] in ND. inversion ND as [|? ? NI ND']; subst.
  unfold given_values. cbn [os_values map filter fst snd]. destruct I as [E|I].
  - injection E as -> ->. rewrite String.eqb_refl. cbn [map snd]. f_equal.
    apply os_none. intros y u J E. apply NI. rewrite <- E. apply in_map_iff. exists (y, u). auto.
  - destruct (String.eqb (n_id x) (n_id o)) eqn:E.
    + apply String.eqb_eq in E. destruct NI. rewrite E. apply in_map_iff. exists (o, v). auto.
    + exact (IH o v ND' I).
Qed.

Lemma rev_case : forall (vs : list string), vs = [] \/ exists ins o, vs = ins ++ [o].
Proof. intros vs. destruct vs as [|x l] using rev_ind; [left; reflexivity|right; eauto]. Qed.

Lemma assigned_hash : forall vs, assigned CmdHash 0 vs = Some (map (pair "input"%string) vs).
Proof.
  induction vs as [|v r IH]; [reflexivity|]. cbn [assigned]. rewrite not_pack_last by discriminate.
  cbn [positionals nth_error]. rewrite IH. reflexivity.
Qed.
Lemma assigned_pack : forall ins o,
  assigned CmdPack 0 (ins ++ [o]) = Some (map (pair "input"%string) ins ++ [("output"%string, o)]).
Proof.
  induction ins as [|v r IH]; intros o; [reflexivity|]. cbn [app assigned]. rewrite pack_last.
  destruct (r ++ [o]) as [|x l] eqn:E; [destruct r; discriminate|]. cbn [positionals nth_error]. rewrite <- E, IH. reflexivity.
Qed.
Lemma given_same : forall id vs, given_values (map (pair id) vs) id = vs.
Proof.
  intros id. induction vs as [|v r IH]; [reflexivity|]. unfold given_values. cbn [map filter fst].
  rewrite String.eqb_refl. cbn [map snd]. f_equal. exact IH.
Qed.
Lemma given_differ : forall id x vs, id <> x -> given_values (map (pair id) vs) x = [].
Proof.
  intros id x. induction vs as [|v r IH]; intros N; [reflexivity|]. unfold given_values. cbn [map filter fst].
  destruct (String.eqb id x) eqn:E; [apply String.eqb_eq in E; contradiction|]. exact (IH N).
Qed.

Lemma operands_iff : forall c vs g, operands c vs g <->
  exists av, assigned c 0 vs = Some av
    /\ g "input"%string = given_values av "input" /\ g "output"%string = given_values av "output"
    /\ given_values av "input" <> [] /\ (two c = true -> given_values av "output" <> []).
Proof.
  intros c vs g.
  assert (TWO : In c [CmdEncrypt; CmdDecrypt; CmdUnpack] -> (exists i o, vs = [i; o] /\ g "input"%string = [i] /\ g "output"%string = [o])
    <-> exists av, assigned c 0 vs = Some av
    /\ g "input"%string = given_values av "input" /\ g "output"%string = given_values av "output"
    /\ given_values av "input" <> [] /\ (two c = true -> given_values av "output" <> [])).
  { intros I. assert (N : c <> CmdPack) by (destruct c; cbn in I; intuition discriminate).
    assert (T : two c = true) by (destruct c; cbn in I; intuition discriminate).
    assert (PS : positionals c = [("input", false); ("output", false)]%string) by (destruct c; cbn in I; intuition discriminate).
    split.
    - intros (i & o & -> & G1 & G2). exists [("input", i); ("output", o)]%string. split.
      { cbn [assigned]. rewrite PS. repeat (rewrite not_pack_last by exact N; cbn [nth_error]). reflexivity. }
      rewrite G1, G2. repeat split; discriminate.
    - intros (av & A & G1 & G2 & N1 & N2). specialize (N2 T). destruct vs as [|i [|o [|x r]]].
      + injection A as <-. destruct (N1 eq_refl).
      + cbn [assigned] in A. rewrite PS in A. repeat (rewrite not_pack_last in A by exact N; cbn [nth_error] in A). injection A as <-. destruct (N2 eq_refl).
      + cbn [assigned] in A. rewrite PS in A. repeat (rewrite not_pack_last in A by exact N; cbn [nth_error] in A). injection A as <-. exists i, o. auto.
      + cbn [assigned] in A. rewrite PS in A. repeat (rewrite not_pack_last in A by exact N; cbn [nth_error] in A). discriminate. }
  destruct c; cbn [operands]; try (apply TWO; cbn; auto); clear TWO.
  - split.
    + intros (i & -> & G1 & G2). exists [("input", i)]%string. split; [reflexivity|]. rewrite G1, G2.
      repeat split; discriminate.
    + intros (av & A & G1 & G2 & N1 & _). destruct vs as [|i [|x r]].
      * injection A as <-. destruct (N1 eq_refl).
      * injection A as <-. exists i. auto.
      * cbn [assigned positionals] in A. repeat (rewrite not_pack_last in A by discriminate; cbn [nth_error] in A). discriminate.
  - rewrite assigned_hash. split.
    + intros (NE & G1 & G2). exists (map (pair "input"%string) vs). split; [reflexivity|].
      rewrite given_same, given_differ by discriminate. repeat split; try assumption. discriminate.
    + intros (av & A & G1 & G2 & N1 & _). injection A as <-. rewrite given_same in *. rewrite given_differ in G2 by discriminate.
      auto.
  - split.
    + intros (ins & o & NE & -> & G1 & G2). exists (map (pair "input"%string) ins ++ [("output"%string, o)]).
      split; [apply assigned_pack|]. rewrite !given_app, given_same, given_differ by discriminate.
      cbn. rewrite app_nil_r. repeat split; try assumption. discriminate.
    + intros (av & A & G1 & G2 & N1 & N2). specialize (N2 eq_refl). destruct (rev_case vs) as [E|(ins & o & E)]; subst vs.
      * injection A as <-. destruct (N1 eq_refl).
      * rewrite assigned_pack in A. injection A as <-. rewrite !given_app, given_same, given_differ in * by discriminate.
        cbn in *. rewrite app_nil_r in *. exists ins, o. auto.
Qed.

Theorem read_iff : forall c ws g,
  (exists g', read_args c ws = Some g' /\ forall id, g' id = g id) <-> says c ws g.
Proof.
  intros c ws g. split.
  - intros (g' & R & EQ). unfold read_args in R.
    destruct (read_words c false None 0 [] ws) as [gv|] eqn:RW; [|discriminate].
    destruct (valid c gv) eqn:VA; [|discriminate]. injection R as <-.
    apply valid_iff in VA as (VI & VO & VC).
    destruct (reads (List.length ws) c ws 0 [] gv (le_n _) RW) as (os & vs & av & L & A & F & ND & _ & G).
    { discriminate. } { reflexivity. } { intros ->. apply VO. reflexivity. }
    cbn [given_values filter map app] in G.
    assert (INP : forall id, id = "input"%string \/ id = "output"%string -> given_values gv id = given_values av id).
    { intros id I. rewrite G. rewrite (given_os_operand c os id (line_offers _ _ _ _ L) I). reflexivity. }
    exists os, vs. split; [exact L|]. split; [exact ND|]. split; [exact F|]. split; [|split; [|split]].
    + intros o v I. rewrite <- EQ, G. rewrite (os_one _ _ _ ND I).
      destruct (offered_found _ _ (line_offers _ _ _ _ L o v I)) as (_ & _ & _ & _ & _ & _ & _ & N1 & N2).
      rewrite (av_other _ _ _ _ A _ N1 N2). reflexivity.
    + intros id N1 N2 NO. rewrite <- EQ, G, (os_none _ _ NO), (av_other _ _ _ _ A _ N1 N2). reflexivity.
    + apply operands_iff. exists av. rewrite <- !EQ, !INP by auto. split; [exact A|]. split; [reflexivity|]. split; [reflexivity|].
      split.
      * rewrite <- (INP "input"%string) by auto. apply has_given, VI.
      * intros T. rewrite <- (INP "output"%string) by auto. apply has_given, VO, T.
    + rewrite <- !EQ. intros [X Y]. apply has_given in X, Y. destruct (makes c) eqn:M.
      * rewrite X, Y in VC. discriminate (VC eq_refl).
      * apply has_given in X. rewrite G in X. rewrite (av_other _ _ _ _ A) in X by discriminate.
        rewrite app_nil_r in X. apply X. apply os_none. intros o v I E. pose proof (line_offers _ _ _ _ L o v I) as OF.
        apply offers_list in OF. destruct c; try discriminate M; vm_compute in OF; in_cases OF; subst o; discriminate E.
  - intros (os & vs & L & ND & F & G1 & G2 & OP & NC). apply operands_iff in OP as (av & A & I & O & NI & NO).
    destruct (accepts _ _ _ _ L 0 [] av A F ND) as (gv & R & G); [reflexivity|].
    cbn [given_values filter map app] in G.
    assert (INP : forall id, id = "input"%string \/ id = "output"%string -> given_values gv id = given_values av id).
    { intros id J. rewrite G. rewrite (given_os_operand c os id (line_offers _ _ _ _ L) J). reflexivity. }
    assert (EQ : forall id, given_values gv id = g id).
    { intros id. destruct (String.eqb id "input") eqn:E1; [apply String.eqb_eq in E1; subst; rewrite INP by auto; auto|].
      destruct (String.eqb id "output") eqn:E2; [apply String.eqb_eq in E2; subst; rewrite INP by auto; auto|].
      apply String.eqb_neq in E1, E2. rewrite G, (av_other _ _ _ _ A _ E1 E2), app_nil_r.
      destruct (in_dec string_dec id (os_ids os)) as [J|J].
      - apply in_map_iff in J as ([o v] & <- & J). cbn [fst]. rewrite (os_one _ _ _ ND J). symmetry. exact (G1 o v J).
      - assert (K : forall o v, In (o, v) os -> n_id o <> id).
        { intros o v K E. apply J. apply in_map_iff. exists (o, v). auto. }
        rewrite (os_none _ _ K). symmetry. exact (G2 id E1 E2 K). }
    exists (given_values gv). split; [|exact EQ]. unfold read_args. rewrite R.
    replace (valid c gv) with true; [reflexivity|]. symmetry. apply valid_iff. split; [|split].
    + apply has_given. rewrite INP by auto. exact NI.
    + intros T. apply has_given. rewrite INP by auto. exact (NO T).
    + intros _. destruct (has "autogenerate"%string gv) eqn:X, (has "keyfile"%string gv) eqn:Y; try reflexivity.
      exfalso. apply NC. rewrite <- !EQ. split; apply has_given; assumption.
Qed.
