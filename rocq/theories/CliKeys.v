(** Proofs about arguments, key sources and prompts. *)
From Coq Require Import List Arith NArith ZArith String Bool Lia.
From Verif Require Import Bytes Outcome IO IOFacts Primitives KeyModel Overwrite FS FSSpec FSFacts Archive
  ToolSpec ToolProofs Cli CliSpec Utf8Facts.
Import ListNotations.
Local Open Scope nat_scope.
Local Open Scope list_scope.

Ltac bind_inv H x c' E :=
  unfold bind at 1 in H;
  match type of H with
  | context [match ?m ?c with (_, _) => _ end] => destruct (m c) as [[x| | |] c'] eqn:E
  end; try discriminate H.

(** ** [bytes_eqb] *)
Lemma bytes_eqb_eq : forall a b, bytes_eqb a b = true <-> a = b.
Proof.
  induction a as [|x a IH]; destruct b as [|y b]; cbn; split; try discriminate; auto.
  - intros H. apply andb_true_iff in H. destruct H as [H1 H2].
    apply Byte.byte_dec_bl in H1. apply IH in H2. congruence.
  - intros H. injection H as -> ->. apply andb_true_iff. split; [|apply IH; reflexivity].
    apply Byte.byte_dec_lb. reflexivity.
Qed.
Lemma is_nil_eq : forall l, is_nil l = true <-> l = [].
Proof. destruct l; cbn; split; congruence. Qed.
Lemma is_nil_neq : forall l, is_nil l = false <-> l <> [].
Proof. destruct l; cbn; split; congruence. Qed.

(** ** Typed passwords *)

Definition with_tty (t : list (option bytes)) (n : list note) (c : cli) : cli :=
  mkCli (c_a c) (c_stdin c) t (c_out c ++ n).

Lemma cli_eta : forall c, c = mkCli (c_a c) (c_stdin c) (c_tty c) (c_out c).
Proof. destruct c. reflexivity. Qed.

Lemma password_direct : forall fuel c,
  password_loop (S fuel) Direct c
  = match c_tty c with
    | Some l :: r => (Ok l, with_tty r [] c)
    | None :: r => (Err CPassword, with_tty r [] c)
    | [] => (Err CPassword, c)
    end.
Proof.
  intros fuel c. cbn [password_loop]. unfold bind, prompt_password, ret, with_tty.
  rewrite app_nil_r. destruct (c_tty c) as [|[l|] r]; reflexivity.
Qed.

(** What the validating loop does, by the inputs. *)
Lemma password_validate : forall fuel c o c', List.length (c_tty c) < fuel ->
  password_loop fuel Validate c = (o, c') ->
  (exists k before rest n, o = Ok k /\ c_tty c = before ++ Some k :: Some k :: rest
     /\ rejected before /\ k <> [] /\ c' = with_tty rest n c)
  \/ (o = Err CPassword /\ c_a c' = c_a c /\ c_stdin c' = c_stdin c
      /\ forall k before rest, c_tty c = before ++ Some k :: Some k :: rest ->
         rejected before -> k = []).
Proof.
  induction fuel as [|fuel IH]; intros c o c' L H; [lia|].
  cbn [password_loop] in H. unfold bind, prompt_password in H.
  assert (NR : forall (t : list (option bytes)) k before rest,
            t = before ++ Some k :: Some k :: rest -> rejected before -> 2 <= List.length t).
  { intros t k before rest -> _. rewrite app_length. cbn. lia. }
  destruct (c_tty c) as [|[a|] t] eqn:T; cbn [fst snd c_tty] in H.
  - injection H as <- <-. right. repeat split; auto. intros k b r HH R.
    apply NR in HH; [|exact R]. cbn in HH. lia.
  - destruct t as [|[b|] t]; cbn [fst snd c_tty c_a c_stdin c_out] in H.
    + injection H as <- <-. right. repeat split; auto. intros k b r HH R.
      apply NR in HH; [|exact R]. cbn in HH. lia.
    + destruct (bytes_eqb a b && negb (is_nil a))%bool eqn:EQ.
      * unfold ret in H. injection H as <- <-. left. apply andb_true_iff in EQ. destruct EQ as [E1 E2].
        apply bytes_eqb_eq in E1. apply negb_true_iff in E2. apply is_nil_neq in E2. subst b.
        exists a, [], t, []. unfold with_tty. rewrite app_nil_r. repeat split; auto. constructor.
      * unfold say in H. cbn [c_a c_stdin c_tty c_out] in H.
        assert (BAD : a <> b \/ a = []).
        { apply andb_false_iff in EQ. destruct EQ as [E1|E1].
          - left. intros ->. assert (bytes_eqb b b = true) by (apply bytes_eqb_eq; reflexivity). congruence.
          - right. apply negb_false_iff in E1. apply is_nil_eq. exact E1. }
        apply IH in H; [|cbn in *; lia].
        cbn [c_a c_stdin c_tty c_out] in H.
        destruct H as [(k & before & rest & n & H1 & H2 & H3 & H4 & H5)|(H1 & H2 & H3 & H4)].
        -- left. exists k, (Some a :: Some b :: before), rest, (NWarn :: n).
           repeat split; auto.
           ++ rewrite H2. reflexivity.
           ++ constructor; auto.
           ++ rewrite H5. unfold with_tty. cbn [c_a c_stdin c_tty c_out].
              rewrite <- app_assoc. reflexivity.
        -- right. repeat split; auto. intros k before rest HH R.
           inversion R as [|a' b' l' RB R']; subst before.
           ++ cbn in HH. injection HH as -> -> _. destruct BAD as [BAD|BAD]; congruence.
           ++ cbn in HH. injection HH as -> -> HH. eapply H4; eauto.
    + injection H as <- <-. right. repeat split; auto. intros k before rest HH R.
      inversion R; subst before; cbn in HH; discriminate HH.
  - injection H as <- <-. right. repeat split; auto. intros k before rest HH R.
    inversion R; subst before; cbn in HH; discriminate HH.
Qed.

(** ** Key files *)
Lemma read_keyfile_any : forall p s o s', read_keyfile p s = (o, s') ->
  same_disk s s' /\ o <> Panic /\ o <> Diverge /\ (no_faults s -> no_faults s')
  /\ (forall l, o = Ok l -> exists i, stat s p = Some (NFile i) /\ l = s_data s i)
  /\ (no_faults s -> forall i, stat s p = Some (NFile i) -> o = Ok (s_data s i))
  /\ (forall e, o = Err e -> e = CKeyfile).
Proof.
  intros p s o s' H. unfold read_keyfile in H.
  destruct (call_or_inv _ _ _ _ _ H) as (s1 & D & _ & PL & C & [(-> & -> & NF)|HM]).
  { split; [exact D|]. split; [discriminate|]. split; [discriminate|].
    split; [intros [F _]; contradiction|]. split; [discriminate|].
    split; [intros [F _]; contradiction|]. intros e HE. injection HE as <-. reflexivity. }
  assert (C1 : no_faults s -> no_faults s1) by (intros [F P]; rewrite (C F); split; assumption).
  assert (BAD : forall q, (forall i, stat s p <> Some (NFile i)) -> (Err CKeyfile, q) = (o, s') ->
     q = s1 ->
     same_disk s s' /\ o <> Panic /\ o <> Diverge /\ (no_faults s -> no_faults s')
     /\ (forall l, o = Ok l -> exists i, stat s p = Some (NFile i) /\ l = s_data s i)
     /\ (no_faults s -> forall i, stat s p = Some (NFile i) -> o = Ok (s_data s i))
     /\ (forall e, o = Err e -> e = CKeyfile)).
  { intros q NS HH ->. injection HH as <- <-. split; [exact D|]. split; [discriminate|].
    split; [discriminate|]. split; [exact C1|]. split; [discriminate|].
    split; [intros _ i SI; destruct (NS i SI)|]. intros e HE. injection HE as <-. reflexivity. }
  assert (ST : stat s1 p = stat s p) by (apply stat_disk; exact D).
  rewrite ST in HM.
  destruct (stat s p) as [[|i|t]|] eqn:SP;
    try (eapply BAD; [|exact HM|reflexivity]; discriminate).
  clear BAD.
  destruct (next_plan s1) as [plan s2] eqn:NP.
  destruct (next_plan_spec _ _ _ NP) as (D2 & _ & F2 & C2).
  assert (D3 : same_disk s s2) by (eapply same_disk_trans; eauto).
  assert (DD : s_data s1 i = s_data s i) by (destruct D as (_ & -> & _); reflexivity).
  rewrite DD in HM.
  assert (CALM : no_faults s -> no_faults s2 /\ plan = []).
  { intros [F P]. destruct (C2) as [-> ->]; [congruence|]. split; [|reflexivity].
    rewrite (C F). split; assumption. }
  destruct (dev_read_to_end (mkDev (s_data s i) 0 plan [])) as [r d] eqn:RD.
  pose proof (dev_read_to_end_spec _ _ _ RD) as (_ & _ & _ & SP2). cbn [d_pos d_data d_plan] in SP2.
  rewrite skipn_O in SP2.
  destruct r as [l|e| |]; try contradiction; injection HM as <- <-;
    (split; [exact D3|]); (split; [discriminate|]); (split; [discriminate|]);
    (split; [intros NF; apply CALM; exact NF|]).
  - split; [intros l' HE; injection HE as <-; exists i; auto|].
    split; [intros _ j HE; injection HE as <-; congruence|discriminate].
  - split; [discriminate|].
    split; [intros NF; destruct (CALM NF); contradiction|].
    intros x HE. injection HE as <-. reflexivity.
Qed.

(** ** [get_secret] *)

Lemma list_byte_nil : forall s, list_byte_of_string s = [] <-> s = EmptyString.
Proof. destruct s; cbn; split; congruence. Qed.

Lemma on_fs_eq : forall {E A} (m : M sys E A) c o s', m (disk c) = (o, s') ->
  on_fs m c = (o, mkCli (s', snd (c_a c)) (c_stdin c) (c_tty c) (c_out c)).
Proof.
  intros E A m c o s' H. unfold on_fs, on_a, zoom, on_sys, zoom, disk in *. rewrite H. reflexivity.
Qed.

Definition secret_error (e : cli_error) : Prop :=
  In e [CKeyfile; CEmptyStdin; CEmptyKeyfile; CEmptyKey; CEnvironment; CPassword].

(** Everything [get_secret] does. *)
Lemma get_secret_any : forall V k st c o c', get_secret V k st c = (o, c') ->
  same_disk (disk c) (disk c') /\ snd (c_a c') = snd (c_a c)
  /\ (no_faults (disk c) -> no_faults (disk c'))
  /\ o <> Diverge
  /\ (o = Panic -> exists n, k = Generate n
       /\ generate_passphrase (ce_words V) (ce_draw V) n = Panic)
  /\ (forall l, o = Ok l -> yields V c k st l (c_tty c'))
  /\ (forall e, o = Err e -> secret_error e
       /\ (no_faults (disk c) -> forall l t, ~ yields V c k st l t)).
Proof.
  intros V k st c o c' H. unfold get_secret in H.
  assert (QUIET : forall c1, c_a c1 = c_a c ->
    same_disk (disk c) (disk c1) /\ snd (c_a c1) = snd (c_a c)
    /\ (no_faults (disk c) -> no_faults (disk c1))).
  { intros c1 EQ. unfold disk. rewrite EQ. split; [apply same_disk_refl|]. auto. }
  destruct k as [p| |n|].
  - (* Keyfile *)
    destruct (String.eqb p "-") eqn:DASH.
    + apply String.eqb_eq in DASH. subst p. unfold bind, read_stdin in H.
      destruct (is_nil (c_stdin c)) eqn:NIL.
      * unfold err in H. injection H as <- <-.
        destruct (QUIET (mkCli (c_a c) [] (c_tty c) (c_out c)) eq_refl) as (Q1 & Q2 & Q3).
        repeat (split; [assumption||discriminate|]). intros e HE. injection HE as <-.
        split; [cbn; auto|]. intros _ l t Y. apply is_nil_eq in NIL.
        inversion Y; subst; congruence.
      * unfold ret in H. rewrite NIL in H. injection H as <- <-.
        destruct (QUIET (mkCli (c_a c) [] (c_tty c) (c_out c)) eq_refl) as (Q1 & Q2 & Q3).
        repeat (split; [assumption||discriminate|]). split; [|discriminate].
        intros l HE. injection HE as <-. cbn [c_tty]. constructor. apply is_nil_neq. exact NIL.
    + apply String.eqb_neq in DASH. unfold bind in H.
      destruct (read_keyfile (os_path p) (disk c)) as [ok s1] eqn:RK.
      destruct (read_keyfile_any _ _ _ _ RK) as (D & NP & ND & CALM & OKS & OKC & ERR).
      rewrite (on_fs_eq _ _ _ _ RK) in H.
      set (c1 := mkCli (s1, snd (c_a c)) (c_stdin c) (c_tty c) (c_out c)) in *.
      assert (D1 : same_disk (disk c) (disk c1) /\ snd (c_a c1) = snd (c_a c)
                   /\ (no_faults (disk c) -> no_faults (disk c1))) by (split; [exact D|]; split; [reflexivity|exact CALM]).
      destruct D1 as (Q1 & Q2 & Q3).
      destruct ok as [l|e| |]; try congruence.
      * destruct (OKS l eq_refl) as (i & SI & ->).
        destruct (is_nil (s_data (disk c) i)) eqn:NIL.
        -- unfold err in H. injection H as <- <-.
           repeat (split; [assumption||discriminate|]). intros e HE. injection HE as <-.
           split; [cbn; auto|]. intros _ l t Y. apply is_nil_eq in NIL.
           inversion Y; subst; congruence.
        -- unfold ret in H. rewrite NIL in H. injection H as <- <-.
           repeat (split; [assumption||discriminate|]). split; [|discriminate].
           intros l HE. injection HE as <-. cbn [c1 c_tty]. apply y_keyfile; auto.
           apply is_nil_neq. exact NIL.
      * rewrite (ERR e eq_refl) in H. injection H as <- <-.
        repeat (split; [assumption||discriminate|]). intros x HE. injection HE as <-.
        split; [cbn; auto|]. intros NF l t Y. inversion Y; subst; [congruence|].
        pose proof (OKC NF i ltac:(assumption)). congruence.
  - (* Env *)
    unfold bind, lift_opt in H. destruct (QUIET c eq_refl) as (Q1 & Q2 & Q3).
    destruct (ce_key V) as [k|] eqn:K.
    + unfold ret in H. destruct (is_nil k) eqn:NIL.
      * unfold err in H. injection H as <- <-.
        repeat (split; [assumption||discriminate|]). intros e HE. injection HE as <-.
        split; [cbn; auto 10|]. intros _ l t Y. apply is_nil_eq in NIL.
        inversion Y; subst; congruence.
      * injection H as <- <-.
        repeat (split; [assumption||discriminate|]). split; [|discriminate].
        intros l HE. injection HE as <-. constructor; auto. apply is_nil_neq. exact NIL.
    + unfold err in H. injection H as <- <-.
      repeat (split; [assumption||discriminate|]). intros e HE. injection HE as <-.
      split; [cbn; auto 10|]. intros _ l t Y. inversion Y; subst; congruence.
  - (* Generate *)
    unfold bind, lift in H. destruct (QUIET c eq_refl) as (Q1 & Q2 & Q3).
    pose proof (passphrase_holds (ce_words V) (ce_draw V) n) as PH.
    destruct (generate_passphrase (ce_words V) (ce_draw V) n) as [ph|e| |] eqn:G; try contradiction.
    + clear PH. unfold say, ret in H. cbn [c_a c_stdin c_tty c_out] in H.
      set (c1 := mkCli (c_a c) (c_stdin c) (c_tty c) (c_out c ++ [NPhrase ph])) in *.
      destruct (QUIET c1 eq_refl) as (R1 & R2 & R3).
      destruct (is_nil (list_byte_of_string ph)) eqn:NIL.
      * unfold err in H. injection H as <- <-.
        repeat (split; [assumption||discriminate|]). intros e HE. injection HE as <-.
        split; [cbn; auto 10|]. intros _ l t Y. apply is_nil_eq in NIL. apply list_byte_nil in NIL.
        inversion Y; subst. congruence.
      * injection H as <- <-.
        repeat (split; [assumption||discriminate|]). split; [|discriminate].
        intros l HE. injection HE as <-. cbn [c1 c_tty]. constructor; auto.
        apply is_nil_neq in NIL. intros ->. apply NIL. reflexivity.
    + injection H as <- <-.
      repeat (split; [assumption||discriminate|]). split; [eauto|]. split; discriminate.
  - (* User *)
    unfold bind, get_password in H. destruct st.
    + destruct (password_loop (S (List.length (c_tty c))) Validate c) as [r c1] eqn:PL.
      destruct (password_validate _ _ _ _ (Nat.lt_succ_diag_r _) PL)
        as [(k & before & rest & n & -> & T & RJ & NE & ->)|(-> & CA & CS & NO)].
      * destruct (is_nil k) eqn:NIL; [apply is_nil_eq in NIL; contradiction|].
        unfold ret in H. injection H as <- <-.
        destruct (QUIET (with_tty rest n c) eq_refl) as (Q1 & Q2 & Q3).
        repeat (split; [assumption||discriminate|]). split; [|discriminate].
        intros l HE. injection HE as <-. cbn [with_tty c_tty]. eapply y_validate; eauto.
      * injection H as <- <-. destruct (QUIET c1 CA) as (Q1 & Q2 & Q3).
        repeat (split; [assumption||discriminate|]). intros e HE. injection HE as <-.
        split; [cbn; auto 10|]. intros _ l t Y. inversion Y; subst.
        match goal with X : _ <> [] |- _ => apply X end. eapply NO; eauto.
    + rewrite password_direct in H. destruct (QUIET c eq_refl) as (Q1 & Q2 & Q3).
      destruct (c_tty c) as [|[l|] r] eqn:T.
      * injection H as <- <-.
        repeat (split; [assumption||discriminate|]). intros e HE. injection HE as <-.
        split; [cbn; auto 10|]. intros _ l t Y. inversion Y; subst; congruence.
      * destruct (QUIET (with_tty r [] c) eq_refl) as (R1 & R2 & R3).
        destruct (is_nil l) eqn:NIL.
        -- unfold err in H. injection H as <- <-.
           repeat (split; [assumption||discriminate|]). intros e HE. injection HE as <-.
           split; [cbn; auto 10|]. intros _ l' t Y. apply is_nil_eq in NIL. inversion Y; subst; congruence.
        -- unfold ret in H. injection H as <- <-.
           repeat (split; [assumption||discriminate|]). split; [|discriminate].
           intros l' HE. injection HE as <-. cbn [with_tty c_tty]. constructor; auto.
           apply is_nil_neq. exact NIL.
      * destruct (QUIET (with_tty r [] c) eq_refl) as (R1 & R2 & R3).
        injection H as <- <-.
        repeat (split; [assumption||discriminate|]). intros e HE. injection HE as <-.
        split; [cbn; auto 10|]. intros _ l' t Y. inversion Y; subst; congruence.
Qed.

Lemma yields_nonempty : forall V c k st l t, yields V c k st l t -> l <> [].
Proof.
  intros V c k st l t Y. destruct Y; auto.
  intros E. apply list_byte_nil in E. contradiction.
Qed.

Lemma rejected_unique : forall b b' k k' r r',
  b ++ Some k :: Some k :: r = b' ++ Some k' :: Some k' :: r' ->
  rejected b -> rejected b' -> k <> [] -> k' <> [] -> k = k' /\ r = r'.
Proof.
  intros b b' k k' r r' E R. revert b' E. induction R as [|x y l XY R IH]; intros b' E R' K K'.
  - inversion R' as [|x y l XY R2]; subst b'.
    + cbn in E. injection E as -> _ ->. auto.
    + cbn in E. injection E as -> -> _. destruct XY; congruence.
  - inversion R' as [|x' y' l' XY' R2]; subst b'.
    + cbn in E. injection E as -> -> _. destruct XY; congruence.
    + cbn in E. injection E as -> -> E. eapply IH; eauto.
Qed.

Lemma yields_unique : forall V c k st l t l' t', yields V c k st l t -> yields V c k st l' t' ->
  l = l' /\ t = t'.
Proof.
  intros V c k st l t l' t' Y Y'.
  destruct Y; inversion Y'; subst; try congruence; try (split; congruence).
  match goal with
    | A : c_tty c = before ++ _, B : c_tty c = ?b2 ++ _ |- _ =>
        rewrite A in B; apply (rejected_unique before b2 _ _ _ _ B); assumption
  end.
Qed.

(** [get_secret] succeeds exactly on what the source yields. *)
Lemma get_secret_ok : forall V k st c l t, no_faults (disk c) -> yields V c k st l t ->
  exists c', get_secret V k st c = (Ok l, c') /\ c_tty c' = t.
Proof.
  intros V k st c l t NF Y. destruct (get_secret V k st c) as [o c'] eqn:G. exists c'.
  destruct (get_secret_any _ _ _ _ _ _ G) as (_ & _ & _ & ND & NP & OK & ER).
  destruct o as [l'|e| |].
  - destruct (yields_unique _ _ _ _ _ _ _ _ (OK l' eq_refl) Y) as [-> ->]. auto.
  - destruct (ER e eq_refl) as [_ N]. destruct (N NF l t Y).
  - destruct (NP eq_refl) as (n & -> & P). inversion Y; subst. congruence.
  - congruence.
Qed.

(** ** [Key::init] *)

Definition takes_key (cmd : command) : Prop := In cmd [CmdEncrypt; CmdDecrypt; CmdPack; CmdUnpack].

Lemma key_init_cases : forall V cmd g c, takes_key cmd ->
  let r := key_init V (mkMatches (args_of cmd) g) key_params_default "keyfile" c in
  (exists k n, key_source V cmd g k /\ r = (Ok k, mkCli (c_a c) (c_stdin c) (c_tty c) (c_out c ++ n))
     /\ (ce_debug V = false \/ k <> User))
  \/ (key_source V cmd g User /\ ce_debug V = true /\ r = (Panic, c)).
Proof.
  intros V cmd g c T.
  assert (FK : exists a, find_arg (mkMatches (args_of cmd) g) "keyfile" = Some a /\ a_default a = None).
  { destruct T as [<-|[<-|[<-|[<-|[]]]]]; eexists; split; reflexivity. }
  destruct FK as (ak & FK & AD).
  assert (ETA : c = mkCli (c_a c) (c_stdin c) (c_tty c) (c_out c ++ [])).
  { rewrite app_nil_r. apply cli_eta. }
  unfold key_init, contains_id, get_one. rewrite FK, AD. cbn [kp_keyfile kp_env kp_autogenerate kp_user key_params_default m_given].
  destruct (g "keyfile"%string) as [|v vs] eqn:GK.
  - assert (NG : not_given g "keyfile") by exact GK.
    unfold bind, ret. cbn [andb].
    destruct (ce_key V) as [ek|] eqn:EK.
    + left. exists Env, []. split; [constructor; [exact NG|congruence]|]. split; [rewrite <- ETA; reflexivity|].
      right. discriminate.
    + cbn [andb].
      assert (A : In cmd [CmdEncrypt; CmdPack] \/ In cmd [CmdDecrypt; CmdUnpack]).
      { destruct T as [<-|[<-|[<-|[<-|[]]]]]; cbn; auto 10. }
      destruct A as [A|A].
      * assert (FA : exists a, find_arg (mkMatches (args_of cmd) g) "autogenerate" = Some a
                     /\ a_default a = Some "7"%string).
        { destruct A as [<-|[<-|[]]]; eexists; split; reflexivity. }
        destruct FA as (aa & FA & AA). rewrite FA, AA.
        destruct (g "autogenerate"%string) as [|v vs] eqn:GA.
        -- left. exists (Generate 7), []. split; [apply ks_unasked; auto|].
           split; [rewrite <- ETA; reflexivity|right; discriminate].
        -- cbn [andb lift_opt]. unfold ret, say. destruct (parse_i32 v) as [n|] eqn:P.
           ++ left. exists (Generate n), []. split; [eapply ks_number; eauto; exists vs; exact GA|].
              split; [rewrite <- ETA; reflexivity|right; discriminate].
           ++ left. exists (Generate 7), [NWarn]. split; [eapply ks_no_number; eauto; exists vs; exact GA|].
              split; [reflexivity|right; discriminate].
      * assert (FA : find_arg (mkMatches (args_of cmd) g) "autogenerate" = None).
        { destruct A as [<-|[<-|[]]]; reflexivity. }
        rewrite FA. assert (KS : key_source V cmd g User) by (apply ks_user; auto).
        destruct (ce_debug V) eqn:DB.
        -- right. auto.
        -- left. exists User, []. split; [exact KS|]. split; [rewrite <- ETA; reflexivity|auto].
  - left. exists (Keyfile v), []. split; [apply ks_keyfile; exists vs; exact GK|].
    split; [|right; discriminate]. unfold bind, ret. cbn [andb lift_opt]. unfold ret.
    rewrite <- ETA. reflexivity.
Qed.

Lemma key_source_unique : forall V cmd g k k', key_source V cmd g k -> key_source V cmd g k' -> k = k'.
Proof.
  intros V cmd g k k' A B.
  destruct A; inversion B; subst; unfold given, not_given in *;
    repeat match goal with H : exists _, _ |- _ => destruct H end; try congruence.
  all: repeat match goal with H : In _ [_; _] |- _ => destruct H as [?|[?|[]]] end; subst; congruence.
Qed.

(** ** Answers *)

Lemma read_line_split : forall l, fst (read_line l) ++ snd (read_line l) = l.
Proof.
  induction l as [|b r IH]; [reflexivity|]. cbn [read_line].
  destruct (Byte.eqb b newline); [reflexivity|].
  destruct (read_line r) as [x y]. cbn in *. congruence.
Qed.

Lemma byte_eqb_eq : forall a b, Byte.eqb a b = true <-> a = b.
Proof.
  intros a b. split; [apply Byte.byte_dec_bl|apply Byte.byte_dec_lb].
Qed.
Lemma byte_eqb_neq : forall a b, Byte.eqb a b = false <-> a <> b.
Proof.
  intros a b. pose proof (byte_eqb_eq a b). destruct (Byte.eqb a b); split; intuition congruence.
Qed.

Lemma read_line_full : forall b r, ~ In x0a b -> read_line (b ++ x0a :: r) = (b ++ [x0a], r).
Proof.
  induction b as [|x b IH]; intros r N; [reflexivity|]. cbn [app read_line].
  destruct (Byte.eqb x newline) eqn:E.
  - apply byte_eqb_eq in E. exfalso. apply N. left. exact E.
  - rewrite IH; [reflexivity|]. intros X. apply N. right. exact X.
Qed.
Lemma read_line_last : forall b, ~ In x0a b -> read_line b = (b, []).
Proof.
  induction b as [|x b IH]; intros N; [reflexivity|]. cbn [read_line].
  destruct (Byte.eqb x newline) eqn:E.
  - apply byte_eqb_eq in E. exfalso. apply N. left. exact E.
  - rewrite IH; [reflexivity|]. intros X. apply N. right. exact X.
Qed.
Lemma read_line_lines : forall l ls, lines l ls ->
  match ls with
  | [] => l = []
  | x :: r => exists y, read_line l = (x, y) /\ lines y r /\ x <> []
  end.
Proof.
  intros l ls H. destruct H as [|l NE N|l r ls N H].
  - reflexivity.
  - exists []. split; [apply read_line_last; exact N|]. split; [constructor|exact NE].
  - exists r. split; [apply read_line_full; exact N|]. split; [exact H|]. destruct l; discriminate.
Qed.

Lemma lines_exist : forall l, exists ls, lines l ls.
Proof.
  assert (A : forall n l, List.length l < n -> exists ls, lines l ls).
  { induction n as [|n IH]; intros l L; [lia|].
    destruct (in_dec Byte.byte_eq_dec x0a l) as [I|N].
    - assert (exists a b, l = a ++ x0a :: b /\ ~ In x0a a) as (a & b & -> & N).
      { clear L. induction l as [|x l IHl]; [destruct I|].
        destruct (Byte.byte_eq_dec x x0a) as [->|NX].
        - exists [], l. split; auto.
        - destruct I as [I|I]; [congruence|]. destruct (IHl I) as (a & b & -> & N).
          exists (x :: a), b. split; [reflexivity|]. intros [X|X]; auto. }
      destruct (IH b) as [ls LS]; [rewrite app_length in L; cbn in L; lia|].
      eexists. apply lines_more; eauto.
    - destruct l as [|x l]; [exists []; constructor|]. eexists. apply lines_last; [discriminate|exact N]. }
  intros l. eapply A. apply Nat.lt_succ_diag_r.
Qed.

Lemma read_answer_some : forall d l b, read_answer d l = Some b <-> means d l b.
Proof.
  intros d l b. unfold read_answer, means. destruct l as [|x r].
  - split; [discriminate|]. intros (? & ? & ? & _). discriminate.
  - destruct (Byte.eqb x newline || Byte.eqb x carriage)%bool eqn:E1.
    + apply orb_true_iff in E1. rewrite !byte_eqb_eq in E1. unfold newline, carriage in E1.
      split.
      * intros X. injection X as <-. exists x, r. auto.
      * intros (x' & r' & X & Y). injection X as <- <-.
        destruct E1; subst x; destruct Y as [[_ ->]|[[[Y|Y] _]|[[Y|Y] _]]]; try discriminate; reflexivity.
    + apply orb_false_iff in E1. rewrite !byte_eqb_neq in E1. unfold newline, carriage in E1. destruct E1 as [N1 N2].
      destruct (Byte.eqb x "y" || Byte.eqb x "Y")%bool eqn:E2.
      * apply orb_true_iff in E2. rewrite !byte_eqb_eq in E2. split.
        -- intros X. injection X as <-. exists x, r. auto.
        -- intros (x' & r' & X & Y). injection X as <- <-.
           destruct E2; subst x; destruct Y as [[[Y|Y] _]|[[_ ->]|[[Y|Y] _]]]; try discriminate; reflexivity.
      * apply orb_false_iff in E2. rewrite !byte_eqb_neq in E2. destruct E2 as [N3 N4].
        destruct (Byte.eqb x "n" || Byte.eqb x "N")%bool eqn:E3.
        -- apply orb_true_iff in E3. rewrite !byte_eqb_eq in E3. split.
           ++ intros X. injection X as <-. exists x, r. auto.
           ++ intros (x' & r' & X & Y). injection X as <- <-.
              destruct E3; subst x; destruct Y as [[[Y|Y] _]|[[[Y|Y] _]|[_ ->]]]; try discriminate; reflexivity.
        -- apply orb_false_iff in E3. rewrite !byte_eqb_neq in E3. destruct E3 as [N5 N6].
           split; [discriminate|]. intros (x' & r' & X & Y). injection X as <- <-.
           exfalso. destruct Y as [[[->| ->] _]|[[[->| ->] _]|[[->| ->] _]]]; congruence.
Qed.

Lemma count_asked_app : forall a b, count_asked (a ++ b) = count_asked a + count_asked b.
Proof. intros. unfold count_asked. rewrite filter_app, app_length. reflexivity. Qed.

Lemma answer_loop_spec : forall ls fuel prompt d c, lines (c_stdin c) ls ->
  List.length (c_stdin c) < fuel ->
  exists o n r c' ns, dialogue d ls o n r
    /\ answer_loop fuel prompt d c
       = (match o with Some b => Ok b | None => Err CAnswer end, c')
    /\ lines (c_stdin c') r /\ c_a c' = c_a c /\ c_tty c' = c_tty c
    /\ c_out c' = c_out c ++ ns /\ count_asked ns = n
    /\ Forall (fun x => x = NAsk prompt \/ x = NWarn) ns.
Proof.
  induction ls as [|l ls IH]; intros fuel prompt d c LS LT.
  - pose proof (read_line_lines _ _ LS) as E.
    destruct fuel as [|fuel]; [lia|]. cbn [answer_loop]. unfold bind, say.
    cbn [c_a c_stdin c_tty c_out]. rewrite E. cbn [read_line utf8 negb is_nil err].
    eexists None, 1, [], _, [NAsk prompt]. split; [constructor|]. split; [reflexivity|].
    split; [constructor|]. repeat split; auto.
  - destruct (read_line_lines _ _ LS) as (y & RL & LY & NE).
    destruct fuel as [|fuel]; [lia|]. cbn [answer_loop]. unfold bind, say.
    cbn [c_a c_stdin c_tty c_out]. rewrite RL.
    pose proof (read_line_split (c_stdin c)) as SPL. rewrite RL in SPL. cbn [fst snd] in SPL.
    destruct (utf8 l) eqn:U; cbn [negb].
    2:{ eexists None, 1, ls, _, [NAsk prompt]. split; [constructor; apply utf8_no, U|]. split; [reflexivity|].
        split; [exact LY|]. repeat split; auto. }
    apply utf8_iff in U.
    assert (NN : is_nil l = false) by (apply is_nil_neq; exact NE). rewrite NN.
    destruct (read_answer d l) as [b|] eqn:RA.
    + apply read_answer_some in RA.
      eexists (Some b), 1, ls, _, [NAsk prompt]. split; [constructor; assumption|].
      split; [reflexivity|]. split; [exact LY|]. repeat split; auto.
    + assert (NM : forall b, ~ means d l b).
      { intros b MB. apply read_answer_some in MB. congruence. }
      cbn [c_a c_stdin c_tty c_out].
      set (c1 := mkCli (c_a c) y (c_tty c) ((c_out c ++ [NAsk prompt]) ++ [NWarn])).
      destruct (IH fuel prompt d c1 LY) as (o & n & r & c' & ns & D & A & L' & CA & CT & CO & CN & FA).
      { cbn [c1 c_stdin]. rewrite <- SPL, app_length in LT. destruct l; [congruence|]. cbn in LT. lia. }
      exists o, (S n), r, c', (NAsk prompt :: NWarn :: ns). split; [constructor; assumption|].
      split; [exact A|]. split; [exact L'|]. split; [exact CA|]. split; [exact CT|].
      split; [rewrite CO; cbn [c1 c_out]; rewrite <- !app_assoc; reflexivity|].
      split; [cbn; f_equal; exact CN|]. constructor; auto. 
Qed.

Lemma dialogue_unique : forall d ls o n r o' n' r', dialogue d ls o n r -> dialogue d ls o' n' r' ->
  o = o' /\ n = n' /\ r = r'.
Proof.
  intros d ls o n r o' n' r' H. revert o' n' r'.
  induction H as [|l r U|l r b U MB|l r o n r1 U NM D IH]; intros o' n' r' H2; inversion H2; subst; try congruence; auto.
  - apply read_answer_some in MB.
    match goal with X : means _ _ b0 |- _ => apply read_answer_some in X; rewrite X in MB end.
    split; [congruence|auto].
  - exfalso. match goal with X : forall b, ~ means _ _ b |- _ => eapply X; eauto end.
  - exfalso. eapply NM. eassumption.
  - match goal with X : dialogue _ r o' _ _ |- _ => destruct (IH _ _ _ X) as (-> & -> & ->) end. auto.
Qed.

(** [get_answer], completely. *)
Lemma get_answer_holds : forall prompt d force c ls, lines (c_stdin c) ls ->
  match force with
  | Force => get_answer prompt d force c = (Ok true, c)
  | Prompt => exists o n r c' ns, dialogue d ls o n r
      /\ get_answer prompt d force c
         = (match o with Some b => Ok b | None => Err CAnswer end, c')
      /\ lines (c_stdin c') r /\ c_a c' = c_a c /\ c_tty c' = c_tty c
      /\ c_out c' = c_out c ++ ns /\ count_asked ns = n
      /\ Forall (fun x => x = NAsk prompt \/ x = NWarn) ns
  end.
Proof.
  intros prompt d [|] c ls LS; [reflexivity|]. apply answer_loop_spec; [exact LS|lia].
Qed.

Lemma get_answer_any : forall prompt d force c o c', get_answer prompt d force c = (o, c') ->
  c_a c' = c_a c /\ c_tty c' = c_tty c /\ ((exists b, o = Ok b) \/ o = Err CAnswer).
Proof.
  intros prompt d force c o c' H. destruct (lines_exist (c_stdin c)) as [ls LS].
  pose proof (get_answer_holds prompt d force c ls LS) as G. destruct force.
  - rewrite G in H. injection H as <- <-. eauto.
  - destruct G as (o' & n & r & c1 & ns & _ & E & _ & CA & CT & _). rewrite E in H.
    injection H as <- <-. split; [exact CA|]. split; [exact CT|]. destruct o'; eauto.
Qed.

Lemma overwrite_check_any : forall name force c o c', overwrite_check name force c = (o, c') ->
  c_a c' = c_a c /\ c_tty c' = c_tty c /\ ((exists b, o = Ok b) \/ o = Err CAnswer)
  /\ (exists_path (disk c) (os_path name) = false -> o = Ok true /\ c' = c).
Proof.
  intros name force c o c' H. unfold overwrite_check in H. fold (disk c) in H.
  destruct (exists_path (disk c) (os_path name)) eqn:X.
  - destruct (get_answer_any _ _ _ _ _ _ H) as (A & B & C). repeat split; auto; discriminate.
  - injection H as <- <-. repeat split; eauto.
Qed.

Lemma check_or_exit_any : forall name force c o c', check_or_exit name force c = (o, c') ->
  c_a c' = c_a c /\ c_tty c' = c_tty c /\ In o [Ok tt; Err CAnswer; Err CExit]
  /\ (exists_path (disk c) (os_path name) = false -> o = Ok tt /\ c' = c).
Proof.
  intros name force c o c' H. unfold check_or_exit, bind in H.
  destruct (overwrite_check name force c) as [r c1] eqn:W.
  destruct (overwrite_check_any _ _ _ _ _ W) as (A & B & C & D).
  destruct C as [[b ->]| ->].
  - destruct b; unfold ret, err in H; injection H as <- <-.
    + split; [exact A|]. split; [exact B|]. split; [cbn; auto|]. intros X. destruct (D X). auto.
    + split; [exact A|]. split; [exact B|]. split; [cbn; auto|]. intros X. destruct (D X). discriminate.
  - injection H as <- <-. split; [exact A|]. split; [exact B|]. split; [cbn; auto|]. intros X. destruct (D X). discriminate.
Qed.
