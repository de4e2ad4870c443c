(** The results about the command line, in the form of the properties. *)
From Coq Require Import List Arith ZArith Ascii String Bool Lia.
From Verif Require Import Bytes Outcome IO Primitives KeyModel Hash FS Archive Cli CliSpec CliCommands Clap ClapSpec ClapProofs.
Import ListNotations.
Local Open Scope nat_scope.
Local Open Scope list_scope.

(** ** What is read is what clap guarantees, and all of it can be said *)

Lemma read_command_iff : forall line c g,
  (exists g', read_command line = Some (c, g') /\ forall id, g' id = g id)
  <-> exists w ws, line = w :: ws /\ called c w /\ says c ws g.
Proof.
  assert (CW : forall c w, called c w <-> exists x, find (fun x => String.eqb (fst x) w) subcommands = Some (x, c)).
  { intros c w. split.
    - intros (l & I & J). unfold command_words in I. in_cases I; injection I as <- <-; in_cases J; subst w; eexists; reflexivity.
    - intros (x & F). apply find_some in F as [I E]. apply String.eqb_eq in E. cbn [fst] in E. subst x.
      unfold subcommands in I. unfold called, command_words.
      in_cases I; injection I as <- <-; eexists; (split; [cbn [In]; eauto 8|cbn [In]; auto]). }
  intros line c g. split.
  - intros (g' & R & E). destruct line as [|w ws]; [discriminate|]. cbn [read_command] in R. exists w, ws. split; [reflexivity|].
    destruct (find _ subcommands) as [[x d]|] eqn:F; [|discriminate].
    destruct (read_args d ws) as [g2|] eqn:RA; [|discriminate]. injection R as -> ->.
    split; [apply CW; eauto|]. apply read_iff. eauto.
  - intros (w & ws & -> & C & S). apply CW in C as (x & F). apply read_iff in S as (g' & R & E).
    exists g'. split; [|exact E]. cbn [read_command]. rewrite F, R. reflexivity.
Qed.

Lemma says_ok : forall c ws g, says c ws g -> matches_ok (mkMatches (args_of c) g).
Proof.
  intros c ws g (os & vs & L & ND & F & G1 & G2 & OP & NC).
  assert (OPT : forall id, id <> "input"%string -> id <> "output"%string ->
            g id = [] \/ exists o v, In (o, v) os /\ offers c o /\ n_id o = id /\ g id = [v]).
  { intros id N1 N2. destruct (in_dec string_dec id (os_ids os)) as [J|J].
    - apply in_map_iff in J as ([o v] & <- & J). right. exists o, v. cbn [fst].
      split; [exact J|]. split; [exact (line_offers _ _ _ _ L o v J)|]. split; [reflexivity|]. exact (G1 o v J).
    - left. apply G2; auto. intros o v K E. apply J. apply in_map_iff. exists (o, v). auto. }
  assert (ONE : forall id, id <> "input"%string -> id <> "output"%string -> List.length (g id) <= 1).
  { intros id N1 N2. destruct (OPT id N1 N2) as [->|(o & v & _ & _ & _ & ->)]; cbn; lia. }
  assert (OPS : g "input"%string <> [] /\ (two c = true -> exists o, g "output"%string = [o])
                /\ (two c = false -> g "output"%string = [])
                /\ (c <> CmdHash -> c <> CmdPack -> List.length (g "input"%string) = 1)).
  { destruct c; cbn [operands two] in *.
    1,2,6: destruct OP as (i & o & _ & -> & ->); repeat split; try discriminate; eauto.
    - destruct OP as (i & _ & -> & ->). repeat split; discriminate.
    - destruct OP as (NE & -> & ->). repeat split; try discriminate; congruence.
    - destruct OP as (ins & o & NE & _ & -> & ->). repeat split; try discriminate; try congruence; eauto. }
  destruct OPS as (I & O2 & O1 & I1). split; cbn [m_given m_args].
  - intros id NE. unfold find_arg. cbn [m_args].
    destruct (String.eqb id "input") eqn:E1; [apply String.eqb_eq in E1; subst; destruct c; vm_compute; discriminate|].
    destruct (String.eqb id "output") eqn:E2.
    { apply String.eqb_eq in E2. subst. destruct (two c) eqn:T; [|rewrite (O1 eq_refl) in NE; congruence].
      destruct c; try discriminate T; vm_compute; discriminate. }
    apply String.eqb_neq in E1, E2. destruct (OPT id E1 E2) as [X|(o & v & _ & OF & <- & _)]; [congruence|].
    apply offers_list in OF. destruct c; vm_compute in OF; in_cases OF; subst o; vm_compute; discriminate.
  - intros a IN. destruct c; unfold args_of, required, optional, defaulted in IN; in_cases IN; subst a; cbn [a_required a_many a_id a_conflicts];
      (split; [|split]);
      first [ intros X; discriminate X
            | intros _; exact I
            | intros _; destruct (O2 eq_refl) as [o ->]; first [discriminate | cbn; lia]
            | intros _; rewrite I1 by discriminate; lia
            | intros _; apply ONE; discriminate
            | idtac ];
      first [ intros x IX; exact (match IX with end)
            | intros x [<-|[]]; destruct (g "autogenerate"%string) eqn:EA; [left; reflexivity|];
              destruct (g "keyfile"%string) eqn:EK; [right; reflexivity|]; exfalso; apply NC; split; discriminate ].
Qed.

Lemma read_ok : forall line c g, read_command line = Some (c, g) -> matches_ok (mkMatches (args_of c) g).
Proof.
  intros line c g R. assert (X : exists g', read_command line = Some (c, g') /\ forall id, g' id = g id) by eauto.
  apply read_command_iff in X as (w & ws & _ & _ & S). exact (says_ok _ _ _ S).
Qed.

Definition asked_options (c : command) (g : string -> list string) : list (named * string) :=
  flat_map (fun o => match g (n_id o) with [] => [] | v :: _ => [(o, v)] end) (offersb c).
Definition spelling (x : named * string) : string := ("--" ++ n_name (fst x) ++ "=" ++ snd x)%string.

Lemma line_spelled : forall c os vs, (forall o v, In (o, v) os -> offers c o) ->
  (c = CmdPack -> Forall (fun w => ~ option_like w) (tl vs)) ->
  line_is c (map spelling os ++ "--"%string :: vs) os vs.
Proof.
  intros c. induction os as [|[o v] os IH]; intros vs OF P; cbn [map app].
  - constructor. exact P.
  - change (spelling (o, v) :: map spelling os ++ "--"%string :: vs)
      with ([spelling (o, v)] ++ (map spelling os ++ "--"%string :: vs)).
    constructor; [exact (OF o v (or_introl eq_refl))|constructor|]. apply IH; [|exact P].
    intros x w I. apply (OF x w). right. exact I.
Qed.

Lemma all_said : forall c g, matches_ok (mkMatches (args_of c) g) ->
  (forall id, Forall as_text (g id)) ->
  (c = CmdPack -> Forall (fun w => ~ option_like w) (tl (g "input"%string ++ g "output"%string))) ->
  exists ws, says c ws g.
Proof.
  intros c g [K M] T P. cbn [m_given m_args] in K, M.
  assert (ONE : forall o, offers c o -> List.length (g (n_id o)) <= 1).
  { intros o OF. apply offers_list in OF. destruct c; vm_compute in OF; in_cases OF; subst o;
      match goal with |- List.length (g ?id) <= 1 =>
        match type of M with forall a, In a (args_of ?c) -> _ =>
          destruct (find (fun a => String.eqb (a_id a) id) (args_of c)) as [a|] eqn:F; [|discriminate F];
          pose proof (find_some _ _ F) as [IA EA]; apply String.eqb_eq in EA;
          destruct (M a IA) as (_ & MA & _); vm_compute in F; injection F as <-; exact (MA eq_refl)
        end end. }
  assert (INP : forall a, In a (args_of c) -> a_required a = true -> g (a_id a) <> []) by (intros a IA R; exact (proj1 (M a IA) R)).
  assert (SIN : forall a, In a (args_of c) -> a_many a = false -> List.length (g (a_id a)) <= 1) by (intros a IA R; exact (proj1 (proj2 (M a IA)) R)).
  set (os := asked_options c g).
  assert (IOS : forall o v, In (o, v) os <-> offers c o /\ g (n_id o) = [v]).
  { intros o v. unfold os, asked_options. rewrite in_flat_map. split.
    - intros (x & IX & IV). apply offers_list in IX. pose proof (ONE x IX) as LE.
      destruct (g (n_id x)) as [|y l] eqn:E; [destruct IV|]. destruct IV as [EQ|[]]. injection EQ as -> ->.
      split; [exact IX|]. rewrite E. destruct l; [reflexivity|cbn in LE; lia].
    - intros [OF E]. exists o. split; [apply offers_list, OF|]. rewrite E. left. reflexivity. }
  assert (ND : NoDup (os_ids os)).
  { assert (NB : NoDup (map n_id (offersb c)))
      by (destruct c; vm_compute; repeat (constructor; [cbn; intuition discriminate|]); constructor).
    unfold os, asked_options, os_ids. induction (offersb c) as [|x l IH]; [constructor|].
    cbn [map] in NB. inversion NB as [|? ? NI NB']; subst. cbn [flat_map]. rewrite map_app.
    specialize (IH NB').
    destruct (g (n_id x)) as [|y r]; [exact IH|]. cbn [map app fst]. constructor; [|exact IH].
    intros J. apply in_map_iff in J as ([o v] & E & J). cbn [fst] in E. apply in_flat_map in J as (z & IZ & J).
    destruct (g (n_id z)); [destruct J|]. destruct J as [J|[]]. injection J as -> _.
    apply NI. rewrite <- E. apply in_map. exact IZ. }
  set (vs := g "input"%string ++ g "output"%string).
  exists (map spelling os ++ "--"%string :: vs), os, vs.
  split; [apply line_spelled; [intros o v I; apply IOS in I; apply I|exact P]|].
  split; [exact ND|]. split.
  { apply Forall_app. split; [|apply Forall_app; split; apply T]. apply Forall_map, Forall_forall.
    intros [o v] I. apply IOS in I as [_ E]. specialize (T (n_id o)). rewrite E in T. inversion T. assumption. }
  split; [intros o v I; apply IOS in I; apply I|]. split.
  { intros id N1 N2 NO. destruct (g id) as [|v l] eqn:E; [reflexivity|]. exfalso.
    assert (F : find_arg (mkMatches (args_of c) g) id <> None) by (apply K; rewrite E; discriminate).
    unfold find_arg in F. cbn [m_args] in F.
    destruct (find _ (args_of c)) as [a|] eqn:FA; [|congruence]. apply find_some in FA as [IA EA].
    apply String.eqb_eq in EA.
    assert (X : exists o, offers c o /\ n_id o = id).
    { subst id. destruct c; unfold args_of, required, optional, defaulted in IA; in_cases IA; subst a; cbn [a_id] in *;
        try congruence;
        match goal with |- exists o, offers ?c o /\ n_id o = ?id =>
          destruct (find (fun o => String.eqb (n_id o) id) (offersb c)) as [o|] eqn:FO; [|discriminate FO];
          apply find_some in FO as [FI FE]; apply String.eqb_eq in FE; exists o; split; [apply offers_list, FI|exact FE]
        end. }
    destruct X as (o & OF & EO). pose proof (ONE o OF) as LE. rewrite EO, E in LE.
    destruct l; [|cbn in LE; lia]. apply (NO o v); [|exact EO]. apply IOS. rewrite EO. auto. }
  split.
  - assert (GI : forall a, In a (args_of c) -> a_id a = "input"%string -> a_required a = true -> g "input"%string <> [])
      by (intros a IA <- R; apply INP; auto).
    assert (TWO : forall x y : list string, x <> [] -> List.length x <= 1 -> exists i, x = [i]).
    { intros [|i [|j l]] _ NX LX; [congruence|eauto|cbn in LX; lia]. }
    assert (NOUT : two c = false -> g "output"%string = []).
    { intros TC. destruct (g "output"%string) eqn:E; [reflexivity|].
      assert (F : find_arg (mkMatches (args_of c) g) "output"%string <> None) by (apply K; rewrite E; discriminate).
      destruct c; try discriminate TC; vm_compute in F; congruence. }
    unfold vs. destruct c; cbn [operands args_of] in *.
    1,2,6:
      destruct (TWO (g "input"%string) []) as [i EI];
        [apply (INP (required "input")); [cbn; tauto|reflexivity]|apply (SIN (required "input")); [cbn; tauto|reflexivity]|];
      destruct (TWO (g "output"%string) []) as [o EO];
        [apply (INP (required "output")); [cbn; tauto|reflexivity]|apply (SIN (required "output")); [cbn; tauto|reflexivity]|];
      rewrite EI, EO; exists i, o; auto.
    + destruct (TWO (g "input"%string) []) as [i EI];
        [apply (INP (required "input")); [cbn; tauto|reflexivity]|apply (SIN (required "input")); [cbn; tauto|reflexivity]|].
      rewrite EI, (NOUT eq_refl). exists i. auto.
    + rewrite (NOUT eq_refl), app_nil_r. split; [|split; reflexivity].
      apply (INP (mkArg "input" None true true [])); [cbn; tauto|reflexivity].
    + destruct (TWO (g "output"%string) []) as [o EO];
        [apply (INP (required "output")); [cbn; tauto|reflexivity]|apply (SIN (required "output")); [cbn; tauto|reflexivity]|].
      rewrite EO. exists (g "input"%string), o. split; [|auto].
      apply (INP (mkArg "input" None true true [])); [cbn; tauto|reflexivity].
  - intros [X Y].
    assert (C : forall a, In a (args_of c) -> a_id a = "autogenerate"%string -> In "keyfile"%string (a_conflicts a) -> False).
    { intros a IA E IC. destruct (proj2 (proj2 (M a IA)) _ IC) as [Z|Z]; [rewrite E in Z|]; congruence. }
    assert (F : find_arg (mkMatches (args_of c) g) "autogenerate"%string <> None) by (apply K; exact X).
    destruct c; try (vm_compute in F; congruence);
      apply (C (defaulted "autogenerate" "7" ["keyfile"%string])); cbn; tauto.
Qed.

(** ** Flags *)

Lemma bare_fails : forall c o w, offers c o -> bare o w -> forall ws esc wait pos g,
  esc = false -> ~ In "--"%string ws -> read_words c esc wait pos g (ws ++ [w]) = None.
Proof.
  intros c o w OF BW. destruct (offered_found _ _ OF) as (x & TX & BL & BS & NEQ & NEM & _).
  assert (CW : (exists n, classify w = WLong n None /\ by_long c n = Some x)
               \/ (exists a, classify w = WShort a "" /\ by_short c a = Some x)).
  { destruct BW as [|a LA].
    - left. exists (n_name o). split; [|exact BL]. exact (long_word (n_name o) None NEQ NEM).
    - right. exists a. destruct (BS _ LA) as [B NA]. split; [|exact B]. exact (short_word a "" NA). }
  induction ws as [|s r IH]; intros esc wait pos g -> NI; cbn [app read_words]; cbv zeta.
  - assert (OV : option_value x None false g = None \/ option_value x None false g = Some (Some x, g)).
    { unfold option_value. destruct (o_equals x); cbn; auto. }
    destruct CW as [(n & C & B)|(a & C & B)]; rewrite C; destruct wait; try reflexivity; rewrite B;
      destruct OV as [->| ->]; reflexivity.
  - assert (NI' : ~ In "--"%string r) by (intros J; apply NI; right; exact J).
    assert (NE : classify s <> WEscape) by (intros J; apply classify_escape in J; apply NI; left; exact J).
    destruct wait as [y|].
    + destruct (classify s); try reflexivity. destruct (set_value y s g); [|reflexivity]. apply IH; auto.
    + destruct (classify s) as [|n v|a rest|]; [congruence| | |].
      * destruct (by_long c n) as [y|]; [|reflexivity].
        destruct (option_value y v _ g) as [[wt g']|]; [|reflexivity]. apply IH; auto.
      * destruct (by_short c a) as [y|]; [|reflexivity]. destruct (match rest with EmptyString => _ | _ => _ end) as [v e].
        destruct (option_value y v e g) as [[wt g']|]; [|reflexivity]. apply IH; auto.
      * destruct (nth_error _ _) as [[id many]|]; [|reflexivity]. destruct (text s); [|reflexivity]. apply IH; auto.
Qed.

Lemma flag_last : forall V c o w cmd ws st, flag_of c o -> bare o w -> called c cmd -> ~ In "--"%string ws ->
  program V (cmd :: ws ++ [w]) st = (FClap, st).
Proof.
  intros V c o w cmd ws st [OF _] BW CC NI. unfold program.
  destruct (read_command (cmd :: ws ++ [w])) as [[c' g]|] eqn:R; [|reflexivity]. exfalso. cbn [read_command] in R.
  assert (F : exists x, find (fun x => String.eqb (fst x) cmd) subcommands = Some (x, c)).
  { destruct CC as (l & I & J). unfold command_words in I. in_cases I; injection I as <- <-; in_cases J; subst cmd; eexists; reflexivity. }
  destruct F as [x F]. rewrite F in R. unfold read_args in R. rewrite (bare_fails _ _ _ OF BW) in R by auto. discriminate.
Qed.

Lemma flag_values : forall V cmd g g' c, same_request cmd g g' -> run_command V cmd g c = run_command V cmd g' c.
Proof.
  intros V cmd g g' c S.
  set (m := mkMatches (args_of cmd) g). set (m' := mkMatches (args_of cmd) g').
  assert (EM : forall id, g id = [] <-> g' id = []).
  { intros id. specialize (S id). cbv zeta in S. destruct (existsb _ _) in S; [exact S|rewrite S; tauto]. }
  assert (CE : forall id, contains_id V m id = contains_id V m' id).
  { intros id. unfold contains_id, find_arg. cbn [m_args m_given m m'].
    destruct (find _ (args_of cmd)) as [a|]; [|reflexivity]. f_equal. specialize (EM id).
    destruct (g id) as [|x l], (g' id) as [|y l']; try reflexivity.
    - destruct EM as [X _]. discriminate (X eq_refl).
    - destruct EM as [_ X]. discriminate (X eq_refl). }
  assert (GE : forall id, existsb (String.eqb id) (match cmd with CmdPack => "erase"%string :: flags | _ => flags end) = false ->
            get_one V m id = get_one V m' id /\ get_many V m id = get_many V m' id).
  { intros id X. specialize (S id). rewrite X in S. unfold get_one, get_many, find_arg. cbn [m_args m_given m m'].
    rewrite S. split; reflexivity. }
  unfold run_command. fold m. fold m'.
  destruct cmd; unfold encrypt_cmd, decrypt_cmd, erase_cmd, hash_cmd, pack_cmd, unpack_cmd, parameter_handler,
    pack_params_of, erase_params, key_init, forcemode, hashing_algorithm_of, algorithm_of, get_param, get_params;
    rewrite ?(CE "keyfile"%string), ?(CE "hash"%string), ?(CE "erase"%string), ?(CE "autogenerate"%string),
      ?(CE "argon"%string), ?(CE "force"%string), ?(CE "aes"%string), ?(CE "passes"%string),
      ?(CE "verbose"%string), ?(CE "recursive"%string), ?(CE "zstd"%string);
    repeat match goal with |- context [get_one V m ?id] => rewrite (proj1 (GE id eq_refl)) end;
    repeat match goal with |- context [get_many V m ?id] => rewrite (proj2 (GE id eq_refl)) end;
    reflexivity.
Qed.

(** ** The exit status *)

Section Status.
Variable P : cli -> Prop.
Variable f : force_mode.
Hypothesis PF : f = Prompt -> forall c, asked_last c -> P c.

(** An exit leaves [P]. *)
Definition stays {A} (m : M cli cli_error A) : Prop := forall c, fst (m c) = Err CExit -> P (snd (m c)).
Lemma st_never : forall A (m : M cli cli_error A), (forall c, fst (m c) <> Err CExit) -> stays m.
Proof. intros A m H c X. destruct (H c X). Qed.
Lemma st_bind : forall A B (m : M cli cli_error A) (k : A -> M cli cli_error B),
  stays m -> (forall x, stays (k x)) -> stays (bind m k).
Proof.
  intros A B m k H K c. unfold bind. specialize (H c). destruct (m c) as [[x|e| |] c']; cbn [fst snd] in *;
    [apply K|intros X; apply H; congruence|discriminate|discriminate].
Qed.
Lemma st_ret : forall A (x : A), stays (ret x).
Proof. intros A x. apply st_never. discriminate. Qed.
Lemma st_err : forall A e, e <> CExit -> stays (@err cli cli_error A e).
Proof. intros A e N. apply st_never. intros c. cbn. congruence. Qed.
Lemma st_on_fs : forall A E h (m : M sys E A), (forall e, h e <> CExit) -> stays (on_fs (map_err h m)).
Proof.
  intros A E h m N. apply st_never. intros c. unfold on_fs, on_a, on_sys, zoom, map_err. cbn.
  destruct (m (fst (c_a c))) as [[x|e| |] s]; cbn; try discriminate. intros X. injection X as X. exact (N e X).
Qed.
Lemma st_storage : forall A (m : M sys st_error A), stays (storage m).
Proof. intros. apply st_on_fs. discriminate. Qed.
Lemma st_say : forall n, stays (say n).
Proof. intros n. apply st_never. discriminate. Qed.
Lemma st_lift_opt : forall A e (o : option A), e <> CExit -> stays (lift_opt e o).
Proof. intros A e [x|] N; [apply st_ret|apply st_err, N]. Qed.
Lemma st_if : forall A (b : bool) (m n : M cli cli_error A), stays m -> stays n -> stays (if b then m else n).
Proof. intros A [|] m n; auto. Qed.
Lemma st_contains : forall V m id, stays (contains_id V m id).
Proof. intros V m id. apply st_never. intros c. unfold contains_id. destruct (find_arg m id); [discriminate|]. destruct (ce_debug V); discriminate. Qed.
Lemma st_get_one : forall V m id, stays (get_one V m id).
Proof. intros V m id. apply st_never. intros c. unfold get_one. destruct (find_arg m id); [discriminate|]. destruct (ce_debug V); discriminate. Qed.
Lemma st_get_many : forall V m id, stays (get_many V m id).
Proof. intros V m id. apply st_never. intros c. unfold get_many. destruct (find_arg m id); [discriminate|]. destruct (ce_debug V); discriminate. Qed.

Ltac st := repeat first
  [ apply st_ret | apply st_say | apply st_storage | apply st_contains | apply st_get_one | apply st_get_many
  | apply st_err; discriminate | apply st_lift_opt; discriminate
  | apply st_on_fs; intros ?; discriminate
  | apply st_if | apply st_bind; [|intros ?] ].

Lemma st_password : forall fuel s, stays (password_loop fuel s).
Proof.
  assert (PP : stays prompt_password) by (apply st_never; intros c; unfold prompt_password; destruct (c_tty c) as [|[l|] r]; discriminate).
  induction fuel as [|fuel IH]; intros s; cbn [password_loop]; [apply st_never; discriminate|].
  apply st_bind; [exact PP|]. intros x. destruct s; [|apply st_ret]. apply st_bind; [exact PP|]. intros y.
  st. apply IH.
Qed.
Lemma st_call : forall A e (m : M sys cli_error A), e <> CExit -> (forall s, fst (m s) <> Err CExit) ->
  stays (on_fs (call_or e m)).
Proof.
  intros A e m N H. apply st_never. intros c. unfold on_fs, on_a, on_sys, zoom, call_or. destruct (next_fault (fst (c_a c))) as [b s1].
  destruct b; cbn; [congruence|]. specialize (H s1). destruct (m s1) as [o s2]. exact H.
Qed.
Lemma st_secret : forall V k s, stays (get_secret V k s).
Proof.
  intros V k s. unfold get_secret. apply st_bind; [|intros x; st]. destruct k as [p| |n|].
  - apply st_if.
    + apply st_bind; [apply st_never; discriminate|intros x; st].
    + apply st_bind; [|intros x; st]. unfold read_keyfile. apply st_call; [discriminate|]. intros s1.
      destruct (stat s1 (os_path p)) as [[|i|]|]; try discriminate. destruct (next_plan s1) as [plan s2].
      destruct (dev_read_to_end _) as [[l|e| |] d]; discriminate.
  - st.
  - apply st_bind; [|intros x; st]. apply st_never. intros c. unfold lift. destruct (generate_passphrase _ _ _); discriminate.
  - intros c X. exact (st_password _ _ c X).
Qed.
Lemma st_hash_files : forall V l, stays (hash_files V l).
Proof.
  intros V. induction l as [|x l IH]; cbn [hash_files]; [apply st_ret|].
  apply st_bind; [|intros y; apply st_bind; [apply st_say|intros _; exact IH]].
  unfold hash_file. apply st_call; [discriminate|]. intros s1.
  destruct (stat s1 (os_path x)) as [[|i|]|]; try discriminate. destruct (next_plan s1) as [plan s2].
  destruct (hash_execute _ _ _) as [[h|e| |] d]; discriminate.
Qed.
Lemma answer_last : forall fuel q d c c', answer_loop fuel q d c = (Ok false, c') -> asked_last c'.
Proof.
  induction fuel as [|fuel IH]; intros q d c c' H; cbn [answer_loop] in H; [discriminate|].
  unfold bind at 1 in H. unfold say at 1 in H. unfold bind at 1 in H. cbn [c_stdin c_a c_tty c_out] in H.
  destruct (read_line (c_stdin c)) as [x y]. destruct (negb (utf8 x)); [discriminate|].
  destruct (is_nil x); [discriminate|]. destruct (read_answer d x) as [b|].
  - injection H as -> <-. exists (c_out c), q. reflexivity.
  - unfold bind, say in H. exact (IH _ _ _ _ H).
Qed.
Lemma answer_no : forall q d c c', get_answer q d f c = (Ok false, c') -> P c'.
Proof.
  intros q d c c' H. unfold get_answer in H. destruct f eqn:F; [discriminate|].
  apply (PF eq_refl). exact (answer_last _ _ _ _ _ H).
Qed.
Lemma loop_not_exit : forall fuel q d, stays (answer_loop fuel q d).
Proof.
  induction fuel as [|fuel IH]; intros q d; cbn [answer_loop]; [apply st_never; discriminate|].
  apply st_bind; [apply st_say|intros _]. apply st_bind.
  - apply st_never. intros c. destruct (read_line (c_stdin c)). discriminate.
  - intros x. apply st_if; [st|]. apply st_if; [st|]. destruct (read_answer d x); [st|].
    apply st_bind; [apply st_say|intros _]. apply IH.
Qed.
Lemma st_answer : forall A q d (m : M cli cli_error A),
  stays m -> stays (b <- get_answer q d f ;; if (b : bool) then m else err CExit)%m.
Proof.
  intros A q d m H c. unfold bind. destruct (get_answer q d f c) as [[b|e| |] c'] eqn:G; cbn [fst snd].
  - destruct b; [apply H|]. intros _. exact (answer_no _ _ _ _ G).
  - intros X. assert (S : stays (get_answer q d f)).
    { unfold get_answer. destruct f; [apply st_ret|]. intros c1 Y. exact (loop_not_exit _ _ _ c1 Y). }
    specialize (S c). rewrite G in S. apply S. cbn. congruence.
  - discriminate.
  - discriminate.
Qed.
Lemma st_check : forall n, stays (check_or_exit n f).
Proof.
  intros n c. unfold check_or_exit, overwrite_check. unfold bind. destruct (exists_path _ _); [|discriminate].
  exact (st_answer unit _ _ (ret tt) (st_ret _ tt) c).
Qed.
Lemma st_erase : forall V i n, stays (secure_erase V i n f).
Proof.
  intros V i n. unfold secure_erase. apply st_bind; [apply st_storage|]. intros h. apply st_if.
  - apply st_answer. st.
  - st.
Qed.
Lemma st_header : forall p, cp_force p = f -> stays (open_header p).
Proof.
  intros p F. unfold open_header. rewrite F. destruct (cp_header p); [|apply st_ret].
  apply st_bind; [apply st_check|]. intros _. st.
Qed.
Lemma st_read_header : forall p, stays (read_header p).
Proof. intros p. unfold read_header. destruct (cp_header p); st. Qed.
Lemma st_flush : forall h, stays (flush_opt h).
Proof. intros [h|]; unfold flush_opt; st. Qed.
Lemma st_try : forall e, stays (try_handle e).
Proof. intros [h|d]; unfold try_handle; st. Qed.
Lemma st_on_a : forall A (m : M asys cli_error A), (forall a, fst (m a) <> Err CExit) -> stays (on_a m).
Proof. intros A m H. apply st_never. intros c. unfold on_a, zoom. specialize (H (c_a c)). destruct (m (c_a c)) as [o a]. exact H. Qed.
Lemma al_stays : forall V l a, fst (alias V l a) <> Err CExit.
Proof. intros V l a. unfold alias. cbn [fst]. destruct (al_outcome (ce_alias V a)); discriminate. Qed.
Lemma me_stays : forall A E h (m : M asys E A) a, (forall e, h e <> CExit) -> fst (map_err h m a) <> Err CExit.
Proof.
  intros A E h m a N. unfold map_err. destruct (m a) as [[x|e| |] a']; cbn; try discriminate.
  intros X. injection X as X. exact (N e X).
Qed.
Lemma st_match_erase : forall V i (e : option Z),
  stays (match e with Some n => secure_erase V i n f | None => ret tt end).
Proof. intros V i [n|]; [apply st_erase|apply st_ret]. Qed.

Lemma st_encrypt : forall V i o p a, cp_force p = f -> stays (encrypt_stream V i o p a).
Proof.
  intros V i o p a F. unfold encrypt_stream. rewrite F. apply st_if; [apply st_err; discriminate|].
  apply st_bind; [apply st_check|intros _].
  apply st_bind; [apply st_storage|intros fi].
  apply st_bind; [apply st_secret|intros raw].
  apply st_bind; [apply st_storage|intros fo].
  apply st_bind; [apply st_header, F|intros fh].
  apply st_bind; [apply st_try|intros hi].
  apply st_bind; [apply st_try|intros ho].
  apply st_bind; [apply st_on_a; intros x; unfold encrypt_files|intros _].
  { destruct (same_file ho hi || same_opt ho (ok_handle fh) || same_opt hi (ok_handle fh))%bool; [apply al_stays|].
    apply me_stays. discriminate. }
  apply st_bind; [apply st_flush|intros _].
  apply st_bind; [apply st_storage|intros _].
  apply st_bind; [apply st_if; [apply st_hash_files|apply st_ret]|intros _]. apply st_match_erase.
Qed.
Lemma st_decrypt : forall V i o p, cp_force p = f -> stays (decrypt_stream V i o p).
Proof.
  intros V i o p F. unfold decrypt_stream. rewrite F. apply st_if; [apply st_err; discriminate|].
  apply st_bind; [apply st_check|intros _].
  apply st_bind; [apply st_storage|intros fi].
  apply st_bind; [apply st_read_header|intros fh].
  apply st_bind; [apply st_secret|intros raw].
  apply st_bind; [apply st_storage|intros fo].
  apply st_bind; [apply st_try|intros hi].
  apply st_bind; [apply st_try|intros ho].
  apply st_bind; [apply st_on_a; intros x; unfold decrypt_files|intros _].
  { destruct (same_file ho hi || same_opt ho (ok_handle fh))%bool; [apply al_stays|].
    apply me_stays. discriminate. }
  apply st_bind; [apply st_storage|intros _].
  apply st_bind; [apply st_if; [apply st_hash_files|apply st_ret]|intros _]. apply st_match_erase.
Qed.
Lemma st_each : forall A B (h : A -> M cli cli_error B) l, (forall x, stays (h x)) -> stays (each h l).
Proof. intros A B h l H. induction l as [|x l IH]; cbn [each]; st; auto. Qed.
Lemma st_each_ : forall A (h : A -> M cli cli_error unit) l, (forall x, stays (h x)) -> stays (each_ h l).
Proof. intros A h l H. induction l as [|x l IH]; cbn [each_]; st; auto. Qed.
Lemma st_pack : forall V i o p pp a, cp_force p = f -> stays (pack_cli V i o p pp a).
Proof.
  intros V i o p pp a F. unfold pack_cli. rewrite F. apply st_if; [apply st_err; discriminate|].
  apply st_bind; [apply st_never; intros c; destruct (existsb _ _); discriminate|intros _].
  apply st_bind; [apply st_check|intros _].
  apply st_bind; [apply st_each; intros; apply st_storage|intros fi].
  apply st_bind; [apply st_secret|intros raw].
  apply st_bind; [apply st_storage|intros fo].
  apply st_bind; [apply st_header, F|intros fh].
  apply st_bind; [apply st_each; intros x; apply st_if; st|intros ls].
  apply st_bind; [apply st_try|intros ho].
  apply st_bind; [apply st_on_a; intros x|intros _].
  { destruct (same_opt ho (ok_handle fh))%bool; [apply al_stays|]. apply me_stays. discriminate. }
  apply st_bind; [apply st_flush|intros _].
  apply st_bind; [apply st_storage|intros _].
  apply st_bind; [apply st_if; [apply st_hash_files|apply st_ret]|intros _].
  apply st_if; [|apply st_ret]. apply st_each_. intros x. apply st_erase.
Qed.
Lemma st_key : forall V m d, stays (key_init V m key_params_default d).
Proof.
  intros V m d. unfold key_init. st. match goal with |- stays (match ?o with Some _ => _ | None => _ end) => destruct o; st end.
Qed.


Lemma st_command : forall V cmd g, matches_ok (mkMatches (args_of cmd) g) ->
  (cmd = CmdHash \/ (f = Force <-> g "force"%string <> [])) -> stays (run_command V cmd g).
Proof.
  intros V cmd g [_ M] FF c. cbn [m_args m_given] in M.
  assert (GI : exists input l, g "input"%string = input :: l).
  { assert (X : g "input"%string <> []).
    { destruct cmd; match type of M with forall a, In a (args_of ?c) -> _ =>
        destruct (find (fun a => String.eqb (a_id a) "input") (args_of c)) as [a|] eqn:F; [|discriminate F];
        pose proof (find_some _ _ F) as [IA _]; destruct (M a IA) as (R & _); vm_compute in F; injection F as <-;
        exact (R eq_refl) end. }
    destruct (g "input"%string) as [|i l]; [congruence|]. eauto. }
  destruct GI as (input & l & GI).
  assert (GO : two cmd = true -> exists output, given g "output" output).
  { intros T. assert (X : g "output"%string <> []).
    { destruct cmd; try discriminate T; match type of M with forall a, In a (args_of ?c) -> _ =>
        destruct (find (fun a => String.eqb (a_id a) "output") (args_of c)) as [a|] eqn:F; [|discriminate F];
        pose proof (find_some _ _ F) as [IA _]; destruct (M a IA) as (R & _); vm_compute in F; injection F as <-;
        exact (R eq_refl) end. }
    destruct (g "output"%string) as [|o r] eqn:E; [congruence|]. exists o. exists r. exact E. }
  assert (SAME : cmd <> CmdHash -> forall p, params_of V cmd g p -> cp_force p = f).
  { intros NH p PO. destruct FF as [->|FF]; [congruence|]. pose proof (po_force _ _ _ _ PO) as X.
    destruct (cp_force p), f; try reflexivity.
    - assert (Y : Prompt = Force) by tauto. discriminate.
    - assert (Y : Prompt = Force) by tauto. discriminate. }
  assert (GI1 : given g "input" input) by (exists l; exact GI).
  destruct cmd.
  - destruct (GO eq_refl) as [output O]. destruct (encrypt_cmd_run V g c _ _ GI1 O) as (p & n & PO & R). rewrite R.
    apply st_encrypt. apply SAME; [discriminate|exact PO].
  - destruct (GO eq_refl) as [output O]. destruct (decrypt_cmd_run V g c _ _ GI1 O) as [R1 R2]. destruct (ce_debug V).
    + destruct (R2 eq_refl) as [n R]. rewrite R. discriminate.
    + destruct (R1 eq_refl) as (p & n & PO & R). rewrite R. apply st_decrypt. apply SAME; [discriminate|exact PO].
  - destruct (erase_cmd_run V g c _ GI1) as (n & R). rewrite R. destruct FF as [FF|FF]; [discriminate|].
    replace (match g "force"%string with [] => Prompt | _ => Force end) with f; [apply st_erase|].
    destruct (g "force"%string), f; try reflexivity.
    + destruct (proj1 FF eq_refl eq_refl).
    + assert (Y : Prompt = Force) by (apply FF; discriminate). discriminate.
  - assert (S : stays (run_command V CmdHash g)); [|exact (S c)]. cbn [run_command]. unfold hash_cmd.
    apply st_bind; [apply st_get_many|intros x; apply st_hash_files].
  - destruct (GO eq_refl) as [output O].
    destruct (pack_cmd_run V g c (g "input"%string) _ ltac:(rewrite GI; discriminate) eq_refl O) as (p & pp & n & PO & _ & _ & R).
    rewrite R. apply st_pack. apply SAME; [discriminate|exact PO].
  - destruct (unpack_cmd_run V g c) as [n R]. rewrite R. discriminate.
Qed.

End Status.

Lemma run_same : forall V cmd g g' c, (forall id, g' id = g id) -> run_command V cmd g' c = run_command V cmd g c.
Proof.
  intros V cmd g g' c E. apply flag_values. intros id. rewrite E. destruct (existsb _ _); [split; auto|reflexivity].
Qed.
Lemma program_said : forall V cmd w ws g c, called cmd w -> says cmd ws g ->
  program V (w :: ws) c
  = let '(o, c') := run_command V cmd g c in
    (match o with
     | Ok _ => FStatus 0 | Err CExit => FStatus 0 | Err _ => FStatus 1 | Panic => FStatus 101 | Diverge => FHang
     end, c').
Proof.
  intros V cmd w ws g c C S.
  destruct (proj2 (read_command_iff (w :: ws) cmd g)) as (g' & R & E); [exists w, ws; auto|].
  unfold program. rewrite R. rewrite (run_same V cmd g g' c E). reflexivity.
Qed.
Lemma exit_asked : forall V cmd g c c', matches_ok (mkMatches (args_of cmd) g) ->
  run_command V cmd g c = (Err CExit, c') -> not_given g "force" /\ asked_last c'.
Proof.
  intros V cmd g c c' M R. destruct (g "force"%string) as [|v l] eqn:G.
  - split; [exact G|]. pose proof (st_command asked_last Prompt (fun _ _ X => X) V cmd g M) as S.
    specialize (S ltac:(right; rewrite G; split; congruence) c). rewrite R in S. apply S. reflexivity.
  - exfalso. pose proof (st_command (fun _ => False) Force ltac:(discriminate) V cmd g M) as S.
    specialize (S ltac:(right; rewrite G; split; congruence) c). rewrite R in S. apply S. reflexivity.
Qed.
Lemma status_zero : forall V line c c', program V line c = (FStatus 0, c') ->
  exists cmd w ws g, line = w :: ws /\ called cmd w /\ says cmd ws g
    /\ (run_command V cmd g c = (Ok tt, c')
        \/ run_command V cmd g c = (Err CExit, c') /\ not_given g "force" /\ asked_last c').
Proof.
  intros V line c c' H. unfold program in H. destruct (read_command line) as [[cmd g]|] eqn:R; [|discriminate].
  pose proof (read_ok _ _ _ R) as M.
  destruct (proj1 (read_command_iff line cmd g)) as (w & ws & E & C & S); [exists g; auto|].
  exists cmd, w, ws, g. split; [exact E|]. split; [exact C|]. split; [exact S|].
  destruct (run_command V cmd g c) as [[[]|e| |] c1] eqn:X; try discriminate.
  - injection H as <-. left. reflexivity.
  - destruct e; try discriminate. injection H as <-. right. split; [reflexivity|]. exact (exit_asked _ _ _ _ _ M X).
Qed.
Lemma status_done : forall V cmd w ws g c, called cmd w -> says cmd ws g -> g "force"%string <> [] ->
  forall f c', program V (w :: ws) c = (f, c') ->
  (f = FStatus 0 <-> run_command V cmd g c = (Ok tt, c')).
Proof.
  intros V cmd w ws g c C S F f c' H. rewrite (program_said V cmd w ws g c C S) in H.
  pose proof (exit_asked V cmd g c) as X. specialize (X c' (says_ok _ _ _ S)).
  destruct (run_command V cmd g c) as [[[]|e| |] c1]; injection H as <- <-.
  - split; reflexivity.
  - split; [|discriminate]. destruct e; try discriminate. intros _. destruct (X eq_refl) as [NG _]. destruct (F NG).
  - split; discriminate.
  - split; discriminate.
Qed.
Lemma status_failed : forall V cmd w ws g c e c', called cmd w -> says cmd ws g -> e <> CExit ->
  run_command V cmd g c = (Err e, c') -> program V (w :: ws) c = (FStatus 1, c').
Proof.
  intros V cmd w ws g c e c' C S N R. rewrite (program_said V cmd w ws g c C S), R. destruct e; try reflexivity. congruence.
Qed.
