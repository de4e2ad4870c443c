(** Numbers on the command line, and the passphrase shown. *)
From Coq Require Import List Arith NArith ZArith Ascii String Lia Bool.
From Verif Require Import Bytes Outcome IO Primitives Crypto Header Stream KeyModel EncDec.
From Verif Require Import Overwrite Hash FS Erase Archive Cli.
From Verif Require Import StreamSpec FileSpec FSSpec ArchiveSpec CliSpec KeySpec IOFacts WorldFrames FSFacts CliCommands CliKeys PhraseSpec.
From Verif Require CliResults CliProofs.
Import ListNotations.
Local Open Scope list_scope.

(** ** Numbers *)

Lemma digit_code : forall c d, digit c = Some d <->
  (48 <= Z.of_N (N_of_ascii c) <= 57 /\ d = Z.of_N (N_of_ascii c) - 48)%Z.
Proof.
  intros [[] [] [] [] [] [] [] []] d; cbn; split; intros H; try discriminate; try lia;
    try (injection H as <-; lia); destruct H as [_ ->]; reflexivity.
Qed.
Fixpoint horner (s : list ascii) (acc : Z) : option Z :=
  match s with
  | [] => Some acc
  | c :: s' => match digit c with Some d => horner s' (acc * 10 + d) | None => None end
  end%Z.
Lemma digits_horner : forall s acc, digits s acc = horner (list_ascii_of_string s) acc.
Proof.
  induction s as [|c s IH]; intros acc; [reflexivity|]. cbn [digits list_ascii_of_string horner].
  destruct (digit c) as [d|] eqn:D.
  - apply digit_code in D as [D ->]. cbv zeta.
    replace ((48 <=? Z.of_N (N_of_ascii c)) && (Z.of_N (N_of_ascii c) <=? 57))%Z with true
      by (symmetry; apply andb_true_intro; split; apply Z.leb_le; lia).
    apply IH.
  - cbv zeta. destruct ((48 <=? Z.of_N (N_of_ascii c)) && (Z.of_N (N_of_ascii c) <=? 57))%Z eqn:X; [|reflexivity].
    apply andb_prop in X as [X1 X2]. apply Z.leb_le in X1, X2.
    assert (Y : digit c = Some (Z.of_N (N_of_ascii c) - 48)%Z) by (apply digit_code; lia).
    congruence.
Qed.
Lemma horner_app : forall a b acc, horner (a ++ b) acc =
  match horner a acc with Some n => horner b n | None => None end.
Proof.
  induction a as [|c a IH]; intros b acc; [reflexivity|]. cbn. destruct (digit c); [apply IH|reflexivity].
Qed.
Lemma decimal_horner : forall s n, decimal s n <-> (s <> [] /\ horner s 0 = Some n).
Proof.
  split.
  - induction 1 as [c d D|s n c d H [NE IH] D].
    + split; [discriminate|]. cbn. rewrite D. f_equal.
    + split; [destruct s; discriminate|]. rewrite horner_app, IH. cbn [horner]. rewrite D.
      replace (n * 10 + d)%Z with (10 * n + d)%Z by lia. reflexivity.
  - revert n. induction s as [|c s IH] using rev_ind; intros n [NE H]; [congruence|].
    rewrite horner_app in H. destruct (horner s 0) as [m|] eqn:X; [|discriminate]. cbn [horner] in H.
    destruct (digit c) as [d|] eqn:D; [|discriminate]. injection H as <-.
    destruct s as [|c0 s].
    + cbn in X. injection X as <-. cbn. constructor. exact D.
    + replace (m * 10 + d)%Z with (10 * m + d)%Z by lia. constructor; [|exact D]. apply IH. split; [discriminate|reflexivity].
Qed.
Lemma sign_not_digit : forall s acc n, horner ("-"%char :: s) acc = Some n \/ horner ("+"%char :: s) acc = Some n -> False.
Proof. intros s acc n [H|H]; discriminate. Qed.

Lemma in_range_spec : forall z n,
  (if ((-2147483648 <=? z) && (z <=? 2147483647))%Z then Some z else None) = Some n
  <-> (z = n /\ - 2 ^ 31 <= n < 2 ^ 31)%Z.
Proof.
  intros z n. destruct ((-2147483648 <=? z) && (z <=? 2147483647))%Z eqn:X.
  - apply andb_prop in X as [X1 X2]. apply Z.leb_le in X1, X2. split.
    + intros [= <-]. lia.
    + intros [-> _]. reflexivity.
  - split; [discriminate|]. intros [-> R]. apply andb_false_iff in X as [X|X]; apply Z.leb_gt in X; lia.
Qed.

Lemma parse_exact : forall s n, parse_i32 s = Some n <-> reads_as s n.
Proof.
  intros s n. unfold reads_as. destruct s as [|c s].
  { split; [discriminate|]. intros [H _]. cbn in H. inversion H as [? ? D|? ? D|? ? D]; subst.
    apply decimal_horner in D as [X _]. congruence. }
  unfold parse_i32. cbn [list_ascii_of_string].
  destruct (Ascii.eqb_spec c "-").
  { subst c. cbn [orb]. rewrite digits_horner. destruct s as [|c1 s].
    - split; [discriminate|]. intros [H _]. inversion H as [? ? D|? ? D|? ? D]; subst;
        apply decimal_horner in D as [X Y]; [discriminate|congruence].
    - destruct (horner (list_ascii_of_string (String c1 s)) 0) as [z|] eqn:X.
      + rewrite in_range_spec. split.
        * intros [<- R]. split; [|exact R]. apply num_minus. apply decimal_horner. split; [discriminate|exact X].
        * intros [H R]. split; [|exact R]. inversion H as [? ? D|? ? D|? m D]; subst;
            apply decimal_horner in D as [_ Y]; [discriminate|]. cbn [list_ascii_of_string] in *. rewrite Y in X. now inversion X.
      + split; [discriminate|]. intros [H _]. inversion H as [? ? D|? ? D|? ? D]; subst;
            apply decimal_horner in D as [_ Y]; [discriminate|]. cbn [list_ascii_of_string] in *. rewrite Y in X. now inversion X. }
  destruct (Ascii.eqb_spec c "+").
  { subst c. cbn [orb]. rewrite digits_horner. destruct s as [|c1 s].
    - split; [discriminate|]. intros [H _]. inversion H as [? ? D|? ? D|? ? D]; subst;
        apply decimal_horner in D as [X Y]; [discriminate|congruence].
    - destruct (horner (list_ascii_of_string (String c1 s)) 0) as [z|] eqn:X.
      + rewrite in_range_spec. split.
        * intros [<- R]. split; [|exact R]. apply num_plus. apply decimal_horner. split; [discriminate|exact X].
        * intros [H R]. split; [|exact R]. inversion H as [? ? D|? ? D|? m D]; subst;
            apply decimal_horner in D as [_ Y]; [discriminate|]. cbn [list_ascii_of_string] in *. rewrite Y in X. now inversion X.
      + split; [discriminate|]. intros [H _]. inversion H as [? ? D|? ? D|? ? D]; subst;
            apply decimal_horner in D as [_ Y]; [discriminate|]. cbn [list_ascii_of_string] in *. rewrite Y in X. now inversion X. }
  cbn [orb]. rewrite digits_horner. cbn [list_ascii_of_string].
  destruct (horner (c :: list_ascii_of_string s) 0) as [z|] eqn:X.
  - rewrite in_range_spec. split.
    + intros [<- R]. split; [|exact R]. constructor. apply decimal_horner. split; [discriminate|exact X].
    + intros [H R]. split; [|exact R]. inversion H as [? ? D|? ? D|? m D]; subst; try congruence.
      apply decimal_horner in D as [_ Y]. congruence.
  - split; [discriminate|]. intros [H _]. inversion H as [? ? D|? ? D|? ? D]; subst; try congruence.
    apply decimal_horner in D as [_ Y]. congruence.
Qed.

(** ** The passphrase *)

Definition grows (c c' : cli) : Prop := exists l, c_out c' = c_out c ++ l.
Lemma grows_refl : forall c, grows c c. Proof. intros c. exists []. symmetry. apply app_nil_r. Qed.
Lemma grows_trans : forall a b c, grows a b -> grows b c -> grows a c.
Proof. intros a b c [l H] [l' H']. exists (l ++ l'). rewrite H', H. symmetry. apply app_assoc. Qed.
Lemma grows_same : forall c c', c_out c' = c_out c -> grows c c'.
Proof. intros c c' H. exists []. now rewrite app_nil_r. Qed.
Definition looks (c c' : cli) : Prop := same_disk (disk c) (disk c') /\ grows c c'.
Lemma looks_refl : forall c, looks c c. Proof. intros c. split; [apply same_disk_refl|apply grows_refl]. Qed.
Lemma looks_trans : forall a b c, looks a b -> looks b c -> looks a c.
Proof. intros a b c [A B] [C D]. split; [eapply same_disk_trans; eauto|eapply grows_trans; eauto]. Qed.

Ltac go := repeat lazymatch goal with
    | |- always grows (bind _ _) => apply (always_bind grows grows_trans); [|intros ?]
    | |- always grows (ret _) => apply (always_ret grows grows_refl)
    | |- always grows (err _) => apply (always_err grows grows_refl)
    | |- always grows (lift _) => apply (always_lift grows grows_refl)
    | |- always grows (map_err _ _) => apply (always_map_err grows)
    | |- always grows (if ?b then _ else _) => destruct b
    | |- always grows (match ?x with _ => _ end) => destruct x
    end.
Lemma g_on_a : forall {X A} (m : M asys X A), always grows (on_a m).
Proof.
  intros X A m c o c' H. unfold on_a, zoom in H. destruct (m (c_a c)). inversion H. apply grows_same. reflexivity.
Qed.
Lemma g_say : forall n, always grows (say n).
Proof. intros n c o c' H. inversion H. exists [n]. reflexivity. Qed.
Lemma g_answer_loop : forall n p d, always grows (answer_loop n p d).
Proof.
  induction n as [|n IH]; intros p d; cbn [answer_loop]; [intros c o c' H; inversion H; subst; apply grows_refl|].
  go; try apply g_say; [|apply IH]. intros c o c' H. destruct (read_line (c_stdin c)). inversion H. subst.
  apply grows_same. reflexivity.
Qed.
Lemma g_answer : forall p d f, always grows (get_answer p d f).
Proof. intros p d []; [cbn; go|]. intros c o c' H. eapply g_answer_loop; eauto. Qed.
Lemma g_check : forall n f, always grows (check_or_exit n f).
Proof.
  intros n f. unfold check_or_exit. go. intros c o c' H. unfold overwrite_check in H.
  destruct (exists_path _ _); [eapply g_answer; eauto|inversion H; subst; apply grows_refl].
Qed.
Lemma g_open_header : forall p, always grows (open_header p).
Proof. intros p. unfold open_header. go; [apply g_check|apply g_on_a]. Qed.
Lemma g_flush_opt : forall h, always grows (flush_opt h).
Proof. intros h. unfold flush_opt. go. apply g_on_a. Qed.
Lemma g_hash_files : forall V l, always grows (hash_files V l).
Proof. intros V l. induction l as [|f l IH]; cbn [hash_files]; go; [apply g_on_a|apply g_say|exact IH]. Qed.
Lemma g_secure_erase : forall V i p f, always grows (secure_erase V i p f).
Proof. intros V i p f. unfold secure_erase. go; try apply g_on_a. apply g_answer. Qed.
Lemma g_each : forall {A B} (f : A -> M cli cli_error B) l, (forall x, always grows (f x)) -> always grows (each f l).
Proof. intros A B f l H. induction l as [|x l IH]; cbn [each]; go; [apply H|exact IH]. Qed.
Lemma g_each_ : forall {A} (f : A -> M cli cli_error unit) l, (forall x, always grows (f x)) -> always grows (each_ f l).
Proof. intros A f l H. induction l as [|x l IH]; cbn [each_]; go; [apply H|exact IH]. Qed.
Lemma g_try : forall e, always grows (try_handle e).
Proof. intros []; cbn; go. Qed.

(** Before the key is taken nothing changes on the disk. *)
Lemma l_call_or : forall {X A} (e : X) (m : M sys X A), always same_disk m -> always same_disk (call_or e m).
Proof.
  intros X A e m Hm s o s' H. unfold call_or in H.
  assert (R : same_disk s (snd (next_fault s))) by (unfold next_fault; destruct (s_faults s); repeat split).
  destruct (next_fault s) as [b s1]. cbn in R. destruct b.
  - inversion H. subst. exact R.
  - apply Hm in H. eapply same_disk_trans; eauto.
Qed.
Lemma next_plan_same : forall s, same_disk s (snd (next_plan s)).
Proof. intros s. unfold next_plan. destruct (s_plans s); repeat split. Qed.
Lemma l_read_file : forall p, always same_disk (read_file p).
Proof.
  intros p s o s' H. unfold read_file in H. destruct (is_dir s p); [inversion H; apply same_disk_refl|].
  revert H. apply l_call_or.
  clear. intros s o s' H. destruct (stat s p) as [[|i|t]|]; try (inversion H; apply same_disk_refl).
  unfold new_handle in H. pose proof (next_plan_same s) as R. destruct (next_plan s) as [pl s1]. inversion H. subst. exact R.
Qed.
Lemma k_on_fs : forall {X A} (m : M sys X A), always same_disk m -> always looks (on_fs m).
Proof.
  intros X A m Hm c o c' H. split; [|eapply g_on_a; exact H].
  unfold on_fs, on_a, on_sys, zoom in H. destruct (m (fst (c_a c))) as [o1 s1] eqn:Y. inversion H. subst.
  exact (Hm _ _ _ Y).
Qed.
Lemma k_storage_read : forall p, always looks (storage (read_file p)).
Proof. intros p. apply k_on_fs, (always_map_err same_disk), l_read_file. Qed.
Lemma k_same : forall c c', c_a c' = c_a c -> grows c c' -> looks c c'.
Proof. intros c c' H G. split; [|exact G]. unfold disk. rewrite H. apply same_disk_refl. Qed.
Lemma answer_loop_a : forall n p d c o c', answer_loop n p d c = (o, c') -> c_a c' = c_a c.
Proof.
  induction n as [|n IH]; intros p d c o c' H; cbn [answer_loop] in H; [inversion H; reflexivity|].
  unfold bind, say in H. destruct (read_line _) as [x y]. destruct (negb (utf8 x)); [inversion H; reflexivity|].
  destruct (is_nil x); [inversion H; reflexivity|]. destruct (read_answer d x); [inversion H; reflexivity|].
  apply IH in H. exact H.
Qed.
Lemma k_check : forall n f, always looks (check_or_exit n f).
Proof.
  intros n f c o c' H. apply k_same; [|eapply g_check; exact H].
  unfold check_or_exit in H. apply bind_inv in H as [(b & c1 & H1 & H)|[(e & H1 & _)|[(H1 & _)|(H1 & _)]]].
  - assert (A : c_a c1 = c_a c).
    { unfold overwrite_check in H1. destruct (exists_path _ _); [|inversion H1; reflexivity].
      destruct f; [inversion H1; reflexivity|]. eapply answer_loop_a; exact H1. }
    destruct b; inversion H; subst; exact A.
  - unfold overwrite_check in H1. destruct (exists_path _ _); [|inversion H1; reflexivity].
      destruct f; [inversion H1; reflexivity|]. eapply answer_loop_a; exact H1.
  - unfold overwrite_check in H1. destruct (exists_path _ _); [|inversion H1; reflexivity].
      destruct f; [inversion H1; reflexivity|]. eapply answer_loop_a; exact H1.
  - unfold overwrite_check in H1. destruct (exists_path _ _); [|inversion H1; reflexivity].
      destruct f; [inversion H1; reflexivity|]. eapply answer_loop_a; exact H1.
Qed.
Lemma k_each : forall {A B} (f : A -> M cli cli_error B) l, (forall x, always looks (f x)) -> always looks (each f l).
Proof.
  intros A B f l H. induction l as [|x l IH]; cbn [each]; [apply (always_ret looks looks_refl)|].
  apply (always_bind looks looks_trans); [apply H|intros y].
  apply (always_bind looks looks_trans); [exact IH|intros ys]. apply (always_ret looks looks_refl).
Qed.

Lemma phrase_secret : forall V n st c o c', get_secret V (Generate n) st c = (o, c') ->
  looks c c' /\ (forall raw, o = Ok raw -> exists s, generate_passphrase (ce_words V) (ce_draw V) n = Ok s
    /\ raw = list_byte_of_string s /\ c_out c' = c_out c ++ [NPhrase s]).
Proof.
  intros V n st c o c' H. unfold get_secret, bind, lift, say in H.
  destruct (generate_passphrase (ce_words V) (ce_draw V) n) as [s|e| |] eqn:G.
  2-4: inversion H; subst; (split; [apply looks_refl|discriminate]).
  cbn in H. assert (L : looks c (mkCli (c_a c) (c_stdin c) (c_tty c) (c_out c ++ [NPhrase s])))
    by (apply k_same; [reflexivity|exists [NPhrase s]; reflexivity]).
  destruct (is_nil _); inversion H; subst; (split; [exact L|]); [discriminate|].
  intros raw [= <-]. exists s. auto.
Qed.

Lemma split_looks : forall {X A B} (m : M cli X A) (k : A -> M cli X B) c o c',
  bind m k c = (o, c') -> always looks m ->
  looks c c' \/ exists a c1, looks c c1 /\ k a c1 = (o, c').
Proof.
  intros X A B m k c o c' H Q.
  apply bind_inv in H as [(a & c1 & H1 & H)|[(e & H1 & _)|[(H1 & _)|(H1 & _)]]]; apply Q in H1; eauto.
Qed.
Lemma split_secret : forall {B} V n st (k : bytes -> M cli cli_error B) c o c',
  bind (get_secret V (Generate n) st) k c = (o, c') -> (forall raw, always grows (k raw)) ->
  looks c c' \/ exists s, generate_passphrase (ce_words V) (ce_draw V) n = Ok s /\ shown c c' s.
Proof.
  intros B V n st k c o c' H G.
  apply bind_inv in H as [(raw & c1 & H1 & H)|[(e & H1 & _)|[(H1 & _)|(H1 & _)]]]; apply phrase_secret in H1 as [L S]; auto.
  right. destruct (S raw eq_refl) as (s & GP & _ & O). exists s. split; [exact GP|].
  destruct (G raw _ _ _ H) as [l E]. exists (NPhrase s :: l). split; [|left; reflexivity].
  rewrite E, O, <- app_assoc. reflexivity.
Qed.

Definition told (V : cenv) (n : Z) (c c' : cli) : Prop :=
  same_disk (disk c) (disk c')
  \/ exists s, generate_passphrase (ce_words V) (ce_draw V) n = Ok s /\ shown c c' s.
Lemma told_looks : forall V n c c', looks c c' -> told V n c c'.
Proof. intros V n c c' [H _]. left. exact H. Qed.
Lemma looks_told : forall V n c c1 c', looks c c1 -> told V n c1 c' -> told V n c c'.
Proof.
  intros V n c c1 c' [A [l0 B]] [H|(s & G & l & O & I)]; [left; eapply same_disk_trans; eauto|right]. exists s. split; [exact G|].
  exists (l0 ++ l). split; [rewrite O, B; symmetry; apply app_assoc|apply in_or_app; auto].
Qed.


Lemma told_bind : forall V n {X A B} (m : M cli X A) (k : A -> M cli X B) c o c',
  bind m k c = (o, c') -> always looks m -> (forall a c1, k a c1 = (o, c') -> told V n c1 c') -> told V n c c'.
Proof.
  intros V n X A B m k c o c' H Q K. apply split_looks in H as [L|(a & c1 & L & H)]; [apply told_looks, L| |exact Q].
  eapply looks_told; [exact L|]. eapply K. exact H.
Qed.
Lemma told_secret : forall {B} V n st (k : bytes -> M cli cli_error B) c o c',
  bind (get_secret V (Generate n) st) k c = (o, c') -> (forall raw, always grows (k raw)) -> told V n c c'.
Proof. intros B V n st k c o c' H G. apply split_secret in H as [L|S]; [apply told_looks, L|right; exact S|exact G]. Qed.

Lemma encrypt_tells : forall V n input output p a c o c', cp_key p = Generate n ->
  encrypt_stream V input output p a c = (o, c') -> told V n c c'.
Proof.
  intros V n input output p a c o c' K H. unfold encrypt_stream in H.
  destruct (String.eqb input output); [inversion H; subst; apply told_looks, looks_refl|].
  eapply told_bind; [exact H|apply k_check|]. clear H; clear c. intros ? c H; cbv beta in H.
  eapply told_bind; [exact H|apply k_storage_read|]. clear H; clear c. intros fi c H.
  rewrite K in H. eapply told_secret; [exact H|]. clear. intros raw; cbv beta.
  go; first [apply g_on_a|apply g_open_header|apply g_try|apply g_flush_opt|apply g_hash_files|apply g_secure_erase].
Qed.
Lemma pack_tells : forall V n inputs output p pp a c o c', cp_key p = Generate n ->
  pack_cli V inputs output p pp a c = (o, c') -> told V n c c'.
Proof.
  intros V n inputs output p pp a c o c' K H. unfold pack_cli in H.
  destruct (existsb _ inputs); [inversion H; subst; apply told_looks, looks_refl|].
  eapply told_bind; [exact H| |].
  { clear. intros c o c' H. destruct (existsb _ _); inversion H; subst; apply looks_refl. }
  clear H; clear c. intros ? c H; cbv beta in H.
  eapply told_bind; [exact H|apply k_check|]. clear H; clear c. intros ? c H; cbv beta in H.
  eapply told_bind; [exact H|apply k_each; intros x; apply k_storage_read|]. clear H; clear c. intros fi c H.
  rewrite K in H. eapply told_secret; [exact H|]. clear. intros raw; cbv beta.
  go; try first [apply g_on_a|apply g_open_header|apply g_try|apply g_flush_opt|apply g_hash_files].
  - apply g_each. intros x. go. apply g_on_a.
  - apply g_each_. intros x. apply g_secure_erase.
Qed.

Lemma printed_looks : forall n c, looks c (printed n c).
Proof. intros n c. apply k_same; [reflexivity|]. exists n. reflexivity. Qed.

Lemma source_unique : forall V cmd g k k', In cmd [CmdEncrypt; CmdPack] ->
  key_source V cmd g k -> key_source V cmd g k' -> k = k'.
Proof.
  intros V cmd g k k' I H H'.
  destruct (CliResults.precedence_holds V cmd g (mkCli (mkSys [] (fun _ => []) 0 [] (mkPath true []) [] [] (fun _ => x00) [], []) [] [] []))
    as (k0 & _ & U & _).
  { cbn in *. tauto. }
  rewrite (U _ H), (U _ H'). reflexivity.
Qed.

Lemma phrase_told : forall V cmd g c o c' n, In cmd [CmdEncrypt; CmdPack] ->
  g "input"%string <> [] -> g "output"%string <> [] -> key_source V cmd g (Generate n) ->
  run_command V cmd g c = (o, c') ->
  same_disk (disk c) (disk c')
  \/ exists s, generate_passphrase (ce_words V) (ce_draw V) n = Ok s /\ shown c c' s.
Proof.
  intros V cmd g c o c' n I GI GO KS H. fold (told V n c c').
  destruct (g "output"%string) as [|output ro] eqn:EO; [congruence|].
  assert (GO' : given g "output" output) by (exists ro; exact EO).
  destruct I as [<-|[<-|[]]].
  - destruct (g "input"%string) as [|input ri] eqn:EI; [congruence|].
    assert (GI' : given g "input" input) by (exists ri; exact EI).
    destruct (encrypt_cmd_run V g c _ _ GI' GO') as (p & l & PO & R). rewrite R in H.
    eapply looks_told; [apply (printed_looks l)|]. eapply encrypt_tells; [|exact H].
    apply (source_unique V CmdEncrypt g); [cbn; tauto|apply (po_key _ _ _ _ PO)|exact KS].
  - destruct (pack_cmd_run V g c _ _ GI eq_refl GO') as (p & pp & l & PO & _ & _ & R). rewrite R in H.
    eapply looks_told; [apply (printed_looks l)|]. eapply pack_tells; [|exact H].
    apply (source_unique V CmdPack g); [cbn; tauto|apply (po_key _ _ _ _ PO)|exact KS].
Qed.

Lemma phrase_recovers : forall V g c c' n input output i,
  env_ok (ce_E V) -> no_faults (disk c) -> inodes_ok (disk c) ->
  given g "input" input -> given g "output" output ->
  stat (disk c) (os_path input) = Some (NFile i) ->
  (forall t, In t (write_targets g output) -> stat (disk c) t <> Some (NFile i)) ->
  (forall h, given g "header" h -> different (disk c) (os_path output) (os_path h)) ->
  key_source V CmdEncrypt g (Generate n) ->
  run_command V CmdEncrypt g c = (Ok tt, c') ->
  exists s, generate_passphrase (ce_words V) (ce_draw V) n = Ok s /\ shown c c' s
    /\ kept_encrypted V g output (disk c) (disk c') (list_byte_of_string s) (s_data (disk c) i).
Proof.
  intros V g c c' n input output i HE NF IO GI GO ST SEP DIF KS H.
  destruct (CliProofs.encrypt_keeps _ _ _ _ _ _ _ _ HE NF IO GI GO ST SEP DIF H) as [_ K].
  destruct (K eq_refl) as (GONE & raw & (k & c0 & t & KS' & _ & _ & _ & Y) & KE).
  assert (k = Generate n) by (eapply source_unique; eauto; cbn; tauto). subst k.
  assert (I1 : g "input"%string <> []) by (destruct GI as [r E]; rewrite E; discriminate).
  assert (I2 : g "output"%string <> []) by (destruct GO as [r E]; rewrite E; discriminate).
  destruct (phrase_told V CmdEncrypt g c _ _ n ltac:(cbn; tauto) I1 I2 KS H) as [SD|(s & G & S)].
  - exfalso. rewrite (stat_disk _ _ _ SD) in GONE. congruence.
  - exists s. split; [exact G|]. split; [exact S|]. inversion Y; subst. congruence.
Qed.

Lemma same_disk_unwritten : forall s s', same_disk s s' -> unwritten s s'.
Proof.
  intros s s' (A & B & _ & _ & _ & L). split; [|exact L].
  intros q. unfold at_place, lookup. rewrite A, B. reflexivity.
Qed.
Lemma phrase_told_unwritten : forall V cmd g c o c' n, In cmd [CmdEncrypt; CmdPack] ->
  g "input"%string <> [] -> g "output"%string <> [] -> key_source V cmd g (Generate n) ->
  run_command V cmd g c = (o, c') ->
  unwritten (disk c) (disk c')
  \/ exists s, generate_passphrase (ce_words V) (ce_draw V) n = Ok s /\ shown c c' s.
Proof.
  intros. edestruct phrase_told as [X|X]; eauto. left. now apply same_disk_unwritten.
Qed.
