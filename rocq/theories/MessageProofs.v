(** Which errors a command can end in, and which of them share a text. *)
From Coq Require Import List ZArith String Bool.
From Verif Require Import Bytes Outcome IO EncDec KeyOps HeaderOps Overwrite Hash FS Erase Archive Cli CliTools.
From Verif Require Import KeyModel Messages MessageSpec.
Import ListNotations.
Local Open Scope list_scope.

(** ** Texts *)

Lemma enc_tells : tells_which enc_text.
Proof. intros [] []; cbn; intros H; first [reflexivity|discriminate H]. Qed.
Lemma dec_tells : tells_which dec_text.
Proof. intros [] []; cbn; intros H; first [reflexivity|discriminate H]. Qed.
Lemma key_tells : tells_which key_text.
Proof. intros [] []; cbn; intros H; first [reflexivity|discriminate H]. Qed.
Lemma hop_tells : tells_which hop_text.
Proof. intros [] []; cbn; intros H; first [reflexivity|discriminate H]. Qed.
Lemma st_tells : tells_which st_text.
Proof. intros [] []; cbn; intros H; first [reflexivity|discriminate H]. Qed.
Lemma ow_tells : tells_which ow_text.
Proof. intros [] []; cbn; intros H; first [reflexivity|discriminate H]. Qed.
Lemma hash_tells : tells_which hash_text.
Proof. intros [] []; cbn; intros H; first [reflexivity|discriminate H]. Qed.

Lemma append_tells : forall p a b, String.append p a = String.append p b -> a = b.
Proof. induction p as [|c p IH]; cbn; intros a b H; [exact H|]. injection H as H. apply IH, H. Qed.

Lemma erase_tells : tells_which erase_text.
Proof.
  intros [|i|] [|j|]; unfold erase_text; intros H; try reflexivity;
    try (destruct i; discriminate H); try (destruct j; discriminate H); try discriminate H.
  apply append_tells, ow_tells in H. congruence.
Qed.
Lemma erase_dir_tells : tells_which erase_dir_text.
Proof.
  intros [|i| |] [|j| |]; unfold erase_dir_text; intros H; try reflexivity; try discriminate H.
  apply append_tells, erase_tells in H. congruence.
Qed.
Lemma pack_tells : tells_which pack_text.
Proof.
  intros [| | | | | |i] [| | | | | |j]; unfold pack_text; intros H; try reflexivity; try discriminate H.
  apply append_tells, enc_tells in H. congruence.
Qed.
Lemma unpack_tells : tells_which unpack_text.
Proof.
  intros [| | | |i|i] [| | | |j|j]; unfold unpack_text; intros H; try reflexivity; try discriminate H.
  - apply append_tells, st_tells in H. congruence.
  - apply append_tells, dec_tells in H. congruence.
Qed.

(** ** Errors *)

Definition fails {S E A} (P : E -> Prop) (m : M S E A) : Prop := forall s e s', m s = (Err e, s') -> P e.

Section F.
Context {S : Type}.
Lemma f_bind : forall {E A B} (P : E -> Prop) (m : M S E A) (k : A -> M S E B),
  fails P m -> (forall a, fails P (k a)) -> fails P (bind m k).
Proof.
  intros E A B P m k F G s e s' H. unfold bind in H. destruct (m s) as [[a|x| |] s1] eqn:R; try discriminate.
  - eapply G; eassumption.
  - injection H as <- <-. eapply F; eassumption.
Qed.
Lemma f_ret : forall {E A} (P : E -> Prop) (a : A), fails P (@ret S E A a).
Proof. intros E A P a s e s' H. discriminate. Qed.
Lemma f_err : forall {E A} (P : E -> Prop) x, P x -> fails P (@err S E A x).
Proof. intros E A P x X s e s' H. injection H as <- <-. exact X. Qed.
Lemma f_panic : forall {E A} (P : E -> Prop), fails P (@panic S E A).
Proof. intros E A P s e s' H. discriminate. Qed.
Lemma f_diverge : forall {E A} (P : E -> Prop), fails P (@diverge S E A).
Proof. intros E A P s e s' H. discriminate. Qed.
Lemma f_opt : forall {E A} (P : E -> Prop) x (o : option A), P x -> fails P (@lift_opt S E A x o).
Proof. intros E A P x [a|] X s e s' H; [discriminate|]. injection H as <- <-. exact X. Qed.
Lemma f_map : forall {E E' A} (P : E' -> Prop) (f : E -> E') (m : M S E A),
  (forall x, P (f x)) -> fails P (map_err f m).
Proof.
  intros E E' A P f m X s e s' H. unfold map_err in H. destruct (m s) as [[a|x| |] s1]; try discriminate.
  injection H as <- <-. apply X.
Qed.
End F.
Lemma f_zoom : forall {S S' E A} (P : E -> Prop) g (p : S' -> S -> S) (m : M S' E A),
  fails P m -> fails P (zoom g p m).
Proof.
  intros S S' E A P g p m F s e s' H. unfold zoom in H. destruct (m (g s)) as [o t] eqn:R.
  injection H as -> <-. eapply F; eassumption.
Qed.
Lemma f_on_a : forall {E A} (P : E -> Prop) (m : M asys E A), fails P m -> fails P (on_a m).
Proof. intros. apply f_zoom. assumption. Qed.
Lemma f_on_fs : forall {E A} (P : E -> Prop) (m : M sys E A), fails P m -> fails P (on_fs m).
Proof. intros. apply f_on_a. unfold on_sys. apply f_zoom. assumption. Qed.
Lemma f_call : forall {E A} (P : E -> Prop) x (m : M sys E A), P x -> fails P m -> fails P (call_or x m).
Proof.
  intros E A P x m X F s e s' H. unfold call_or in H. destruct (next_fault s) as [b s1].
  destruct b; [injection H as <- <-; exact X|eapply F; eassumption].
Qed.

(** The errors that do not come from the operation itself. *)
Definition plain (e : cli_error) : bool :=
  match e with
  | CEncrypt _ | CDecrypt _ | CPack _ | CUnpack _ => false
  | _ => true
  end.
Definition possible (cmd : command) (e : cli_error) : bool :=
  match cmd, e with
  | CmdEncrypt, CEncrypt _ | CmdDecrypt, CDecrypt _ | CmdPack, CPack _ => true
  | _, _ => plain e
  end.

Section C.
Variable V : cenv.
Variable P : cli_error -> Prop.
Hypothesis PP : forall e, plain e = true -> P e.

Lemma f_plain : forall x, plain x = true -> forall {S A}, fails P (@err S cli_error A x).
Proof. intros. apply f_err, PP. assumption. Qed.

Ltac gp :=
  repeat first
    [ match goal with |- fails _ (bind _ _) => apply f_bind; [|intros ?] end
    | match goal with |- fails _ (ret _) => apply f_ret end
    | match goal with |- fails _ panic => apply f_panic end
    | match goal with |- fails _ diverge => apply f_diverge end
    | match goal with |- fails _ (lift_opt _ _) => apply f_opt, PP; reflexivity end
    | match goal with |- fails _ (err _) => apply f_err, PP; reflexivity end
    | match goal with |- fails _ (map_err _ _) => apply f_map; intros x; apply PP; reflexivity end
    | match goal with |- fails _ (say _) => intros ? ? ? X; discriminate X end
    | match goal with
      | |- fails _ (if ?b then _ else _) => destruct b
      | |- fails _ (match ?b with _ => _ end) => destruct b
      end ].

Lemma f_contains : forall m id, fails P (contains_id V m id).
Proof. intros. unfold contains_id. gp. Qed.
Lemma f_one : forall m id, fails P (get_one V m id).
Proof. intros. unfold get_one. gp. Qed.
Lemma f_many : forall m id, fails P (get_many V m id).
Proof. intros. unfold get_many. gp. Qed.
Lemma f_param : forall m id, fails P (get_param V id m).
Proof. intros. unfold get_param. gp. apply f_one. Qed.
Lemma f_params : forall m id, fails P (get_params V id m).
Proof. intros. unfold get_params. gp. apply f_many. Qed.
Lemma f_key_init : forall m k d, fails P (key_init V m k d).
Proof. intros. unfold key_init. gp; first [apply f_contains|apply f_one]. Qed.
Lemma f_prompt : fails P prompt_password.
Proof.
  intros c e c' H. unfold prompt_password in H. destruct (c_tty c) as [|[l|] r]; try discriminate;
    injection H as <- <-; apply PP; reflexivity.
Qed.
Lemma f_password : forall st, fails P (get_password st).
Proof.
  intros st c. unfold get_password. generalize (Datatypes.S (List.length (c_tty c))). intros n. revert c.
  induction n as [|n IH]; [apply f_diverge|]. cbn [password_loop]. change (fails P (password_loop n st)) in IH.
  apply f_bind; [apply f_prompt|]. intros i. destruct st; [|apply f_ret]. apply f_bind; [apply f_prompt|]. intros j.
  destruct (_ && _)%bool; [apply f_ret|]. apply f_bind; [intros ? ? ? X; discriminate X|]. intros _. exact IH.
Qed.
Lemma f_keyfile : forall p, fails P (read_keyfile p).
Proof.
  intros p. unfold read_keyfile. apply f_call; [apply PP; reflexivity|]. intros s e s' H.
  destruct (stat s p) as [[| |]|]; try (injection H as <- <-; apply PP; reflexivity).
  destruct (next_plan s) as [pl s1]. destruct (dev_read_to_end _) as [[l|x| |] d]; try discriminate.
  injection H as <- <-. apply PP. reflexivity.
Qed.
Lemma f_secret : forall k st, fails P (get_secret V k st).
Proof.
  intros k st. unfold get_secret. apply f_bind; [|intros; gp]. destruct k as [p| |n|].
  - destruct (String.eqb p "-").
    + apply f_bind; [intros ? ? ? X; discriminate X|]. intros; gp.
    + apply f_bind; [apply f_on_fs, f_keyfile|]. intros; gp.
  - gp.
  - apply f_bind; [|intros; gp]. intros s e s' H. unfold lift in H.
    destruct (generate_passphrase _ _ _); discriminate.
  - apply f_password.
Qed.
Lemma f_answer : forall q d f, fails P (get_answer q d f).
Proof.
  intros q d f. destruct f; [apply f_ret|]. unfold get_answer. intros c.
  generalize (Datatypes.S (List.length (c_stdin c))). intros n. revert c.
  induction n as [|n IH]; [apply f_diverge|]. cbn [answer_loop]. change (fails P (answer_loop n q d)) in IH.
  apply f_bind; [intros ? ? ? X; discriminate X|]. intros _.
  apply f_bind; [intros c e c' H; destruct (read_line (c_stdin c)); discriminate|]. intros l.
  destruct (negb _); [apply f_err, PP; reflexivity|]. destruct (is_nil l); [apply f_err, PP; reflexivity|].
  destruct (read_answer d l); [apply f_ret|]. apply f_bind; [intros ? ? ? X; discriminate X|]. intros _. exact IH.
Qed.
Lemma f_check : forall n f, fails P (check_or_exit n f).
Proof.
  intros n f. unfold check_or_exit. apply f_bind; [|intros b; gp]. intros c. unfold overwrite_check.
  destruct (exists_path _ _); [apply f_answer|]. intros e c' H. discriminate.
Qed.
Lemma f_storage : forall {A} (m : M sys st_error A), fails P (storage m).
Proof. intros. apply f_on_fs. gp. Qed.
Lemma f_handle : forall e, fails P (try_handle e).
Proof. intros. unfold try_handle. gp. Qed.
Lemma f_hash_file : forall p, fails P (hash_file V p).
Proof.
  intros p. unfold hash_file. apply f_call; [apply PP; reflexivity|]. intros s e s' H.
  destruct (stat s p) as [[| |]|]; try (injection H as <- <-; apply PP; reflexivity).
  destruct (next_plan s) as [pl s1]. destruct (hash_execute _ _ _) as [[l|x| |] d]; try discriminate.
  injection H as <- <-. apply PP. reflexivity.
Qed.
Lemma f_hash_files : forall l, fails P (hash_files V l).
Proof.
  induction l as [|f l IH]; [apply f_ret|]. cbn [hash_files]. apply f_bind; [apply f_on_fs, f_hash_file|]. intros h.
  apply f_bind; [intros ? ? ? X; discriminate X|]. intros _. exact IH.
Qed.
Lemma f_erase : forall i z f, fails P (secure_erase V i z f).
Proof.
  intros. unfold secure_erase. apply f_bind; [apply f_storage|]. intros e. destruct (entry_is_dir e).
  - apply f_bind; [apply f_answer|]. intros b. destruct b; [apply f_on_fs; gp|gp].
  - apply f_on_fs. gp.
Qed.
Lemma f_alias : forall ws, fails P (alias V ws).
Proof.
  intros ws a e a' H. unfold alias in H. destruct (al_outcome (ce_alias V a)); try discriminate.
  injection H as <- <-. apply PP. reflexivity.
Qed.
Lemma f_open_header : forall p, fails P (open_header p).
Proof. intros p. unfold open_header. gp; first [apply f_check|apply f_storage]. Qed.
Lemma f_read_header : forall p, fails P (read_header p).
Proof. intros p. unfold read_header. gp; apply f_storage. Qed.
Lemma f_flush : forall h, fails P (flush_opt h).
Proof. intros [h|]; [apply f_storage|apply f_ret]. Qed.
Lemma f_each : forall {A B} (f : A -> M cli cli_error B) l, (forall x, fails P (f x)) -> fails P (each f l).
Proof.
  intros A B f l F. induction l as [|x l IH]; [apply f_ret|]. cbn [each].
  apply f_bind; [apply F|]. intros y. apply f_bind; [exact IH|]. intros ys. apply f_ret.
Qed.
Lemma f_each_ : forall {A} (f : A -> M cli cli_error unit) l, (forall x, fails P (f x)) -> fails P (each_ f l).
Proof.
  intros A f l F. induction l as [|x l IH]; [apply f_ret|]. cbn [each_].
  apply f_bind; [apply F|]. intros y. exact IH.
Qed.
Lemma f_force : forall m, fails P (forcemode V m).
Proof. intros. unfold forcemode. gp. apply f_contains. Qed.
Lemma f_handler : forall m, fails P (parameter_handler V m).
Proof.
  intros. unfold parameter_handler, hashing_algorithm_of.
  gp; first [apply f_key_init|apply f_contains|apply f_force|apply f_one].
Qed.
Lemma f_pack_params : forall m, fails P (pack_params_of V m).
Proof.
  intros. unfold pack_params_of, hashing_algorithm_of.
  gp; first [apply f_key_init|apply f_contains|apply f_force|apply f_one].
Qed.
Lemma f_erase_params : forall m, fails P (erase_params V m).
Proof. intros. unfold erase_params. gp; first [apply f_contains|apply f_force|apply f_one]. Qed.
Lemma f_algorithm : forall m, fails P (algorithm_of V m).
Proof. intros. unfold algorithm_of. gp. apply f_contains. Qed.

Lemma f_encrypt : (forall i, P (CEncrypt i)) -> forall m, fails P (encrypt_cmd V m).
Proof.
  intros PE m. unfold encrypt_cmd, encrypt_stream.
  gp; first [apply f_handler|apply f_algorithm|apply f_param|apply f_check|apply f_storage|apply f_secret
            |apply f_open_header|apply f_handle|apply f_flush|apply f_hash_files|apply f_erase|idtac].
  apply f_on_a. unfold encrypt_files. destruct (_ || _)%bool; [apply f_alias|]. apply f_map. exact PE.
Qed.
Lemma f_decrypt : (forall i, P (CDecrypt i)) -> forall m, fails P (decrypt_cmd V m).
Proof.
  intros PE m. unfold decrypt_cmd, decrypt_stream.
  gp; first [apply f_handler|apply f_algorithm|apply f_param|apply f_check|apply f_storage|apply f_secret
            |apply f_read_header|apply f_handle|apply f_flush|apply f_hash_files|apply f_erase|idtac].
  apply f_on_a. unfold decrypt_files. destruct (_ || _)%bool; [apply f_alias|]. apply f_map. exact PE.
Qed.
Lemma f_pack : (forall i, P (CPack i)) -> forall m, fails P (pack_cmd V m).
Proof.
  intros PE m. unfold pack_cmd, pack_cli.
  gp; first [apply f_pack_params|apply f_algorithm|apply f_params|apply f_param|apply f_check|apply f_secret
            |apply f_open_header|apply f_handle|apply f_flush|apply f_hash_files
            |apply f_each_; intros; apply f_erase|apply f_storage|idtac].
  - intros c e c' H. destruct (existsb _ _); [injection H as <- <-; apply PP; reflexivity|discriminate].
  - apply f_each. intros; apply f_storage.
  - apply f_each. intros f. destruct (entry_is_dir f); [apply f_storage|apply f_ret].
  - apply f_on_a. destruct (same_opt _ _); [apply f_alias|]. apply f_map. exact PE.
Qed.
End C.

Lemma can_end_possible : forall cmd e, can_end cmd e -> possible cmd e = true.
Proof.
  intros cmd e (V & given & c & c' & H). unfold run_command in H.
  set (P := fun x => possible cmd x = true).
  assert (PP : forall x, plain x = true -> P x) by (intros x X; unfold P; destruct cmd, x; cbn in X |- *; congruence).
  change (P e). destruct cmd.
  - refine (f_encrypt V P PP _ _ _ _ _ H). reflexivity.
  - refine (f_decrypt V P PP _ _ _ _ _ H). reflexivity.
  - revert H. unfold erase_cmd. apply f_bind; [apply f_erase_params, PP|]. intros pf.
    apply f_bind; [apply f_param, PP|]. intros i. apply f_erase, PP.
  - revert H. unfold hash_cmd. apply f_bind; [apply f_many|]. intros p. apply f_hash_files, PP.
  - refine (f_pack V P PP _ _ _ _ _ H). reflexivity.
  - revert H. unfold unpack_cmd. apply f_bind; [apply f_handler, PP|]. intros p.
    apply f_bind; [apply f_panic|]. intros i. apply f_panic.
Qed.

(** ** Shared texts *)

Definition cli_error_eq : forall a b : cli_error, {a = b} + {a <> b}.
Proof. repeat decide equality. Defined.

Definition encs := [EncResetCursorPosition; EncHashKey; EncEncryptMasterKey; EncEncryptFile; EncWriteHeader;
  EncInitializeStreams; EncInitializeCiphers; EncCreateAad].
Definition decs := [DecInitializeCiphers; DecInitializeStreams; DecDeserializeHeader; DecReadEncryptedData;
  DecDecryptMasterKey; DecDecryptData; DecWriteData; DecRewindDataReader].
Definition sts := [StCreateDir; StCreateFile; StOpenRead; StOpenWrite; StRemoveFile; StRemoveDir; StDirEntries;
  StFlushFile; StFileAccess; StFileLen].
Definition eras := EraOpenFile :: EraRemoveFile
  :: map EraOverwrite [OwResetCursorPosition; OwOverwriteWithRandomBytes; OwOverwriteWithZeros; OwFlushFile].
Definition errors : list cli_error :=
  [CExit; CSameName; CInputIsFile; CAlias; CAnswer; CPassword; CKeyfile; CEmptyStdin; CEmptyKeyfile; CEmptyKey;
   CEnvironment; CNoKeySource; CMissing; CHashOpen; CHash HashResetCursorPosition; CHash HashReadData]
  ++ map CStorage sts ++ map CEncrypt encs ++ map CDecrypt decs
  ++ map CPack ([PkCreateArchive; PkAddDirToArchive; PkAddFileToArchive; PkFinishArchive; PkReadData; PkWriteData]
                ++ map PkEncrypt encs)
  ++ map CUnpack ([UnWriteData; UnOpenArchive; UnOpenArchivedFile; UnResetCursorPosition]
                  ++ map UnStorage sts ++ map UnDecrypt decs)
  ++ map CErase eras
  ++ map CEraseDir ([EdInvalidFileType; EdReadDirEntries; EdRemoveDir] ++ map EdEraseFile eras).
Definition inb (e : cli_error) : bool := existsb (fun x => if cli_error_eq e x then true else false) errors.
Lemma inb_in : forall e, inb e = true -> In e errors.
Proof.
  intros e H. apply existsb_exists in H. destruct H as (x & I & E). destruct (cli_error_eq e x); [subst; exact I|discriminate].
Qed.
Lemma all_errors : forall e, In e errors.
Proof.
  intros e. apply inb_in.
  destruct e as [| | |i|i|i|i|i|i|i| | | | | | | | | | | |i]; try (vm_compute; reflexivity);
    destruct i as [] eqn:?; try (vm_compute; reflexivity);
    match goal with |- context [?f ?x] => is_var x; destruct x as [] end; try (vm_compute; reflexivity);
    match goal with |- context [?f ?x] => is_var x; destruct x as [] end; vm_compute; reflexivity.
Qed.

Definition eqb (a b : cli_error) : bool := if cli_error_eq a b then true else false.
Definition mistakenb (cmd : command) (e e' : cli_error) : bool :=
  match cmd with
  | CmdEncrypt => eqb e (CEncrypt EncResetCursorPosition) && eqb e' (CHash HashResetCursorPosition)
  | CmdPack => eqb e (CPack PkReadData) && eqb e' (CHash HashReadData)
  | _ => false
  end.
Lemma mistakenb_spec : forall cmd e e', mistakenb cmd e e' = true -> mistaken cmd e e'.
Proof.
  intros cmd e e' H. unfold mistakenb, eqb in H.
  destruct cmd; try discriminate;
    (destruct (cli_error_eq e _) as [->|]; [|discriminate]); (destruct (cli_error_eq e' _) as [->|]; [|discriminate]);
    constructor.
Qed.
Definition same_text (e e' : cli_error) : bool :=
  match cli_text e, cli_text e' with Some t, Some t' => String.eqb t t' | _, _ => false end.
Definition apart (cmd : command) (e e' : cli_error) : bool :=
  negb (possible cmd e) || negb (possible cmd e') || negb (same_text e e')
  || eqb e e' || mistakenb cmd e e' || mistakenb cmd e' e.
Lemma checked : forall cmd, forallb (fun e => forallb (apart cmd e) errors) errors = true.
Proof. intros []; vm_compute; reflexivity. Qed.

Lemma texts : forall cmd e e' t, possible cmd e = true -> possible cmd e' = true ->
  cli_text e = Some t -> cli_text e' = Some t ->
  e = e' \/ mistaken cmd e e' \/ mistaken cmd e' e.
Proof.
  intros cmd e e' t P P' T T'. pose proof (checked cmd) as C. rewrite forallb_forall in C.
  specialize (C e (all_errors e)). rewrite forallb_forall in C. specialize (C e' (all_errors e')).
  unfold apart in C. rewrite P, P' in C. unfold same_text in C. rewrite T, T', String.eqb_refl in C. cbn [negb orb] in C.
  apply orb_prop in C. destruct C as [C|C]; [apply orb_prop in C; destruct C as [C|C]|].
  - left. unfold eqb in C. destruct (cli_error_eq e e'); [assumption|discriminate].
  - right; left. apply mistakenb_spec, C.
  - right; right. apply mistakenb_spec, C.
Qed.

Lemma command_tells : forall cmd e e' t, can_end cmd e -> can_end cmd e' ->
  error_line e = Some t -> error_line e' = Some t ->
  e = e' \/ mistaken cmd e e' \/ mistaken cmd e' e.
Proof.
  intros cmd e e' t C C' T T'. unfold error_line in T, T'.
  destruct (cli_text e) as [u|] eqn:U; [|discriminate]. destruct (cli_text e') as [v|] eqn:W; [|discriminate].
  injection T as <-. injection T' as ->.
  exact (texts cmd e e' u (can_end_possible _ _ C) (can_end_possible _ _ C') U W).
Qed.
