(** Proofs: no panics, consent, erasing directories. *)
From Coq Require Import List Arith NArith ZArith Ascii String Bool Lia.
From Verif Require Import Bytes Outcome IO Primitives Crypto Header Stream KeyModel EncDec.
From Verif Require Import Overwrite Hash FS Erase Archive Cli.
From Verif Require Import FileSpec FileProofs FSSpec FSFacts ArchiveSpec EraseProofs EraseDirProofs UnpackProofs PackProofs.
From Verif Require Import CliSpec CliKeys CliRuns CliCommands CliProofs CliPack.
Import ListNotations.
Local Open Scope nat_scope.
Local Open Scope list_scope.

(** ** No panics *)

Lemma decrypt_no_panic : forall E bs detached pw v o v', env_ok E ->
  decrypt_execute_bs E bs detached pw v = (o, v') -> o <> Panic /\ o <> Diverge.
Proof.
  intros E bs detached pw v o v' HE H.
  destruct (decrypt_execute_spec _ _ _ _ _ _ _ HE H)
    as [(e & -> & _)|(h & aad & d1 & v1 & _ & _ & _ & _ & _ & _ & _ & ENDED)].
  - split; discriminate.
  - destruct ENDED as (_ & _ & _ & [->|[e ->]] & _); split; discriminate.
Qed.

Definition safe {A} (m : M cli cli_error A) : Prop :=
  forall c o c', m c = (o, c') -> o <> Panic /\ o <> Diverge.

Lemma safe_bind : forall {A B} (m : M cli cli_error A) (f : A -> M cli cli_error B),
  safe m -> (forall x, safe (f x)) -> safe (bind m f).
Proof.
  intros A B m f HM HF c o c' H. unfold bind in H. destruct (m c) as [o1 c1] eqn:E.
  destruct (HM _ _ _ E) as [N1 N2]. destruct o1; try congruence.
  - eapply HF. exact H.
  - injection H as <- <-. split; discriminate.
Qed.
Lemma safe_ret : forall {A} (x : A), safe (ret x).
Proof. intros A x c o c' H. unfold ret in H. injection H as <- <-. split; discriminate. Qed.
Lemma safe_err : forall {A} e, safe (@err cli cli_error A e).
Proof. intros A e c o c' H. unfold err in H. injection H as <- <-. split; discriminate. Qed.
Lemma safe_storage : forall {A} (m : M sys st_error A),
  (forall s o s', m s = (o, s') -> o <> Panic /\ o <> Diverge) -> safe (storage m).
Proof.
  intros A m HM c o c' H. destruct (storage_inv _ _ _ _ H) as (r & s' & E & -> & _).
  destruct (HM _ _ _ E). destruct r; try congruence; split; discriminate.
Qed.
Lemma safe_check : forall name force, safe (check_or_exit name force).
Proof.
  intros name force c o c' H. destruct (check_or_exit_any _ _ _ _ _ H) as (_ & _ & R & _).
  destruct R as [<-|[<-|[<-|[]]]]; split; discriminate.
Qed.
Lemma safe_read_file : forall p, safe (storage (read_file p)).
Proof.
  intros p. apply safe_storage. intros s o s' H.
  destruct (read_file_any _ _ _ _ H) as (_ & _ & [[-> _]|[(i & pl & -> & _)|[-> _]]]); split; discriminate.
Qed.
Lemma safe_create : forall p, safe (storage (create_or_write p)).
Proof.
  intros p. apply safe_storage. intros s o s' H.
  destruct (create_or_write_any _ _ _ _ H) as [(e & -> & _)|(h & -> & _)]; split; discriminate.
Qed.
Lemma safe_flush : forall e, safe (storage (flush_file e)).
Proof.
  intros e. apply safe_storage. intros s o s' H.
  destruct (flush_file_any _ _ _ _ H) as (_ & A & B & _). auto.
Qed.
Lemma safe_handle : forall e, safe (try_handle e).
Proof. intros [h|p]; [apply safe_ret|apply safe_err]. Qed.
Lemma safe_open_header : forall p, safe (open_header p).
Proof.
  intros p. unfold open_header. destruct (cp_header p); [|apply safe_ret].
  apply safe_bind; [apply safe_check|intros _]. apply safe_bind; [apply safe_create|intros h; apply safe_ret].
Qed.
Lemma safe_read_header : forall p, safe (read_header p).
Proof.
  intros p. unfold read_header. destruct (cp_header p); [|apply safe_ret].
  apply safe_bind; [apply safe_read_file|intros h; apply safe_ret].
Qed.
Lemma safe_flush_opt : forall e, safe (flush_opt e).
Proof. intros [e|]; [apply safe_flush|apply safe_ret]. Qed.
Lemma safe_hash_files : forall V fs, safe (hash_files V fs).
Proof.
  intros V fs c o c' H. destruct (hash_files_any _ _ _ _ _ H) as (_ & _ & _ & _ & _ & A & B & _). auto.
Qed.
Lemma safe_secret : forall V k st,
  (forall n, k = Generate n -> generate_passphrase (ce_words V) (ce_draw V) n <> Panic) ->
  safe (get_secret V k st).
Proof.
  intros V k st G c o c' H. destruct (get_secret_any _ _ _ _ _ _ H) as (_ & _ & _ & ND & PN & _).
  split; [|exact ND]. intros E. destruct (PN E) as (n & K & X). exact (G n K X).
Qed.

Lemma alias_safe : forall V ws a o a', alias_calm V -> alias V ws a = (o, a') -> o <> Panic /\ o <> Diverge.
Proof.
  intros V ws a o a' AC H. unfold alias in H. destruct (AC a). injection H as <- _.
  destruct (al_outcome (ce_alias V a)); try congruence; split; discriminate.
Qed.

Lemma safe_encrypt_files : forall V req hi ho hh, env_ok (ce_E V) -> alias_calm V ->
  ht_version (er_header_type req) = V5 -> safe (on_a (encrypt_files V req hi ho hh)).
Proof.
  intros V req hi ho hh HE AC V5' c o c' H. rewrite on_a_run in H. injection H as <- _.
  unfold encrypt_files. destruct (same_file ho hi || same_opt ho hh || same_opt hi hh)%bool.
  - destruct (alias V (written ho hh) (c_a c)) as [o1 a1] eqn:E. eapply alias_safe; eauto.
  - rewrite map_err_run. cbn [fst]. unfold run_world.
    destruct (encrypt_execute (ce_E V) req _) as [o1 w] eqn:E. cbn [fst].
    apply encrypt_no_panic in E; [|exact HE|apply Nat.ltb_lt; reflexivity|congruence].
    destruct o1; cbn; split; try discriminate; destruct E; congruence.
Qed.
Lemma safe_decrypt_files : forall V raw hi ho hh, env_ok (ce_E V) -> alias_calm V ->
  safe (on_a (decrypt_files V raw hi ho hh)).
Proof.
  intros V raw hi ho hh HE AC c o c' H. rewrite on_a_run in H. injection H as <- _.
  unfold decrypt_files. destruct (same_file ho hi || same_opt ho hh)%bool.
  - destruct (alias V [h_ino ho] (c_a c)) as [o1 a1] eqn:E. eapply alias_safe; eauto.
  - rewrite map_err_run. cbn [fst]. unfold run_world.
    destruct (decrypt_execute (ce_E V) (is_some hh) raw _) as [o1 w] eqn:E. cbn [fst].
    apply decrypt_no_panic in E; [|exact HE].
    destruct o1; cbn; split; try discriminate; destruct E; congruence.
Qed.

Lemma safe_encrypt_main : forall V input output p a, env_ok (ce_E V) -> alias_calm V ->
  (forall n, cp_key p = Generate n -> generate_passphrase (ce_words V) (ce_draw V) n <> Panic) ->
  safe (encrypt_main V input output p a).
Proof.
  intros V input output p a HE AC G. unfold encrypt_main.
  apply safe_bind; [apply safe_check|intros _]. apply safe_bind; [apply safe_read_file|intros fi].
  apply safe_bind; [apply safe_secret; exact G|intros raw]. apply safe_bind; [apply safe_create|intros fo].
  apply safe_bind; [apply safe_open_header|intros fh]. apply safe_bind; [apply safe_handle|intros hi].
  apply safe_bind; [apply safe_handle|intros ho].
  apply safe_bind; [apply safe_encrypt_files; auto|intros _]. apply safe_bind; [apply safe_flush_opt|intros _].
  apply safe_bind; [apply safe_flush|intros _]. destruct (cp_hash p); [apply safe_hash_files|apply safe_ret].
Qed.
Lemma safe_decrypt_main : forall V input output p, env_ok (ce_E V) -> alias_calm V ->
  (forall n, cp_key p <> Generate n) -> safe (decrypt_main V input output p).
Proof.
  intros V input output p HE AC G. unfold decrypt_main.
  apply safe_bind; [apply safe_check|intros _]. apply safe_bind; [apply safe_read_file|intros fi].
  apply safe_bind; [apply safe_read_header|intros fh].
  apply safe_bind; [apply safe_secret; intros n K; destruct (G n K)|intros raw].
  apply safe_bind; [apply safe_create|intros fo].
  apply safe_bind; [apply safe_handle|intros hi]. apply safe_bind; [apply safe_handle|intros ho].
  apply safe_bind; [apply safe_decrypt_files; auto|intros _].
  apply safe_bind; [apply safe_flush|intros _]. destruct (cp_hash p); [apply safe_hash_files|apply safe_ret].
Qed.

Lemma key_source_generate : forall V cmd g n, key_source V cmd g (Generate n) -> In cmd [CmdEncrypt; CmdPack].
Proof. intros V cmd g n H. inversion H; assumption. Qed.

Lemma encrypt_decrypt_no_panic : forall V cmd g c o c' input output,
  env_ok (ce_E V) -> alias_calm V -> In cmd [CmdEncrypt; CmdDecrypt] ->
  given g "input" input -> given g "output" output ->
  run_command V cmd g c = (o, c') ->
  o <> Diverge
  /\ (o = Panic -> (cmd = CmdDecrypt /\ ce_debug V = true)
        \/ exists n, key_source V cmd g (Generate n)
             /\ generate_passphrase (ce_words V) (ce_draw V) n = Panic).
Proof.
  intros V cmd g c o c' input output HE AC IC GI GO H.
  destruct (string_dec input output) as [->|NE].
  { destruct (same_name_run V cmd g c o c' output IC GI GO H) as (_ & [->|(-> & E1 & E2)]);
      (split; [discriminate|]); [discriminate|auto]. }
  assert (FIN : forall n force c1 i, stat (disk c1) (os_path input) = Some (NFile i) ->
     secure_erase V input n force c1 = (o, c') -> o <> Panic /\ o <> Diverge).
  { intros n force c1 i ST SE.
    destruct (secure_erase_file _ _ _ _ _ _ _ _ SE ST) as [(-> & _)|(s1 & o1 & _ & _ & ER & ->)]; [split; discriminate|].
    destruct (erase_holds _ _ _ _ _ ER) as (_ & _ & _ & _ & A & B). destruct o1; try congruence; split; discriminate. }
  destruct IC as [<-|[<-|[]]].
  - destruct (encrypt_run _ _ _ _ _ _ _ GI GO NE H) as (p & n & o1 & c1 & PO & EM & RES).
    assert (GEN : {m | cp_key p = Generate m} + {forall m, cp_key p <> Generate m}).
    { destruct (cp_key p); [right; discriminate|right; discriminate|left; eauto|right; discriminate]. }
    assert (X : (o1 <> Diverge) /\ (o1 = Panic -> exists m, key_source V CmdEncrypt g (Generate m)
             /\ generate_passphrase (ce_words V) (ce_draw V) m = Panic)).
    { destruct GEN as [[m K]|NG].
      - destruct (generate_passphrase (ce_words V) (ce_draw V) m) eqn:GP.
        3:{ split; [|intros _; exists m; split; [rewrite <- K; apply PO|exact GP]].
            (* the run stops at the passphrase at the latest *)
            intros ->. clear RES H.
            unfold encrypt_main in EM.
            assert (SF : forall c o c', bind (check_or_exit output (cp_force p)) (fun _ =>
                bind (storage (read_file (os_path input))) (fun fi => get_secret V (cp_key p) Validate)) c = (o, c') -> o <> Diverge).
            { intros cx ox cx' E. unfold bind in E.
              destruct (check_or_exit output (cp_force p) cx) as [r1 d1] eqn:E1. apply safe_check in E1.
              destruct r1; try (injection E as <- <-; intuition congruence).
              destruct (storage (read_file (os_path input)) d1) as [r2 d2] eqn:E2. apply safe_read_file in E2.
              destruct r2; try (injection E as <- <-; intuition congruence).
              destruct (get_secret_any _ _ _ _ _ _ E) as (_ & _ & _ & ND & _). exact ND. }
            unfold bind in EM, SF. specialize (SF (printed n c)).
            destruct (check_or_exit output (cp_force p) (printed n c)) as [r1 d1].
            destruct r1; try discriminate EM; [|exact (SF _ _ eq_refl eq_refl)].
            destruct (storage (read_file (os_path input)) d1) as [r2 d2].
            destruct r2; try discriminate EM; [|exact (SF _ _ eq_refl eq_refl)].
            rewrite K in EM, SF. unfold get_secret, bind, lift in EM. rewrite GP in EM. discriminate. }
        all: assert (S : safe (encrypt_main V input output p (algorithm_asked g)))
          by (apply safe_encrypt_main; auto; intros m' K'; assert (m' = m) by congruence; subst; congruence);
          destruct (S _ _ _ EM); split; [assumption|contradiction].
      - assert (S : safe (encrypt_main V input output p (algorithm_asked g)))
          by (apply safe_encrypt_main; auto; intros m' K'; destruct (NG m' K')).
        destruct (S _ _ _ EM). split; [assumption|contradiction]. }
    destruct RES as [(_ & -> & _)|(-> & SE)].
    + destruct X as [X1 X2]. split; [exact X1|]. intros E. right. exact (X2 E).
    + destruct (encrypt_main_any _ _ _ _ _ _ _ _ EM) as (W & _ & OK).
      destruct (OK eq_refl) as (i & raw & hi & ho & hh & a1 & a2 & EN).
      destruct (FIN _ _ _ _ (ow_stat_kept _ _ _ _ _ W (en_input _ _ _ _ _ _ _ _ _ _ _ _ _ _ EN)) SE) as [A B].
      split; [exact B|contradiction].
  - destruct (ce_debug V) eqn:DB.
    { destruct (decrypt_cmd_run V g c _ _ GI GO) as [_ R2]. destruct (R2 DB) as [n R].
      rewrite R in H. injection H as <- <-. split; [discriminate|auto]. }
    destruct (decrypt_run _ _ _ _ _ _ _ DB GI GO NE H) as (p & n & o1 & c1 & PO & EM & RES).
    assert (S : safe (decrypt_main V input output p)).
    { apply safe_decrypt_main; auto. intros m K. pose proof (po_key _ _ _ _ PO) as KS. rewrite K in KS.
      apply key_source_generate in KS. destruct KS as [X|[X|[]]]; discriminate. }
    destruct (S _ _ _ EM) as [A B].
    destruct RES as [(_ & -> & _)|(-> & SE)].
    + split; [exact B|contradiction].
    + destruct (decrypt_main_any _ _ _ _ _ _ _ EM) as (W & _ & OK).
      destruct (OK eq_refl) as (i & raw & hi & ho & hh & a1 & a2 & EN).
      destruct (FIN _ _ _ _ (ow_stat_kept _ _ _ _ _ W (de_input _ _ _ _ _ _ _ _ _ _ _ _ _ EN)) SE) as [A' B'].
      split; [exact B'|contradiction].
Qed.

(** ** Consent *)

(** No answer agrees: standard input ends, is not text, or says no. *)
Lemma not_agreed : forall prompt d c o c' ls, lines (c_stdin c) ls ->
  (forall n r, ~ dialogue d ls (Some true) n r) ->
  get_answer prompt d Prompt c = (o, c') ->
  c_a c' = c_a c /\ (o = Ok false \/ o = Err CAnswer).
Proof.
  intros prompt d c o c' ls L NA H.
  destruct (get_answer_holds prompt d Prompt c ls L) as (a & n & r & c2 & ns & DL & RUN & _ & CA & _).
  rewrite RUN in H. injection H as <- <-. split; [exact CA|].
  destruct a as [[|]|]; [exfalso; eapply NA; eauto|auto|auto].
Qed.
Lemma check_not_agreed : forall name c o c' ls, lines (c_stdin c) ls ->
  (forall n r, ~ dialogue true ls (Some true) n r) ->
  exists_path (disk c) (os_path name) = true ->
  check_or_exit name Prompt c = (o, c') ->
  c_a c' = c_a c /\ (o = Err CExit \/ o = Err CAnswer).
Proof.
  intros name c o c' ls L NA X H. unfold check_or_exit, bind, overwrite_check in H.
  fold (disk c) in H. rewrite X in H.
  destruct (get_answer (exists_prompt name) true Prompt c) as [r c1] eqn:GA.
  destruct (not_agreed _ _ _ _ _ _ L NA GA) as [CA [->| ->]].
  - unfold err in H. injection H as <- <-. auto.
  - injection H as <- <-. auto.
Qed.

Lemma printed_c_a : forall n c, c_a (printed n c) = c_a c.
Proof. reflexivity. Qed.
Lemma printed_stdin : forall n c, c_stdin (printed n c) = c_stdin c.
Proof. reflexivity. Qed.

Lemma prompt_of : forall V cmd g p, params_of V cmd g p -> not_given g "force" -> cp_force p = Prompt.
Proof.
  intros V cmd g p PO NG. destruct (cp_force p) eqn:F; [|reflexivity].
  apply (po_force _ _ _ _ PO) in F. contradiction.
Qed.

Lemma overwrite_declined : forall V cmd g c o c' output ls,
  In cmd [CmdEncrypt; CmdDecrypt; CmdPack] ->
  g "input"%string <> [] -> given g "output" output -> not_given g "force" ->
  exists_path (disk c) (os_path output) = true ->
  lines (c_stdin c) ls -> (forall n r, ~ dialogue true ls (Some true) n r) ->
  run_command V cmd g c = (o, c') ->
  o <> Ok tt /\ c_a c' = c_a c.
Proof.
  intros V cmd g c o c' output ls IC GI GO NFO X L NA H.
  destruct (g "input"%string) as [|input r] eqn:GIN; [contradiction|].
  assert (GI' : given g "input" input) by (exists r; exact GIN).
  assert (CK : forall n p cmd' o1 c1, params_of V cmd' g p ->
     check_or_exit output (cp_force p) (printed n c) = (o1, c1) ->
     c_a c1 = c_a c /\ (o1 = Err CExit \/ o1 = Err CAnswer)).
  { intros n p cmd' o1 c1 PO CE. rewrite (prompt_of _ _ _ _ PO NFO) in CE.
    eapply check_not_agreed in CE; eauto. }
  destruct IC as [<-|[<-|[<-|[]]]].
  - destruct (encrypt_cmd_run V g c _ _ GI' GO) as (p & n & PO & R). rewrite R in H.
    unfold encrypt_stream in H. destruct (String.eqb input output).
    { injection H as <- <-. split; [discriminate|reflexivity]. }
    unfold bind at 1 in H. destruct (check_or_exit output (cp_force p) (printed n c)) as [o1 c1] eqn:CE.
    destruct (CK _ _ _ _ _ PO CE) as [CA [->| ->]]; injection H as <- <-; split; auto; discriminate.
  - destruct (decrypt_cmd_run V g c _ _ GI' GO) as [R1 R2]. destruct (ce_debug V).
    { destruct (R2 eq_refl) as [n R]. rewrite R in H. injection H as <- <-. split; [discriminate|reflexivity]. }
    destruct (R1 eq_refl) as (p & n & PO & R). rewrite R in H.
    unfold decrypt_stream in H. destruct (String.eqb input output).
    { injection H as <- <-. split; [discriminate|reflexivity]. }
    unfold bind at 1 in H. destruct (check_or_exit output (cp_force p) (printed n c)) as [o1 c1] eqn:CE.
    destruct (CK _ _ _ _ _ PO CE) as [CA [->| ->]]; injection H as <- <-; split; auto; discriminate.
  - destruct (pack_cmd_run V g c (input :: r) output) as (p & pp & n & PO & _ & _ & R); auto; try discriminate.
    rewrite R in H. unfold pack_cli in H.
    destruct (existsb (fun f => String.eqb f output) (input :: r)).
    { injection H as <- <-. split; [discriminate|reflexivity]. }
    unfold bind at 1 in H.
    destruct (existsb (fun f => is_file (fst (c_a (printed n c))) (os_path f)) (input :: r)).
    { injection H as <- <-. split; [discriminate|reflexivity]. }
    unfold bind at 1 in H. destruct (check_or_exit output (cp_force p) (printed n c)) as [o1 c1] eqn:CE.
    destruct (CK _ _ _ _ _ PO CE) as [CA [->| ->]]; injection H as <- <-; split; auto; discriminate.
Qed.

Lemma erase_dir_declined : forall V g c o c' input ls,
  given g "input" input -> not_given g "force" -> is_dir (disk c) (os_path input) = true ->
  lines (c_stdin c) ls -> (forall n r, ~ dialogue false ls (Some true) n r) ->
  run_command V CmdErase g c = (o, c') ->
  o <> Ok tt /\ same_disk (disk c) (disk c').
Proof.
  intros V g c o c' input ls GI NG ID L NA H.
  destruct (erase_cmd_run V g c _ GI) as [n R]. rewrite R in H. unfold not_given in NG. rewrite NG in H.
  unfold secure_erase in H. unfold bind at 1 in H.
  destruct (storage (read_file (os_path input)) (printed n c)) as [r1 c1] eqn:RF.
  destruct (storage_inv _ _ _ _ RF) as (r & s1 & RF' & -> & ->). rewrite printed_disk in RF'.
  destruct (read_file_any _ _ _ _ RF') as (D & _ & CASES).
  destruct (EraseDirProofs.read_file_any _ _ _ _ RF') as (_ & OP & NP & ND).
  destruct r as [e|e| |]; cbn [omap] in H; try congruence.
  2:{ injection H as <- <-. split; [discriminate|]. rewrite set_disk_disk. exact D. }
  destruct (OP e eq_refl) as (_ & EID & _). rewrite EID, ID in H.
  unfold bind at 1 in H.
  destruct (get_answer erase_dir_prompt false Prompt (set_disk s1 (printed n c))) as [r2 c2] eqn:GA.
  destruct (not_agreed _ _ (set_disk s1 (printed n c)) _ _ _ L NA GA) as [CA [->| ->]].
  - unfold err in H. injection H as <- <-. split; [discriminate|]. unfold disk at 2. rewrite CA. exact D.
  - injection H as <- <-. split; [discriminate|]. unfold disk at 2. rewrite CA. exact D.
Qed.

(** ** Hashes *)
Lemma hash_prints : forall V g c o c', g "input"%string <> [] -> run_command V CmdHash g c = (o, c') ->
  same_disk (disk c) (disk c') /\ o <> Panic /\ o <> Diverge
  /\ (no_faults (disk c) ->
       forall is, Forall2 (fun f i => stat (disk c) (os_path f) = Some (NFile i)) (g "input"%string) is ->
       o = Ok tt
       /\ c_out c' = c_out c ++ map (fun fi => NHash (fst fi) (hex_encode (ce_blake3 V (s_data (disk c) (snd fi)))))
                                  (combine (g "input"%string) is)).
Proof.
  intros V g c o c' GI H. rewrite (hash_cmd_run V g c GI) in H.
  destruct (hash_files_any _ _ _ _ _ H) as (A & _ & _ & _ & _ & B & C & D).
  split; [exact A|]. split; [exact B|]. split; [exact C|]. intros NF. apply D. exact NF.
Qed.

(** ** Decrypting keeps the input unless the key fits *)

Lemma decrypt_keeps : forall V g c o c' input output i,
  env_ok (ce_E V) -> ce_debug V = false -> no_faults (disk c) -> inodes_ok (disk c) ->
  given g "input" input -> given g "output" output ->
  stat (disk c) (os_path input) = Some (NFile i) ->
  stat (disk c) (os_path output) <> Some (NFile i) ->
  (forall h j, given g "header" h -> stat (disk c) (os_path h) = Some (NFile j) ->
     stat (disk c) (os_path output) <> Some (NFile j)) ->
  run_command V CmdDecrypt g c = (o, c') ->
  (o <> Ok tt -> stat (disk c') (os_path input) = Some (NFile i)
                 /\ s_data (disk c') i = s_data (disk c) i)
  /\ (o = Ok tt -> stat (disk c') (os_path input) = None
       /\ exists raw, key_taken V CmdDecrypt g Direct c output raw
            /\ exists src h aad d mk,
                 (src = s_data (disk c) i
                  \/ exists hp j, given g "header" hp /\ stat (disk c) (os_path hp) = Some (NFile j)
                                  /\ src = s_data (disk c) j)
                 /\ deserialize (mkDev src 0 [] []) = (Ok (h, aad), d)
                 /\ unlocks (ce_E V) raw h mk).
Proof.
  intros V g c o c' input output i HE DB NF IO GI GO ST SEP SEPH H.
  assert (NI : i < s_next (disk c)).
  { unfold stat in ST. destruct (resolve true (disk c) (os_path input)); [|discriminate]. exact (IO _ _ ST). }
  assert (NE : input <> output) by (intros ->; contradiction).
  destruct (decrypt_run _ _ _ _ _ _ _ DB GI GO NE H) as (p & n & o1 & c1 & PO & EM & RES).
  destruct (decrypt_main_any _ _ _ _ _ _ _ EM) as (W & _ & OK). rewrite printed_disk in W.
  assert (SEP' : forall t, In t [os_path output] -> stat (disk c) t <> Some (NFile i)).
  { intros t [<-|[]]. exact SEP. }
  pose proof (ow_stat_kept _ _ _ _ _ W ST) as ST1.
  pose proof (ow_untouched _ _ _ _ W NI SEP') as [DI _].
  destruct RES as [(NO & -> & ->)|(-> & SE)].
  { split; [auto|contradiction]. }
  destruct (OK eq_refl) as (i' & raw & hi & ho & hh & a1 & a2 & EN). clear OK.
  assert (i' = i).
  { pose proof (de_input _ _ _ _ _ _ _ _ _ _ _ _ _ EN) as X. rewrite printed_disk, ST in X. congruence. }
  subst i'.
  destruct (de_calm _ _ _ _ _ _ _ _ _ _ _ _ _ EN NF) as (NF1 & PI & PO' & PH).
  destruct (secure_erase_file _ _ _ _ _ _ _ _ SE ST1) as [(_ & _ & X)|(s1 & oe & D & C & ER & ->)]; [contradiction|].
  rewrite (C NF1) in ER. clear s1 D C.
  destruct (erase_holds _ _ _ _ _ ER) as (_ & OKH & _ & CALM & _).
  assert (oe = Ok tt) by (eapply CALM; eauto). subst oe. cbn [omap]. split; [congruence|]. intros _.
  destruct (OKH eq_refl) as (i' & q' & _ & _ & SN & _). split; [exact SN|]. exists raw.
  split.
  { destruct (de_key _ _ _ _ _ _ _ _ _ _ _ _ _ EN) as (c0 & t & CA & CT & CS & Y).
    exists (cp_key p), c0, t. split; [apply PO|]. split; [exact CA|]. split; [exact CT|]. split; [auto|exact Y]. }
  destruct (de_ho _ _ _ _ _ _ _ _ _ _ _ _ _ EN) as [STO POO].
  destruct (de_hi _ _ _ _ _ _ _ _ _ _ _ _ _ EN) as [HII PII].
  assert (NEWO : forall j, j < s_next (disk c) -> stat (disk c) (os_path output) <> Some (NFile j) -> h_ino ho <> j).
  { intros j L Y X. rewrite X in STO. destruct (ow_stat_new _ _ _ _ _ W STO) as [Z|(_ & k & Z & L2)].
    - exact (Y Z).
    - injection Z as <-. lia. }
  assert (HP : forall hp, cp_header p = Some hp -> given g "header" hp).
  { intros hp E. rewrite (po_header _ _ _ _ PO) in E. destruct (g "header"%string) as [|x r] eqn:G; [discriminate|].
    injection E as ->. exists r. exact G. }
  assert (HH : forall h, hh = Some h -> exists hp, given g "header" hp
     /\ stat (disk c) (os_path hp) = Some (NFile (h_ino h)) /\ h_pos h = 0 /\ h_ino ho <> h_ino h
     /\ h_ino h < s_next (disk c)).
  { intros h E. pose proof (de_hh _ _ _ _ _ _ _ _ _ _ _ _ _ EN) as EH.
    destruct (cp_header p) as [hp|] eqn:CH; [|congruence].
    destruct EH as [EH|(h' & E' & PH0 & STH)]; [congruence|]. assert (h' = h) by congruence. subst h'.
    rewrite printed_disk in STH.
    assert (LH : h_ino h < s_next (disk c)).
    { unfold stat in STH. destruct (resolve true (disk c) (os_path hp)); [|discriminate]. exact (IO _ _ STH). }
    exists hp. split; [auto|]. split; [exact STH|]. split; [exact PH0|]. split; [|exact LH].
    apply NEWO; [exact LH|]. eapply SEPH; eauto. }
  pose proof (de_run _ _ _ _ _ _ _ _ _ _ _ _ _ EN) as ER'. unfold decrypt_files in ER'.
  assert (AL : (same_file ho hi || same_opt ho hh)%bool = false).
  { unfold same_file, same_opt. rewrite HII. pose proof (NEWO i NI SEP) as OI. apply Nat.eqb_neq in OI.
    rewrite OI. cbn [orb]. destruct hh as [h|]; [|reflexivity]. destruct (HH h eq_refl) as (_ & _ & _ & _ & B & _).
    apply Nat.eqb_neq. exact B. }
  rewrite AL in ER'. clear AL. unfold map_err, run_world in ER'.
  set (w0 := mkWorld (handle_dev (fst a1) hi) (handle_dev (fst a1) ho) (opt_dev (fst a1) hh) (s_rng (fst a1)) (snd a1)) in *.
  destruct (decrypt_execute (ce_E V) (is_some hh) raw w0) as [ox w1] eqn:EX.
  destruct ox as [[]|x| |]; try discriminate ER'. clear ER'.
  pose proof (de_before _ _ _ _ _ _ _ _ _ _ _ _ _ EN) as WB. rewrite printed_disk in WB.
  pose proof (ow_untouched _ _ _ _ WB NI SEP') as [DIB _].
  apply decrypt_execute_spec in EX; [|exact HE].
  destruct EX as [(e & EQ & _)|(h & aad & d1 & v1 & D1 & _ & _ & _ & _ & _ & _ & ENDED)]; [discriminate|].
  destruct ENDED as (_ & _ & _ & _ & wr & kc & bc & _ & _ & _ & _ & J5 & J6).
  assert (MK : exists mk, unlocks (ce_E V) raw h mk).
  { destruct J6 as [(_ & -> & _)|(mk & Hu & _)]; [destruct (J5 eq_refl); reflexivity|eauto]. }
  destruct MK as [mk MK].
  assert (SRC : exists src, (src = s_data (disk c) i
                  \/ exists hp j, given g "header" hp /\ stat (disk c) (os_path hp) = Some (NFile j)
                                  /\ src = s_data (disk c) j)
     /\ header_source (is_some hh) w0 = mkDev src 0 [] []).
  { destruct hh as [hd|]; cbn [is_some header_source w0 w_hdr w_in opt_dev].
    - destruct (HH hd eq_refl) as (hp & GH & STH & P0 & _ & LH). exists (s_data (disk c) (h_ino hd)). split.
      + right. exists hp, (h_ino hd). auto.
      + unfold handle_dev. rewrite P0, (PH hd eq_refl).
        assert (DH : untouched (disk c) (fst a1) (h_ino hd)).
        { eapply ow_untouched; [exact WB|exact LH|]. intros t [<-|[]]. eapply SEPH; eauto. }
        destruct DH as [-> _]. reflexivity.
    - exists (s_data (disk c) i). split; [auto|]. unfold handle_dev. rewrite PII, PI, HII, DIB. reflexivity. }
  destruct SRC as (src & S1 & S2). rewrite S2 in D1. exists src, h, aad, d1, mk. auto.
Qed.

(** ** The input is not written *)

Lemma input_spared : forall V cmd g c o c' input output i, In cmd [CmdEncrypt; CmdDecrypt] ->
  given g "input" input -> given g "output" output -> inodes_ok (disk c) ->
  stat (disk c) (os_path input) = Some (NFile i) ->
  (forall t, In t (write_targets g output) -> stat (disk c) t <> Some (NFile i)) ->
  run_command V cmd g c = (o, c') ->
  exists s1, untouched (disk c) s1 i /\ stat s1 (os_path input) = Some (NFile i)
    /\ ((o <> Ok tt /\ same_disk s1 (disk c'))
        \/ (erase_stage s1 (os_path input) i (disk c')
            /\ ((o = Ok tt /\ stat (disk c') (os_path input) = None) \/ exists e, o = Err (CErase e)))).
Proof.
  intros V cmd g c o c' input output i IC GI GO IO ST SEP H.
  assert (NI : i < s_next (disk c)).
  { unfold stat in ST. destruct (resolve true (disk c) (os_path input)); [|discriminate]. exact (IO _ _ ST). }
  assert (NE : input <> output).
  { intros ->. apply (SEP (os_path output)); [left; reflexivity|exact ST]. }
  assert (T : exists ts, (forall t, In t ts -> In t (write_targets g output))
     /\ two_stages (disk c) ts (os_path input) o (disk c')).
  { destruct IC as [<-|[<-|[]]].
    - eexists. split; [intros t X; exact X|]. eapply encrypt_stages; eauto.
    - destruct (ce_debug V) eqn:DB.
      + destruct (decrypt_cmd_run V g c _ _ GI GO) as [_ R2]. destruct (R2 DB) as [n R].
        rewrite R in H. injection H as <- <-. exists []. split; [intros t []|].
        exists (disk c). split; [apply ow_refl|]. left. split; [discriminate|apply same_disk_refl].
      + exists [os_path output]. split; [intros t [<-|[]]; left; reflexivity|]. eapply decrypt_stages; eauto. }
  destruct T as (ts & SUB & s1 & W & REST).
  exists s1. split; [eapply ow_untouched; eauto|]. split; [eapply ow_stat_kept; eauto|].
  destruct REST as [X|(i' & ST' & _ & ES & _ & R)]; [left; exact X|right].
  assert (i' = i) by congruence. subst i'. auto.
Qed.
