(** Lemmas in the form in which PropertiesCli states them. *)
From Coq Require Import List Arith NArith ZArith Ascii String Bool Lia.
From Verif Require Import Bytes Outcome IO Primitives Crypto Header Stream KeyModel EncDec.
From Verif Require Import Overwrite Hash FS Erase Archive Cli.
From Verif Require Import FileSpec FSSpec FSFacts ArchiveSpec.
From Verif Require Import CliSpec CliKeys CliRuns CliCommands CliProofs CliPack CliSafety.
Import ListNotations.
Local Open Scope nat_scope.
Local Open Scope list_scope.

Lemma secrets_hold : forall V k st c o c', get_secret V k st c = (o, c') ->
  o <> Diverge
  /\ (forall l, o = Ok l -> l <> [] /\ yields V c k st l (c_tty c')
       /\ (k = User -> st = Validate -> exists before rest,
             c_tty c = before ++ Some l :: Some l :: rest /\ rejected before))
  /\ (no_faults (disk c) -> forall l t, yields V c k st l t -> o = Ok l /\ c_tty c' = t).
Proof.
  intros V k st c o c' H. destruct (get_secret_any _ _ _ _ _ _ H) as (_ & _ & _ & ND & _ & OKS & _).
  split; [exact ND|]. split.
  - intros l E. pose proof (OKS l E) as Y. split; [eapply yields_nonempty; eauto|]. split; [exact Y|].
    intros -> ->. inversion Y; subst. eauto.
  - intros NF l t Y. destruct (get_secret_ok _ _ _ _ _ _ NF Y) as (c2 & R & T).
    rewrite R in H. injection H as <- <-. auto.
Qed.

Lemma precedence_holds : forall V cmd g c, In cmd [CmdEncrypt; CmdDecrypt; CmdPack; CmdUnpack] ->
  let r := key_init V (mkMatches (args_of cmd) g) key_params_default "keyfile" c in
  exists k, key_source V cmd g k /\ (forall k', key_source V cmd g k' -> k' = k)
    /\ c_a (snd r) = c_a c /\ c_stdin (snd r) = c_stdin c /\ c_tty (snd r) = c_tty c
    /\ (fst r = Ok k \/ (fst r = Panic /\ k = User /\ ce_debug V = true))
    /\ (In cmd [CmdEncrypt; CmdPack] -> k <> User).
Proof.
  intros V cmd g c TK r.
  assert (NU : forall k, key_source V cmd g k -> In cmd [CmdEncrypt; CmdPack] -> k <> User).
  { intros k KS IC ->. inversion KS as [| | | | |_ _ ID]; subst.
    destruct IC as [<-|[<-|[]]]; destruct ID as [X|[X|[]]]; discriminate. }
  destruct (key_init_cases V cmd g c TK) as [(k & n & KS & R & _)|(KS & DB & R)]; subst r; rewrite R; cbn [fst snd].
  - exists k. split; [exact KS|]. split; [intros k' K'; eapply key_source_unique; eauto|].
    do 3 (split; [reflexivity|]). split; [left; reflexivity|]. intros IC. exact (NU k KS IC).
  - exists User. split; [exact KS|]. split; [intros k' K'; eapply key_source_unique; eauto|].
    do 3 (split; [reflexivity|]). split; [right; auto|]. intros IC. exact (NU _ KS IC).
Qed.

Lemma same_text : forall V cmd g c o c' input, In cmd [CmdEncrypt; CmdDecrypt] ->
  given g "input" input -> given g "output" input -> run_command V cmd g c = (o, c') ->
  o <> Ok tt /\ c_a c' = c_a c.
Proof.
  intros V cmd g c o c' input IC GI GO H.
  destruct (same_name_run V cmd g c o c' input IC GI GO H) as (A & [->|(-> & _)]); split; auto; discriminate.
Qed.

Lemma refused_same : forall V cmd g c o c' input, In cmd [CmdEncrypt; CmdDecrypt] ->
  given g "input" input -> given g "output" input ->
  (cmd = CmdDecrypt -> ce_debug V = false) -> run_command V cmd g c = (o, c') ->
  o = Err CSameName /\ c_a c' = c_a c /\ c_stdin c' = c_stdin c /\ c_tty c' = c_tty c.
Proof.
  intros V cmd g c o c' input [<-|[<-|[]]] GI GO DB H.
  - destruct (encrypt_cmd_run V g c _ _ GI GO) as (p & n & _ & R). rewrite R in H.
    unfold encrypt_stream in H. rewrite String.eqb_refl in H. injection H as <- <-. auto.
  - destruct (decrypt_cmd_run V g c _ _ GI GO) as [R1 _].
    destruct (R1 (DB eq_refl)) as (p & n & _ & R). rewrite R in H.
    unfold decrypt_stream in H. rewrite String.eqb_refl in H. injection H as <- <-. auto.
Qed.

Lemma refused_pack : forall V g c o c' output, given g "output" output -> g "input"%string <> [] ->
  run_command V CmdPack g c = (o, c') ->
  (In output (g "input"%string) -> o = Err CSameName
     /\ c_a c' = c_a c /\ c_stdin c' = c_stdin c /\ c_tty c' = c_tty c)
  /\ (~ In output (g "input"%string) ->
      (exists f i, In f (g "input"%string) /\ stat (disk c) (os_path f) = Some (NFile i)) ->
      o = Err CInputIsFile /\ c_a c' = c_a c /\ c_stdin c' = c_stdin c /\ c_tty c' = c_tty c).
Proof.
  intros V g c o c' output GO NE H.
  destruct (pack_cmd_run V g c _ _ NE eq_refl GO) as (p & pp & n & _ & _ & _ & R). rewrite R in H.
  unfold pack_cli in H. split.
  - intros IN. assert (N1 : existsb (fun f => String.eqb f output) (g "input"%string) = true)
      by (apply existsb_exists; exists output; split; [exact IN|apply String.eqb_refl]).
    rewrite N1 in H. injection H as <- <-. auto.
  - intros NI (f & i & IN & ST).
    destruct (existsb (fun f => String.eqb f output) (g "input"%string)) eqn:N1.
    { apply existsb_exists in N1 as (x & IX & EX). apply String.eqb_eq in EX. subst x. contradiction. }
    unfold bind at 1 in H. fold (disk (printed n c)) in H. rewrite printed_disk in H.
    assert (N2 : existsb (fun f => is_file (disk c) (os_path f)) (g "input"%string) = true).
    { apply existsb_exists. exists f. split; [exact IN|]. unfold is_file. rewrite ST. reflexivity. }
    rewrite N2 in H. injection H as <- <-. auto.
Qed.

Lemma answers_hold : forall prompt d force c ls, lines (c_stdin c) ls ->
  match force with
  | Force => get_answer prompt d force c = (Ok true, c)
  | Prompt => exists o n r c' ns, dialogue d ls o n r
      /\ get_answer prompt d force c
         = (match o with Some b => Ok b | None => Err CAnswer end, c')
      /\ lines (c_stdin c') r /\ c_a c' = c_a c /\ c_tty c' = c_tty c
      /\ c_out c' = c_out c ++ ns /\ count_asked ns = n
      /\ Forall (fun x => x = NAsk prompt \/ x = NWarn) ns
  end.
Proof. exact get_answer_holds. Qed.

Lemma decrypt_never_panics : forall E bs detached pw v, env_ok E ->
  fst (decrypt_execute_bs E bs detached pw v) <> Panic
  /\ fst (decrypt_execute_bs E bs detached pw v) <> Diverge.
Proof.
  intros E bs detached pw v HE. destruct (decrypt_execute_bs E bs detached pw v) as [o v'] eqn:H.
  exact (decrypt_no_panic _ _ _ _ _ _ _ HE H).
Qed.

Lemma unpack_useless : forall V g c, exists c', run_command V CmdUnpack g c = (Panic, c')
  /\ c_a c' = c_a c /\ c_stdin c' = c_stdin c /\ c_tty c' = c_tty c.
Proof. intros V g c. destruct (unpack_cmd_run V g c) as [n R]. exists (printed n c). rewrite R. auto. Qed.

Lemma debug_decrypt_useless : forall V g c input output, ce_debug V = true ->
  given g "input" input -> given g "output" output ->
  exists c', run_command V CmdDecrypt g c = (Panic, c') /\ c_a c' = c_a c.
Proof.
  intros V g c input output DB GI GO. destruct (decrypt_cmd_run V g c _ _ GI GO) as [_ R].
  destruct (R DB) as [n E]. exists (printed n c). auto.
Qed.

Lemma decrypt_writes_output : forall V g c o c' input output, ce_debug V = false ->
  given g "input" input -> given g "output" output ->
  run_command V CmdDecrypt g c = (o, c') ->
  two_stages (disk c) [os_path output] (os_path input) o (disk c').
Proof.
  intros V g c o c' input output DB GI GO H.
  destruct (string_dec input output) as [->|NE].
  - assert (IC : In CmdDecrypt [CmdEncrypt; CmdDecrypt]) by (right; left; reflexivity).
    destruct (same_text V _ g c o c' output IC GI GO H) as [A B].
    exists (disk c). split; [apply ow_refl|]. left. split; [exact A|].
    unfold disk at 2. rewrite B. apply same_disk_refl.
  - eapply decrypt_stages; eauto.
Qed.

Lemma stdin_key : forall V g c c' input output i,
  env_ok (ce_E V) -> no_faults (disk c) -> inodes_ok (disk c) ->
  given g "input" input -> given g "output" output -> given g "keyfile" "-" ->
  stat (disk c) (os_path input) = Some (NFile i) ->
  (forall t, In t (write_targets g output) -> stat (disk c) t <> Some (NFile i)) ->
  (forall h, given g "header" h -> different (disk c) (os_path output) (os_path h)) ->
  exists_path (disk c) (os_path output) = false ->
  run_command V CmdEncrypt g c = (Ok tt, c') ->
  kept_encrypted V g output (disk c) (disk c') (c_stdin c) (s_data (disk c) i).
Proof.
  intros V g c c' input output i HE NF IO GI GO GK ST SEP DIF NX H.
  destruct (encrypt_keeps V g c _ c' input output i HE NF IO GI GO ST SEP DIF H) as [_ K].
  destruct (K eq_refl) as (_ & raw & (k & c0 & t & KS & _ & _ & CS & Y) & KE).
  assert (k = Keyfile "-") by (eapply key_source_unique; [exact KS|constructor; exact GK]). subst k.
  rewrite <- (CS NX). inversion Y as [st NE E1 E2 E3| st p j NP STJ| | | |]; subst; [exact KE|contradiction].
Qed.
