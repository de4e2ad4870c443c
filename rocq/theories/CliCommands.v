(** From command lines to the subcommands' work. *)
From Coq Require Import List Arith NArith ZArith Ascii String Bool Lia.
From Verif Require Import Bytes Outcome IO Primitives Crypto Header Stream KeyModel EncDec.
From Verif Require Import Overwrite Hash FS Erase Archive Cli.
From Verif Require Import FSSpec FSFacts CliSpec CliKeys CliRuns.
Import ListNotations.
Local Open Scope nat_scope.
Local Open Scope list_scope.

Lemma printed_printed : forall n m c, printed n (printed m c) = printed (m ++ n) c.
Proof. intros. unfold printed. cbn. rewrite app_assoc. reflexivity. Qed.
Lemma printed_nil : forall c, printed [] c = c.
Proof. intros c. unfold printed. rewrite app_nil_r. symmetry. apply cli_eta. Qed.
Lemma printed_disk : forall n c, disk (printed n c) = disk c.
Proof. reflexivity. Qed.

Lemma contains_found : forall V m id a c, find_arg m id = Some a ->
  contains_id V m id c
  = (Ok (match m_given m id with [] => match a_default a with Some _ => true | None => false end
                               | _ => true end), c).
Proof. intros V m id a c H. unfold contains_id. rewrite H. reflexivity. Qed.
Lemma contains_optional : forall V cmd g id c,
  find_arg (mkMatches (args_of cmd) g) id = Some (optional id) ->
  contains_id V (mkMatches (args_of cmd) g) id c = (Ok (match g id with [] => false | _ => true end), c).
Proof. intros V cmd g id c H. rewrite (contains_found _ _ _ _ _ H). reflexivity. Qed.
Lemma contains_unknown : forall V cmd g id c, find_arg (mkMatches (args_of cmd) g) id = None ->
  contains_id V (mkMatches (args_of cmd) g) id c = if ce_debug V then (Panic, c) else (Ok false, c).
Proof. intros V cmd g id c H. unfold contains_id. rewrite H. destruct (ce_debug V); reflexivity. Qed.
Lemma get_one_optional : forall V cmd g id c,
  find_arg (mkMatches (args_of cmd) g) id = Some (optional id) ->
  get_one V (mkMatches (args_of cmd) g) id c = (Ok (hd_error (g id)), c).
Proof. intros V cmd g id c H. unfold get_one. rewrite H. cbn. unfold ret. destruct (g id); reflexivity. Qed.
Lemma bind_ok : forall {S E A B} (m : M S E A) (f : A -> M S E B) s a s',
  m s = (Ok a, s') -> bind m f s = f a s'.
Proof. intros S E A B m f s a s' H. unfold bind. rewrite H. reflexivity. Qed.
Lemma bind_panic : forall {S E A B} (m : M S E A) (f : A -> M S E B) s s',
  m s = (Panic, s') -> bind m f s = (Panic, s').
Proof. intros S E A B m f s s' H. unfold bind. rewrite H. reflexivity. Qed.

Lemma forcemode_run : forall V cmd g c,
  find_arg (mkMatches (args_of cmd) g) "force" = Some (optional "force") ->
  forcemode V (mkMatches (args_of cmd) g) c
  = (Ok (match g "force"%string with [] => Prompt | _ => Force end), c).
Proof.
  intros V cmd g c H. unfold forcemode. erewrite bind_ok by (apply contains_optional; exact H).
  unfold ret. destruct (g "force"%string); reflexivity.
Qed.

Lemma handler_cases : forall V cmd g c, In cmd [CmdEncrypt; CmdDecrypt; CmdUnpack] ->
  let r := parameter_handler V (mkMatches (args_of cmd) g) c in
  (exists p n, params_of V cmd g p /\ r = (Ok p, printed n c)
     /\ (ce_debug V = false \/ cmd = CmdEncrypt))
  \/ (ce_debug V = true /\ cmd <> CmdEncrypt /\ exists n, r = (Panic, printed n c)).
Proof.
  intros V cmd g c I r.
  set (m := mkMatches (args_of cmd) g) in *.
  assert (FH : find_arg m "hash" = Some (optional "hash")) by (destruct I as [<-|[<-|[<-|[]]]]; reflexivity).
  assert (FF : find_arg m "force" = Some (optional "force")) by (destruct I as [<-|[<-|[<-|[]]]]; reflexivity).
  assert (FD : find_arg m "header" = Some (optional "header")) by (destruct I as [<-|[<-|[<-|[]]]]; reflexivity).
  assert (FE : find_arg m "erase" = Some (defaulted "erase" "1" [])) by (destruct I as [<-|[<-|[<-|[]]]]; reflexivity).
  assert (TK : takes_key cmd) by (unfold takes_key; destruct I as [<-|[<-|[<-|[]]]]; cbn; auto).
  unfold parameter_handler in r.
  destruct (key_init_cases V cmd g c TK) as [(k & n & KS & KI & _)|(KS & DB & KI)]; fold m in KI.
  2:{ right. split; [exact DB|]. split.
      - intros ->. inversion KS. destruct H1 as [X|[X|[]]]; discriminate.
      - exists []. unfold r. rewrite printed_nil. apply bind_panic. exact KI. }
  fold (printed n c) in KI.
  assert (ERA : exists n2, forall c0,
     (e <- contains_id V m "erase" ;;
      (if e : bool then
              v <- get_one V m "erase" ;; s <- lift_opt CMissing v ;;
              match parse_i32 s with
              | Some n => ret (Some n)
              | None => say NWarn ;; ret (Some 1%Z)
              end
            else ret None)) c0 = (Ok (Some (passes_of (g "erase"%string))), printed n2 c0)).
  { unfold contains_id, get_one. rewrite FE. cbn [m_given m a_default defaulted].
    unfold bind, ret, lift_opt. destruct (g "erase"%string) as [|v vs] eqn:GE.
    - exists []. intros c0. rewrite printed_nil. reflexivity.
    - cbn [passes_of]. unfold ret, say. destruct (parse_i32 v) as [z|] eqn:PV.
      + exists []. intros c0. rewrite printed_nil. reflexivity.
      + exists [NWarn]. intros c0. reflexivity. }
  destruct ERA as (n2 & ERA).
  assert (STEP : r = bind (hashing_algorithm_of V m)
     (fun ha => ret (mkCryptoParams (match g "hash"%string with [] => false | _ => true end)
                 (match g "force"%string with [] => Prompt | _ => Force end)
                 (Some (passes_of (g "erase"%string))) k (hd_error (g "header"%string)) ha))
     (printed n2 (printed n c))).
  { unfold r. rewrite (bind_ok _ _ _ _ _ KI).
    erewrite bind_ok by (apply contains_optional; exact FH).
    erewrite bind_ok by (apply forcemode_run; exact FF).
    rewrite <- bind_assoc. erewrite bind_ok by (apply ERA).
    erewrite bind_ok by (apply get_one_optional; exact FD). reflexivity. }
  rewrite printed_printed in STEP.
  destruct (match cmd with CmdEncrypt => true | _ => false end) eqn:IE.
  - assert (cmd = CmdEncrypt) by (destruct cmd; congruence). subst cmd.
    left. eexists. exists (n ++ n2). split; [|split; [|right; reflexivity]].
    2:{ rewrite STEP. unfold hashing_algorithm_of, m. rewrite bind_assoc.
        erewrite bind_ok by (apply contains_optional; reflexivity).
        unfold bind, ret. reflexivity. }
    constructor; cbn [cp_hash cp_force cp_erase cp_key cp_header cp_hashing].
    + exact KS.
    + destruct (g "hash"%string); split; congruence.
    + destruct (g "force"%string); split; congruence.
    + reflexivity.
    + reflexivity.
    + destruct (g "argon"%string); reflexivity.
  - assert (FA : find_arg m "argon" = None) by (destruct I as [<-|[<-|[<-|[]]]]; [discriminate IE|reflexivity|reflexivity]).
    unfold hashing_algorithm_of in STEP. rewrite bind_assoc in STEP.
    destruct (ce_debug V) eqn:DB.
    + right. split; [reflexivity|]. split; [intros ->; discriminate|].
      exists (n ++ n2). rewrite STEP. apply bind_panic.
      unfold m. rewrite contains_unknown by exact FA. rewrite DB. reflexivity.
    + left. eexists. exists (n ++ n2). split; [|split; [|left; reflexivity]].
      2:{ rewrite STEP. erewrite bind_ok by (unfold m; rewrite contains_unknown by exact FA; rewrite DB; reflexivity).
          unfold bind, ret. reflexivity. }
      constructor; cbn [cp_hash cp_force cp_erase cp_key cp_header cp_hashing].
      * exact KS.
      * destruct (g "hash"%string); split; congruence.
      * destruct (g "force"%string); split; congruence.
      * destruct I as [<-|[<-|[<-|[]]]]; reflexivity.
      * reflexivity.
      * destruct I as [<-|[<-|[<-|[]]]]; [discriminate IE|reflexivity|reflexivity].
Qed.

Lemma pack_handler_cases : forall V g c, exists p pp n,
  pack_params_of V (mkMatches (args_of CmdPack) g) c = (Ok (p, pp), printed n c)
  /\ params_of V CmdPack g p /\ (pp_erase pp = true <-> g "erase"%string <> [])
  /\ pp_compression pp = match g "zstd"%string with [] => Stored | _ => Zstd end.
Proof.
  intros V g c. unfold pack_params_of.
  assert (TK : takes_key CmdPack) by (unfold takes_key; cbn; auto).
  destruct (key_init_cases V CmdPack g c TK) as [(k & n & KS & KI & _)|(KS & DB & KI)].
  2:{ inversion KS. destruct H1 as [X|[X|[]]]; discriminate. }
  fold (printed n c) in KI.
  eexists. eexists. exists n. split; [|split; [|split]].
  { rewrite (bind_ok _ _ _ _ _ KI).
    erewrite bind_ok by (apply contains_optional; reflexivity).
    erewrite bind_ok by (apply forcemode_run; reflexivity).
    erewrite bind_ok by (apply get_one_optional; reflexivity).
    unfold hashing_algorithm_of. rewrite bind_assoc.
    erewrite bind_ok by (apply contains_optional; reflexivity).
    erewrite bind_ok by reflexivity.
    do 4 (erewrite bind_ok by (apply contains_optional; reflexivity)).
    unfold ret. reflexivity. }
  - constructor; cbn [cp_hash cp_force cp_erase cp_key cp_header cp_hashing].
    + exact KS.
    + destruct (g "hash"%string); split; congruence.
    + destruct (g "force"%string); split; congruence.
    + reflexivity.
    + reflexivity.
    + destruct (g "argon"%string); reflexivity.
  - cbn. destruct (g "erase"%string); split; congruence.
  - cbn. destruct (g "zstd"%string); reflexivity.
Qed.

Lemma get_param_run : forall V cmd g id v c, find_arg (mkMatches (args_of cmd) g) id = Some (required id) ->
  given g id v -> get_param V id (mkMatches (args_of cmd) g) c = (Ok v, c).
Proof.
  intros V cmd g id v c F [r G]. unfold get_param, bind, get_one. rewrite F. cbn. rewrite G. reflexivity.
Qed.

Lemma encrypt_cmd_run : forall V g c input output,
  given g "input" input -> given g "output" output ->
  exists p n, params_of V CmdEncrypt g p
    /\ run_command V CmdEncrypt g c
       = encrypt_stream V input output p (algorithm_asked g) (printed n c).
Proof.
  intros V g c input output GI GO. cbn [run_command]. unfold encrypt_cmd.
  destruct (handler_cases V CmdEncrypt g c) as [(p & n & PO & R & _)|(_ & NE & _)];
    [left; reflexivity| |congruence].
  exists p, n. split; [exact PO|]. rewrite (bind_ok _ _ _ _ _ R).
  unfold algorithm_of. rewrite bind_assoc. erewrite bind_ok by (apply contains_optional; reflexivity).
  erewrite bind_ok by reflexivity.
  erewrite bind_ok by (apply (get_param_run V CmdEncrypt g "input" input); [reflexivity|exact GI]).
  erewrite bind_ok by (apply (get_param_run V CmdEncrypt g "output" output); [reflexivity|exact GO]).
  unfold algorithm_asked. destruct (g "aes"%string); reflexivity.
Qed.

Lemma decrypt_cmd_run : forall V g c input output,
  given g "input" input -> given g "output" output ->
  (ce_debug V = false -> exists p n, params_of V CmdDecrypt g p
    /\ run_command V CmdDecrypt g c = decrypt_stream V input output p (printed n c))
  /\ (ce_debug V = true -> exists n, run_command V CmdDecrypt g c = (Panic, printed n c)).
Proof.
  intros V g c input output GI GO. cbn [run_command]. unfold decrypt_cmd.
  destruct (handler_cases V CmdDecrypt g c) as [(p & n & PO & R & D)|(D & NE & n & R)];
    [right; left; reflexivity| |].
  - split; [intros _|intros X; destruct D; congruence].
    exists p, n. split; [exact PO|]. rewrite (bind_ok _ _ _ _ _ R).
    erewrite bind_ok by (apply (get_param_run V CmdDecrypt g "input" input); [reflexivity|exact GI]).
    erewrite bind_ok by (apply (get_param_run V CmdDecrypt g "output" output); [reflexivity|exact GO]).
    reflexivity.
  - split; [congruence|intros _]. exists n. apply bind_panic. exact R.
Qed.

Lemma pack_cmd_run : forall V g c inputs output,
  inputs <> [] -> g "input"%string = inputs -> given g "output" output ->
  exists p pp n, params_of V CmdPack g p
    /\ (pp_erase pp = true <-> g "erase"%string <> [])
    /\ pp_compression pp = match g "zstd"%string with [] => Stored | _ => Zstd end
    /\ run_command V CmdPack g c
       = pack_cli V inputs output p pp (algorithm_asked g) (printed n c).
Proof.
  intros V g c inputs output NE GI GO. cbn [run_command]. unfold pack_cmd.
  destruct (pack_handler_cases V g c) as (p & pp & n & R & PO & PE & PC).
  exists p, pp, n. do 3 (split; [assumption|]). rewrite (bind_ok _ _ _ _ _ R).
  unfold algorithm_of. rewrite bind_assoc. erewrite bind_ok by (apply contains_optional; reflexivity).
  erewrite bind_ok by reflexivity.
  erewrite bind_ok.
  2:{ unfold get_params, bind, get_many. cbn. rewrite GI. destruct inputs as [|x r]; [congruence|]. reflexivity. }
  erewrite bind_ok by (apply (get_param_run V CmdPack g "output" output); [reflexivity|exact GO]).
  unfold algorithm_asked. destruct inputs; [congruence|]. destruct (g "aes"%string); reflexivity.
Qed.

Lemma unpack_cmd_run : forall V g c, exists n, run_command V CmdUnpack g c = (Panic, printed n c).
Proof.
  intros V g c. cbn [run_command]. unfold unpack_cmd.
  destruct (handler_cases V CmdUnpack g c) as [(p & n & PO & R & D)|(D & NE & n & R)];
    [right; right; left; reflexivity| |].
  - exists n. rewrite (bind_ok _ _ _ _ _ R). reflexivity.
  - exists n. apply bind_panic. exact R.
Qed.

Lemma erase_cmd_run : forall V g c input, given g "input" input ->
  exists n, run_command V CmdErase g c
    = secure_erase V input (passes_of (g "passes"%string))
                   (match g "force"%string with [] => Prompt | _ => Force end) (printed n c).
Proof.
  intros V g c input GI. cbn [run_command]. unfold erase_cmd, erase_params.
  set (m := mkMatches (args_of CmdErase) g).
  assert (PA : exists n, (p <- contains_id V m "passes" ;;
     (if p : bool then
               v <- get_one V m "passes" ;; s <- lift_opt CMissing v ;;
               match parse_i32 s with
               | Some n => ret n
               | None => say NWarn ;; ret 1%Z
               end
             else say NWarn ;; ret 1%Z)) c = (Ok (passes_of (g "passes"%string)), printed n c)).
  { unfold contains_id, get_one. cbn [find_arg find m m_args args_of a_id required optional defaulted String.eqb
       Ascii.eqb Bool.eqb m_given a_default]. unfold bind, ret, lift_opt.
    destruct (g "passes"%string) as [|v vs].
    - exists []. rewrite printed_nil. reflexivity.
    - cbn [passes_of]. unfold ret, say. destruct (parse_i32 v) as [z|].
      + exists []. rewrite printed_nil. reflexivity.
      + exists [NWarn]. reflexivity. }
  destruct PA as [n PA]. exists n. rewrite bind_assoc.
  transitivity (bind (bind (contains_id V m "passes") (fun p : bool => if p then
               v <- get_one V m "passes" ;; s <- lift_opt CMissing v ;;
               match parse_i32 s with
               | Some n => ret n
               | None => say NWarn ;; ret 1%Z
               end
             else say NWarn ;; ret 1%Z))
       (fun passes => bind (bind (forcemode V m) (fun force => ret (passes, force)))
          (fun pf => bind (get_param V "input" m) (fun input => secure_erase V input (fst pf) (snd pf)))) c).
  { rewrite bind_assoc. apply bind_congr. intros x s'. rewrite bind_assoc. reflexivity. }
  rewrite (bind_ok _ _ _ _ _ PA). rewrite bind_assoc.
  erewrite bind_ok by (apply forcemode_run; reflexivity).
  erewrite bind_ok by reflexivity.
  erewrite bind_ok by (apply (get_param_run V CmdErase g "input" input); [reflexivity|exact GI]).
  reflexivity.
Qed.

Lemma hash_cmd_run : forall V g c, g "input"%string <> [] ->
  run_command V CmdHash g c = hash_files V (g "input"%string) c.
Proof.
  intros V g c NE. cbn [run_command]. unfold hash_cmd, bind, get_many. cbn.
  destruct (g "input"%string); [congruence|reflexivity].
Qed.
