(** Proofs: other programs. *)
From Coq Require Import List Arith NArith ZArith Ascii String Bool Lia.
From Verif Require Import Bytes Outcome IO Primitives Crypto Header Stream KeyModel EncDec.
From Verif Require Import Overwrite Hash FS Erase Archive Cli.
From Verif Require Import BytesFacts HeaderSpec HeaderFacts IOSpec IOFacts FileFacts FileProofs.
From Verif Require Import FSSpec FSFacts ArchiveSpec EraseProofs UnpackProofs PackProofs RestorePack RestoreProofs.
From Verif Require Import CliSpec CliKeys CliRuns CliCommands CliProofs CliPack CliSafety SharedCalls Races RacesSpec.
Import ListNotations.
Local Open Scope nat_scope.
Local Open Scope list_scope.

(** ** Alone *)

Lemma meanwhile_idle : forall f, (forall s, f s = s) -> forall c, meanwhile f c = (Ok tt, c).
Proof. intros f I c. unfold meanwhile. rewrite I. destruct c as [[s tr] i t o]. reflexivity. Qed.
Lemma skip_idle : forall {B} f (k : unit -> M cli cli_error B) c, (forall s, f s = s) ->
  bind (meanwhile f) k c = k tt c.
Proof. intros B f k c I. apply bind_ok. apply meanwhile_idle, I. Qed.

Lemma encrypt_part_idle : forall O V input output p a c, (forall s, o_asking O s = s) -> input <> output ->
  encrypt_part O V input output p a c = encrypt_main V input output p a c.
Proof.
  intros O V input output p a c I NE. unfold encrypt_part, encrypt_main. apply String.eqb_neq in NE. rewrite NE.
  do 3 (apply bind_congr; intros). apply skip_idle, I.
Qed.
Lemma decrypt_part_idle : forall O V input output p c, (forall s, o_asking O s = s) -> input <> output ->
  decrypt_part O V input output p c = decrypt_main V input output p c.
Proof.
  intros O V input output p c I NE. unfold decrypt_part, decrypt_main. apply String.eqb_neq in NE. rewrite NE.
  do 4 (apply bind_congr; intros). apply skip_idle, I.
Qed.

Lemma run_alone : forall O V cmd given c, alone O -> run_command_o O V cmd given c = run_command V cmd given c.
Proof.
  intros O V cmd given c [I1 I2]. destruct cmd; try reflexivity; cbn [run_command_o run_command].
  - unfold encrypt_cmd. do 4 (apply bind_congr; intros). unfold encrypt_stream_o.
    destruct (string_dec x1 x2) as [->|NE].
    { unfold encrypt_part, encrypt_stream. rewrite String.eqb_refl. reflexivity. }
    rewrite encrypt_stream_eq by exact NE.
    transitivity (bind (encrypt_main V x1 x2 x x0) (fun _ => erase_part O V x1 x) s'2).
    { apply first_congr. apply encrypt_part_idle; assumption. }
    apply bind_congr. intros u d. unfold erase_part, finish. apply skip_idle, I2.
  - unfold decrypt_cmd. do 3 (apply bind_congr; intros). unfold decrypt_stream_o.
    destruct (string_dec x0 x1) as [->|NE].
    { unfold decrypt_part, decrypt_stream. rewrite String.eqb_refl. reflexivity. }
    rewrite decrypt_stream_eq by exact NE.
    transitivity (bind (decrypt_main V x0 x1 x) (fun _ => erase_part O V x0 x) s'1).
    { apply first_congr. apply decrypt_part_idle; assumption. }
    apply bind_congr. intros u d. unfold erase_part, finish. apply skip_idle, I2.
  - unfold pack_cmd. do 4 (apply bind_congr; intros). unfold pack_cli_o, pack_cli.
    destruct (existsb (fun f => String.eqb f x2) x1); [reflexivity|].
    do 4 (apply bind_congr; intros). rewrite skip_idle by exact I1.
    do 8 (apply bind_congr; intros). apply skip_idle, I2.
Qed.

(** ** Asking *)

Lemma encrypt_o_run : forall O V g c input output,
  given g "input" input -> given g "output" output ->
  exists p n, params_of V CmdEncrypt g p
    /\ run_command_o O V CmdEncrypt g c
       = encrypt_stream_o O V input output p (algorithm_asked g) (printed n c)
    /\ encrypt_so_far O V g c = encrypt_part O V input output p (algorithm_asked g) (printed n c).
Proof.
  intros O V g c input output GI GO. cbn [run_command_o]. unfold encrypt_so_far. cbn zeta.
  destruct (handler_cases V CmdEncrypt g c) as [(p & n & PO & R & _)|(_ & NE & _)];
    [left; reflexivity| |congruence].
  exists p, n. split; [exact PO|]. rewrite !(bind_ok _ _ _ _ _ R).
  unfold algorithm_of. split; rewrite bind_assoc; erewrite bind_ok by (apply contains_optional; reflexivity);
  (erewrite bind_ok by reflexivity);
  (erewrite bind_ok by (apply (get_param_run V CmdEncrypt g "input" input); [reflexivity|exact GI]));
  (erewrite bind_ok by (apply (get_param_run V CmdEncrypt g "output" output); [reflexivity|exact GO]));
  unfold algorithm_asked; destruct (g "aes"%string); reflexivity.
Qed.
Lemma decrypt_o_run : forall O V g c input output,
  given g "input" input -> given g "output" output ->
  (exists p n, params_of V CmdDecrypt g p
    /\ run_command_o O V CmdDecrypt g c = decrypt_stream_o O V input output p (printed n c)
    /\ decrypt_so_far O V g c = decrypt_part O V input output p (printed n c))
  \/ (exists n, run_command_o O V CmdDecrypt g c = (Panic, printed n c)).
Proof.
  intros O V g c input output GI GO. cbn [run_command_o]. unfold decrypt_so_far. cbn zeta.
  destruct (handler_cases V CmdDecrypt g c) as [(p & n & PO & R & D)|(D & NE & n & R)];
    [right; left; reflexivity| |].
  - left. exists p, n. split; [exact PO|]. rewrite !(bind_ok _ _ _ _ _ R).
    split; (erewrite bind_ok by (apply (get_param_run V CmdDecrypt g "input" input); [reflexivity|exact GI]));
    (erewrite bind_ok by (apply (get_param_run V CmdDecrypt g "output" output); [reflexivity|exact GO]));
    reflexivity.
  - right. exists n. apply bind_panic. exact R.
Qed.
Lemma pack_o_run : forall O V g c output, g "input"%string <> [] -> given g "output" output ->
  exists p pp n, params_of V CmdPack g p
    /\ run_command_o O V CmdPack g c = pack_cli_o O V (g "input"%string) output p pp (algorithm_asked g) (printed n c).
Proof.
  intros O V g c output NE GO. cbn [run_command_o].
  destruct (pack_handler_cases V g c) as (p & pp & n & PR & PO & _). exists p, pp, n. split; [exact PO|].
  rewrite !(bind_ok _ _ _ _ _ PR). cbn [fst snd].
  assert (AL : algorithm_of V (mkMatches (args_of CmdPack) g) (printed n c) = (Ok (algorithm_asked g), printed n c)).
  { unfold algorithm_of. erewrite bind_ok by (apply contains_optional; reflexivity). unfold algorithm_asked.
    destruct (g "aes"%string); reflexivity. }
  rewrite !(bind_ok _ _ _ _ _ AL).
  assert (IN : get_params V "input" (mkMatches (args_of CmdPack) g) (printed n c) = (Ok (g "input"%string), printed n c)).
  { unfold get_params, bind, get_many.
    change (find_arg (mkMatches (args_of CmdPack) g) "input") with (Some (mkArg "input" None true true [])).
    cbn. destruct (g "input"%string) as [|x l]; [congruence|]. reflexivity. }
  rewrite !(bind_ok _ _ _ _ _ IN).
  erewrite bind_ok by (apply (get_param_run V CmdPack g "output" output); [reflexivity|exact GO]). reflexivity.
Qed.

Lemma declined_o : forall O V cmd g c o c' output ls,
  In cmd [CmdEncrypt; CmdDecrypt; CmdPack] ->
  g "input"%string <> [] -> given g "output" output -> not_given g "force" ->
  exists_path (disk c) (os_path output) = true ->
  lines (c_stdin c) ls -> (forall n r, ~ dialogue true ls (Some true) n r) ->
  run_command_o O V cmd g c = (o, c') ->
  o <> Ok tt /\ c_a c' = c_a c.
Proof.
  intros O V cmd g c o c' output ls IC GI GO NFO X L NA H.
  assert (GI' : exists input, given g "input" input).
  { destruct (g "input"%string) as [|input r] eqn:GIN; [contradiction|]. exists input, r. exact GIN. }
  destruct GI' as [input GI'].
  assert (CK : forall n p cmd' o1 c1, params_of V cmd' g p ->
     check_or_exit output (cp_force p) (printed n c) = (o1, c1) ->
     c_a c1 = c_a c /\ (o1 = Err CExit \/ o1 = Err CAnswer)).
  { intros n p cmd' o1 c1 PO CE. rewrite (prompt_of _ _ _ _ PO NFO) in CE.
    eapply check_not_agreed in CE; eauto. }
  destruct IC as [<-|[<-|[<-|[]]]].
  - destruct (encrypt_o_run O V g c _ _ GI' GO) as (p & n & PO & R & _). rewrite R in H. clear R.
    unfold encrypt_stream_o, encrypt_part in H. unfold bind at 1 in H. destruct (String.eqb input output).
    { injection H as <- <-. split; [discriminate|reflexivity]. }
    unfold bind at 1 in H. destruct (check_or_exit output (cp_force p) (printed n c)) as [o1 c1] eqn:CE.
    destruct (CK _ _ _ _ _ PO CE) as [CA [->| ->]]; injection H as <- <-; split; auto; discriminate.
  - destruct (decrypt_o_run O V g c _ _ GI' GO) as [(p & n & PO & R & _)|(n & R)]; rewrite R in H; clear R.
    2: { injection H as <- <-. split; [discriminate|reflexivity]. }
    unfold decrypt_stream_o, decrypt_part in H. unfold bind at 1 in H. destruct (String.eqb input output).
    { injection H as <- <-. split; [discriminate|reflexivity]. }
    unfold bind at 1 in H. destruct (check_or_exit output (cp_force p) (printed n c)) as [o1 c1] eqn:CE.
    destruct (CK _ _ _ _ _ PO CE) as [CA [->| ->]]; injection H as <- <-; split; auto; discriminate.
  - destruct (pack_o_run O V g c output GI GO) as (p & pp & n & PO & R).
    rewrite R in H. clear R. unfold pack_cli_o in H.
    destruct (existsb (fun f => String.eqb f output) (g "input"%string)).
    { injection H as <- <-. split; [discriminate|reflexivity]. }
    unfold bind at 1 in H.
    destruct (existsb (fun f => is_file (fst (c_a (printed n c))) (os_path f)) (g "input"%string)).
    { injection H as <- <-. split; [discriminate|reflexivity]. }
    unfold bind at 1 in H. destruct (check_or_exit output (cp_force p) (printed n c)) as [o1 c1] eqn:CE.
    destruct (CK _ _ _ _ _ PO CE) as [CA [->| ->]]; injection H as <- <-; split; auto; discriminate.
Qed.

(** ** What is erased *)

Lemma erase_part_ok : forall O V input passes p c1 c', cp_erase p = Some passes ->
  erase_part O V input p c1 = (Ok tt, c') ->
  forall j, stat (o_erasing O (disk c1)) (os_path input) = Some (NFile j) ->
  exists q, resolve false (o_erasing O (disk c1)) (os_path input) = Some q
    /\ at_place (disk c') q = None
    /\ forall r, r <> q -> lookup (s_nodes (o_erasing O (disk c1))) r <> Some (NFile j) ->
          at_place (disk c') r = at_place (o_erasing O (disk c1)) r.
Proof.
  intros O V input passes p c1 c' E H j ST. unfold erase_part in H. rewrite E in H.
  erewrite bind_ok in H by reflexivity.
  match type of H with secure_erase _ _ _ _ ?c = _ => set (c2 := c) in H end.
  change (o_erasing O (disk c1)) with (disk c2) in *.
  destruct (secure_erase_file _ _ _ _ _ _ _ _ H ST) as [(X & _)|(s1 & oe & D & _ & ER & X)]; [discriminate X|].
  destruct oe as [[]|x| |]; try discriminate X.
  destruct (erase_holds _ _ _ _ _ ER) as (_ & OKH & _).
  destruct (OKH eq_refl) as (i' & q' & STI & RQ' & SN & GONE & SAME & _).
  rewrite (stat_disk _ _ _ D) in STI. assert (i' = j) by congruence. subst i'.
  exists q'. rewrite (resolve_disk false _ _ _ D) in RQ'. split; [exact RQ'|]. split; [exact GONE|].
  intros r N LK. destruct D as (D1 & D2 & _). rewrite SAME; [|exact N|rewrite D1; exact LK].
  apply at_place_ext; rewrite ?D1, ?D2; auto.
Qed.

Lemma erase_part_current : forall O V input passes p c1 c', cp_erase p = Some passes ->
  erase_part O V input p c1 = (Ok tt, c') ->
  stat (o_erasing O (disk c1)) (os_path input) = Some NDir
  \/ exists j q, stat (o_erasing O (disk c1)) (os_path input) = Some (NFile j)
       /\ resolve false (o_erasing O (disk c1)) (os_path input) = Some q
       /\ at_place (disk c') q = None
       /\ forall r, r <> q -> lookup (s_nodes (o_erasing O (disk c1))) r <> Some (NFile j) ->
            at_place (disk c') r = at_place (o_erasing O (disk c1)) r.
Proof.
  intros O V input passes p c1 c' PE H.
  assert (X : stat (o_erasing O (disk c1)) (os_path input) = Some NDir
     \/ exists j, stat (o_erasing O (disk c1)) (os_path input) = Some (NFile j)).
  { pose proof H as H'. unfold erase_part in H'. rewrite PE in H'.
    erewrite bind_ok in H' by reflexivity. unfold secure_erase in H'.
    apply bind_inv in H'. destruct H' as [[e [c2 [H1 _]]]|[[e [_ E]]|[[_ E]|[_ E]]]]; [|discriminate E..].
    destruct (storage_inv _ _ _ _ H1) as (r & s1 & RF & E & _).
    destruct (CliRuns.read_file_any _ _ _ _ RF) as (_ & _ & [[-> Y]|[(k & plan & -> & Y & _)|[-> _]]]).
    - left. exact Y.
    - right. exists k. exact Y.
    - discriminate E. }
  destruct X as [X|[j X]]; [left; exact X|right]. exists j.
  destruct (erase_part_ok _ _ _ _ _ _ _ PE H j X) as (q & A & B & C). exists q. auto.
Qed.
Lemma erased_current : forall O V cmd g c c' input output, In cmd [CmdEncrypt; CmdDecrypt] ->
  given g "input" input -> given g "output" output ->
  run_command_o O V cmd g c = (Ok tt, c') ->
  exists c1, ready_to_erase O V cmd g c c1
  /\ (stat (o_erasing O (disk c1)) (os_path input) = Some NDir
      \/ exists j q, stat (o_erasing O (disk c1)) (os_path input) = Some (NFile j)
          /\ resolve false (o_erasing O (disk c1)) (os_path input) = Some q
          /\ at_place (disk c') q = None
          /\ forall r, r <> q -> lookup (s_nodes (o_erasing O (disk c1))) r <> Some (NFile j) ->
               at_place (disk c') r = at_place (o_erasing O (disk c1)) r).
Proof.
  intros O V cmd g c c' input output I GI GO H.
  destruct I as [<-|[<-|[]]]; unfold ready_to_erase.
  - destruct (encrypt_o_run O V g c _ _ GI GO) as (p & n & PO & R & SF). rewrite R in H. clear R.
    unfold encrypt_stream_o in H. unfold bind at 1 in H. rewrite SF. clear SF.
    destruct (encrypt_part O V input output p (algorithm_asked g) (printed n c)) as [o1 c1].
    destruct o1 as [[]|e| |]; try discriminate H.
    exists c1. split; [reflexivity|]. exact (erase_part_current _ _ _ _ _ _ _ (po_erase _ _ _ _ PO) H).
  - destruct (decrypt_o_run O V g c _ _ GI GO) as [(p & n & PO & R & SF)|(n & R)]; rewrite R in H; [|discriminate H].
    clear R. unfold decrypt_stream_o in H. unfold bind at 1 in H. rewrite SF. clear SF.
    destruct (decrypt_part O V input output p (printed n c)) as [o1 c1].
    destruct o1 as [[]|e| |]; try discriminate H.
    exists c1. split; [reflexivity|]. exact (erase_part_current _ _ _ _ _ _ _ (po_erase _ _ _ _ PO) H).
Qed.

(** ** What is kept *)

Record main_made (V : cenv) (g : string -> list string) (output : string) (s1 : sys) (pt raw : bytes)
  (ha : hashing_algorithm) (w w' : world) : Prop := {
  mm_run : encrypt_execute (ce_E V) (mkEncReq (negb (match g "header"%string with [] => true | _ => false end)) raw
             (mkHT V5 (algorithm_asked g) StreamMode) ha) w = (Ok tt, w');
  mm_in : d_data (w_in w) = pt /\ d_plan (w_in w) = [];
  mm_out : d_data (w_out w) = [] /\ d_plan (w_out w) = [];
  mm_place : exists i, stat s1 (os_path output) = Some (NFile i) /\ s_data s1 i = d_data (w_out w');
  mm_header : match g "header"%string with
    | [] => True
    | h :: _ => d_data (w_hdr w) = [] /\ d_plan (w_hdr w) = []
        /\ exists j, stat s1 (os_path h) = Some (NFile j) /\ s_data s1 j = d_data (w_hdr w')
    end
}.

Lemma main_ran : forall V g c c1 input output i p n,
  env_ok (ce_E V) -> no_faults (disk c) -> inodes_ok (disk c) ->
  given g "input" input -> given g "output" output ->
  stat (disk c) (os_path input) = Some (NFile i) ->
  (forall t, In t (write_targets g output) -> stat (disk c) t <> Some (NFile i)) ->
  (forall h, given g "header" h -> different (disk c) (os_path output) (os_path h)) ->
  params_of V CmdEncrypt g p ->
  encrypt_main V input output p (algorithm_asked g) (printed n c) = (Ok tt, c1) ->
  only_writes (disk c) (write_targets g output) (disk c1)
  /\ exists raw w w', key_taken V CmdEncrypt g Validate c output raw
       /\ main_made V g output (disk c1) (s_data (disk c) i) raw (cp_hashing p) w w'.
Proof.
  intros V g c c1 input output i p n HE NF IO GI GO ST SEP DIF PO EM.
  assert (NI : i < s_next (disk c)).
  { unfold stat in ST. destruct (resolve true (disk c) (os_path input)); [|discriminate]. exact (IO _ _ ST). }
  destruct (encrypt_main_any _ _ _ _ _ _ _ _ EM) as (W & _ & OK).
  rewrite (header_targets_of _ _ _ _ _ PO), printed_disk in W. split; [exact W|].
  destruct (OK eq_refl) as (i' & raw & hi & ho & hh & a1 & a2 & EN). clear OK.
  assert (i' = i).
  { pose proof (en_input _ _ _ _ _ _ _ _ _ _ _ _ _ _ EN) as X. rewrite printed_disk, ST in X. congruence. }
  subst i'.
  destruct (en_calm _ _ _ _ _ _ _ _ _ _ _ _ _ _ EN NF) as (NF1 & PI & PO' & PH).
  destruct (en_ho _ _ _ _ _ _ _ _ _ _ _ _ _ _ EN) as [STO POO].
  destruct (en_hi _ _ _ _ _ _ _ _ _ _ _ _ _ _ EN) as [HII PII].
  assert (OI : h_ino ho <> i).
  { intros X. rewrite X in STO. destruct (ow_stat_new _ _ _ _ _ W STO) as [Y|(_ & j & Y & L)].
    - apply (SEP (os_path output)); [left; reflexivity|exact Y].
    - injection Y as <-. lia. }
  assert (HP : forall hp, cp_header p = Some hp -> given g "header" hp).
  { intros hp E. rewrite (po_header _ _ _ _ PO) in E. destruct (g "header"%string) as [|x r] eqn:G; [discriminate|].
    injection E as ->. exists r. exact G. }
  assert (HI : forall h, hh = Some h -> h_ino h <> i /\ h_ino ho <> h_ino h).
  { intros h E. pose proof (en_hh _ _ _ _ _ _ _ _ _ _ _ _ _ _ EN) as EH.
    destruct (cp_header p) as [hp|] eqn:CH; [|congruence]. destruct EH as (h' & E' & STH & _).
    assert (h' = h) by congruence. subst h'. split.
    - intros X. rewrite X in STH. destruct (ow_stat_new _ _ _ _ _ W STH) as [Y|(_ & j & Y & L)].
      + apply (SEP (os_path hp)); [|exact Y]. right. destruct (HP hp eq_refl) as [r G]. rewrite G. left. reflexivity.
      + injection Y as <-. lia.
    - eapply (en_apart _ _ _ _ _ _ _ _ _ _ _ _ _ _ EN); eauto. }
  (* the library's run *)
  pose proof (en_run _ _ _ _ _ _ _ _ _ _ _ _ _ _ EN) as ER'. unfold encrypt_files in ER'.
  assert (AL : (same_file ho hi || same_opt ho hh || same_opt hi hh)%bool = false).
  { unfold same_file, same_opt. rewrite HII. apply Nat.eqb_neq in OI. rewrite OI. cbn [orb].
    destruct hh as [h|]; [|reflexivity]. destruct (HI h eq_refl) as [A B].
    unfold same_file. rewrite HII. apply Nat.eqb_neq in B. rewrite B. cbn [orb]. apply Nat.eqb_neq. auto. }
  rewrite AL in ER'. clear AL. unfold map_err, run_world in ER'.
  set (req := mkEncReq (is_some hh) raw (mkHT V5 (algorithm_asked g) StreamMode) (cp_hashing p)) in *.
  set (w0 := mkWorld (handle_dev (fst a1) hi) (handle_dev (fst a1) ho) (opt_dev (fst a1) hh) (s_rng (fst a1)) (snd a1)) in *.
  destruct (encrypt_execute (ce_E V) req w0) as [ox w1] eqn:EX.
  destruct ox as [[]|x| |]; try discriminate ER'. injection ER' as <-.
  pose proof (en_empty _ _ _ _ _ _ _ _ _ _ _ _ _ _ EN) as EE.
  pose proof (en_before _ _ _ _ _ _ _ _ _ _ _ _ _ _ EN) as WB.
  rewrite (header_targets_of _ _ _ _ _ PO), printed_disk in WB.
  pose proof (ow_untouched _ _ _ _ WB NI SEP) as [DIB _].
  destruct (en_after _ _ _ _ _ _ _ _ _ _ _ _ _ _ EN) as (_ & DA & _). cbn [fst] in DA.
  exists raw, w0, w1. split.
  { destruct (en_key _ _ _ _ _ _ _ _ _ _ _ _ _ _ EN) as (c0 & t & CA & CT & CS & Y).
    exists (cp_key p), c0, t. split; [apply PO|]. split; [exact CA|]. split; [exact CT|]. split; [auto|exact Y]. }
  assert (WIN : d_data (w_in w0) = s_data (disk c) i).
  { cbn [w0 w_in handle_dev d_data]. rewrite HII. exact DIB. }
  pose proof (en_hh _ _ _ _ _ _ _ _ _ _ _ _ _ _ EN) as EH.
  rewrite (po_header _ _ _ _ PO) in EH.
  constructor.
  - destruct (g "header"%string) as [|hp r] eqn:GH; cbn [hd_error] in EH.
    + subst hh. exact EX.
    + destruct EH as (h & -> & _). exact EX.
  - split; [exact WIN|exact PI].
  - split; [exact EE|exact PO'].
  - exists (h_ino ho). split; [exact STO|]. rewrite DA. cbn [with_rng s_data].
    destruct hh as [h|]; cbn [put_opt].
    + destruct (HI h eq_refl) as [HI1 HI2]. unfold put_handle at 1. cbn [with_data s_data].
      rewrite set_data_neq by exact HI2. unfold put_handle at 1. cbn [with_data s_data].
      unfold set_data. rewrite Nat.eqb_refl. reflexivity.
    + unfold put_handle at 1. cbn [with_data s_data]. unfold set_data. rewrite Nat.eqb_refl. reflexivity.
  - destruct (g "header"%string) as [|hp r] eqn:GH; cbn [hd_error] in EH; [exact I|].
    destruct EH as (h & -> & STH & PHH & EHH).
    split; [exact EHH|]. split; [apply PH; reflexivity|].
    exists (h_ino h). split; [exact STH|].
    rewrite DA. cbn [with_rng s_data put_opt]. unfold put_handle at 1. cbn [with_data s_data].
    unfold set_data. rewrite Nat.eqb_refl. reflexivity.
Qed.

Lemma made_kept : forall V g output s s' pt raw ha w0 w1, env_ok (ce_E V) ->
  encrypt_made V g output s s' pt raw ha w0 w1 -> kept_encrypted V g output s s' raw pt.
Proof.
  intros V g output s s' pt raw ha w0 w1 HE [EX (WIN & PI) (EE & PO') (qo & io & RO & PLO) EH].
  exists qo, io, (d_data (w_out w1)). split; [exact RO|]. split; [exact PLO|].
  destruct (g "header"%string) as [|hp r] eqn:GH; cbn [negb] in EX.
  - apply recovers_of. intros w A1 A2 A3 A4 _ A5 A6 A7 A8.
    destruct (encrypted_back (ce_E V) BLOCK_SIZE (mkEncReq false raw (mkHT V5 (algorithm_asked g) StreamMode) ha) w0 w1 HE)
      with (v := w) as (w' & X1 & X2); auto.
    + apply Nat.ltb_lt. reflexivity.
    + unfold rest. rewrite A4, A5. reflexivity.
    + exists w'. split; [exact X1|]. rewrite WIN in X2. exact X2.
  - destruct EH as (EHH & PH & qh & j & RH & PLH).
    exists qh, j, (d_data (w_hdr w1)). split; [exact RH|]. split; [exact PLH|].
    intros AZ. apply recovers_of. intros w A1 A2 A3 A4 _ A5 A6 A7 A8.
    destruct (A6 _ eq_refl) as [P6 D6].
    destruct (encrypted_back_detached (ce_E V) BLOCK_SIZE (mkEncReq true raw (mkHT V5 (algorithm_asked g) StreamMode) ha) w0 w1 HE)
      with (v := w) as (w' & X1 & X2); auto.
    + apply Nat.ltb_lt. reflexivity.
    + destruct (all_zero (firstn 416 (d_data (w_out w1)))) eqn:Z; [|reflexivity].
      apply all_zero_repeat in Z. contradiction.
    + exists w'. split; [exact X1|]. rewrite WIN in X2. exact X2.
Qed.

Lemma kept_anyway : forall O V g c c' input output i,
  env_ok (ce_E V) -> no_faults (disk c) -> inodes_ok (disk c) ->
  given g "input" input -> given g "output" output ->
  stat (disk c) (os_path input) = Some (NFile i) ->
  (forall t, In t (write_targets g output) -> stat (disk c) t <> Some (NFile i)) ->
  (forall h, given g "header" h -> different (disk c) (os_path output) (os_path h)) ->
  (forall s, o_asking O s = s) ->
  (forall c1, encrypt_so_far O V g c = (Ok tt, c1) ->
     lets_be (write_targets g output) (os_path input) (disk c1) (o_erasing O (disk c1))) ->
  run_command_o O V CmdEncrypt g c = (Ok tt, c') ->
  exists raw, key_taken V CmdEncrypt g Validate c output raw
    /\ kept_encrypted V g output (disk c) (disk c') raw (s_data (disk c) i).
Proof.
  intros O V g c c' input output i HE NF IO GI GO ST SEP DIF IA LB H.
  assert (NE : input <> output).
  { intros ->. eapply SEP; [left; reflexivity|exact ST]. }
  destruct (encrypt_o_run O V g c _ _ GI GO) as (p & n & PO & R & SF). rewrite R in H. clear R. rewrite SF in LB. clear SF.
  unfold encrypt_stream_o in H. unfold bind at 1 in H. rewrite encrypt_part_idle in H, LB by assumption.
  destruct (encrypt_main V input output p (algorithm_asked g) (printed n c)) as [o1 c1] eqn:EM.
  destruct o1 as [[]|e| |]; try discriminate H.
  destruct (main_ran V g c c1 input output i p n HE NF IO GI GO ST SEP DIF PO EM) as (W & raw & w0 & w1 & KT & MM).
  exists raw. split; [exact KT|]. apply (made_kept V g output (disk c) (disk c') _ raw (cp_hashing p) w0 w1 HE).
  destruct (LB c1 eq_refl) as ((j & STJ & APART) & KEEP).
  destruct (erase_part_ok _ _ _ _ _ _ _ (po_erase _ _ _ _ PO) H j STJ) as (q' & RQ' & _ & SAME).
  assert (KEPT : forall t, In t (write_targets g output) -> forall k, stat (disk c1) t = Some (NFile k) ->
     exists q, resolve true (disk c) t = Some q /\ at_place (disk c') q = Some (SFile k (s_data (disk c1) k))).
  { intros t IT k STK. destruct (KEEP t IT) as [RS AP].
    unfold stat in STK. destruct (resolve true (disk c1) t) as [q|] eqn:RT; [|discriminate].
    exists q. rewrite <- (ow_resolve true _ _ _ t W). split; [exact RT|].
    specialize (AP q eq_refl).
    assert (A1 : at_place (disk c1) q = Some (SFile k (s_data (disk c1) k))) by (unfold at_place; rewrite STK; reflexivity).
    rewrite A1 in AP.
    assert (LK : lookup (s_nodes (o_erasing O (disk c1))) q = Some (NFile k)).
    { unfold at_place in AP. destruct (lookup (s_nodes (o_erasing O (disk c1))) q) as [[|m|x]|]; try discriminate AP.
      assert (m = k) by congruence. subst m. reflexivity. }
    assert (KJ : k <> j).
    { intros ->. apply (APART t IT). unfold stat. rewrite RS. exact LK. }
    rewrite SAME; [exact AP| |congruence].
    intros ->. apply KJ.
    assert (RT' : resolve true (o_erasing O (disk c1)) (os_path input) = Some q').
    { eapply resolve_same; [exact RQ'|exact LK|discriminate]. }
    unfold stat in STJ. rewrite RT', LK in STJ. congruence. }
  destruct MM as [M1 M2 M3 (io & SO & DO) MH].
  constructor; [exact M1|exact M2|exact M3| |].
  - destruct (KEPT (os_path output) (or_introl eq_refl) _ SO) as (q & RQ & PL). exists q, io. split; [exact RQ|].
    rewrite PL, DO. reflexivity.
  - destruct (g "header"%string) as [|hp r] eqn:GH; [exact I|]. destruct MH as (H1 & H2 & jh & SH & DH).
    split; [exact H1|]. split; [exact H2|].
    assert (IT : In (os_path hp) (write_targets g output)).
    { right. rewrite GH. left. reflexivity. }
    destruct (KEPT _ IT _ SH) as (q & RQ & PL). exists q, jh. split; [exact RQ|]. rewrite PL, DH. reflexivity.
Qed.
