(** Proofs about sizes of encrypted files and the hashes shown. *)
From Coq Require Import List Arith NArith ZArith Ascii String Bool Lia.
From Verif Require Import Bytes Outcome IO Primitives Crypto Header Stream KeyModel EncDec.
From Verif Require Import Overwrite Hash FS Erase Archive Cli.
From Verif Require Import BytesFacts HeaderSpec HeaderFacts IOSpec IOFacts FileFacts FileProofs.
From Verif Require Import FSSpec FSFacts ArchiveSpec EraseProofs UnpackProofs PackProofs RestorePack.
From Verif Require Import RestoreProofs CliSpec CliKeys CliRuns CliCommands CliProofs StreamFacts StreamProofs HeaderProofs PrintSpec PrintProofs ReportSpec.
Import ListNotations.
Local Open Scope nat_scope.
Local Open Scope list_scope.

Definition silent (n : note) : Prop := forall f h, n <> NHash f h.
Lemma silent_hashes : forall ns, Forall silent ns -> hashes_in ns = [].
Proof.
  induction ns as [|n ns IH]; intros F; [reflexivity|]. inversion F as [|? ? H1 H2]; subst.
  destruct n; cbn [hashes_in]; try (apply IH; exact H2). exfalso. eapply H1. reflexivity.
Qed.
Lemma hashes_app : forall a b, hashes_in (a ++ b) = hashes_in a ++ hashes_in b.
Proof. induction a as [|n a IH]; intros b; [reflexivity|]. destruct n; cbn; rewrite ?IH; reflexivity. Qed.

Lemma silent_warn : silent NWarn. Proof. intros f h. discriminate. Qed.
Lemma silent_ask : forall q, silent (NAsk q). Proof. intros q f h. discriminate. Qed.
Lemma silent_phrase : forall s, silent (NPhrase s). Proof. intros s f h. discriminate. Qed.

(** The parameters without the hash. *)
Definition no_hash (p : crypto_params) : crypto_params :=
  mkCryptoParams false (cp_force p) (cp_erase p) (cp_key p) (cp_header p) (cp_hashing p).

Lemma bind_ret_l : forall {S E A B} (a : A) (k : A -> M S E B) s, bind (ret a) k s = k a s.
Proof. reflexivity. Qed.

Lemma encrypt_split : forall V input output p a c,
  encrypt_main V input output p a c
  = bind (encrypt_main V input output (no_hash p) a)
      (fun _ => if cp_hash p then hash_files V [output] else ret tt) c.
Proof.
  intros V input output p a c. unfold encrypt_main, no_hash, open_header.
  cbn [cp_hash cp_force cp_key cp_header cp_hashing]. symmetry.
  repeat (rewrite bind_assoc; apply bind_congr; intros). reflexivity.
Qed.
Lemma decrypt_split : forall V input output p c,
  decrypt_main V input output p c
  = bind (decrypt_main V input output (no_hash p))
      (fun _ => if cp_hash p then hash_files V [input] else ret tt) c.
Proof.
  intros V input output p c. unfold decrypt_main, no_hash, read_header.
  cbn [cp_hash cp_force cp_key cp_header cp_hashing]. symmetry.
  repeat (rewrite bind_assoc; apply bind_congr; intros). reflexivity.
Qed.

Lemma bind_tt : forall {S E} (m : M S E unit) s, bind m (fun _ => ret tt) s = m s.
Proof. intros S E m s. unfold bind, ret. destruct (m s) as [[[]|e| |] s']; reflexivity. Qed.

Lemma encrypt_silent : forall V input output p a, input <> output ->
  says silent (count_of (cp_key p)) (encrypt_main V input output (no_hash p) a).
Proof.
  intros V input output p a NE c o c' H.
  set (p0 := mkCryptoParams false (cp_force p) None (cp_key p) (cp_header p) (cp_hashing p)).
  apply (says_encrypt silent silent_warn V input output p0 a).
  - intros. apply silent_phrase.
  - intros. apply silent_ask.
  - intros. apply silent_ask.
  - discriminate.
  - intros. apply silent_ask.
  - rewrite encrypt_stream_eq by exact NE. unfold finish. cbn [p0 cp_erase]. rewrite bind_tt. exact H.
Qed.
Lemma decrypt_silent : forall V input output p, input <> output ->
  says silent (count_of (cp_key p)) (decrypt_main V input output (no_hash p)).
Proof.
  intros V input output p NE c o c' H.
  set (p0 := mkCryptoParams false (cp_force p) None (cp_key p) (cp_header p) (cp_hashing p)).
  apply (says_decrypt silent silent_warn V input output p0).
  - intros. apply silent_phrase.
  - intros. apply silent_ask.
  - discriminate.
  - intros. apply silent_ask.
  - rewrite decrypt_stream_eq by exact NE. unfold finish. cbn [p0 cp_erase]. rewrite bind_tt. exact H.
Qed.

(** The notes before the run of the command proper. *)
Lemma encrypt_begins : forall V g c o c' input output,
  given g "input" input -> given g "output" output -> input <> output ->
  run_command V CmdEncrypt g c = (o, c') ->
  exists p n o1 c1, params_of V CmdEncrypt g p /\ Forall silent n
    /\ encrypt_main V input output p (algorithm_asked g) (printed n c) = (o1, c1)
    /\ ((o1 <> Ok tt /\ o = o1 /\ c' = c1)
        \/ (o1 = Ok tt
            /\ secure_erase V input (passes_of (g "erase"%string)) (cp_force p) c1 = (o, c'))).
Proof.
  intros V g c o c' input output GI GO NE R. cbn [run_command] in R. unfold encrypt_cmd in R.
  destruct (handler_cases V CmdEncrypt g c) as [(p & n & PO & H & _)|(_ & X & _)];
    [left; reflexivity| |congruence].
  rewrite (bind_ok _ _ _ _ _ H) in R.
  destruct (first_notes _ _ _ _ _ (says_handler _ silent_warn V _) H) as [F _].
  revert R. unfold algorithm_of. rewrite bind_assoc. erewrite bind_ok by (apply contains_optional; reflexivity).
  erewrite bind_ok by reflexivity.
  erewrite bind_ok by (apply (get_param_run V CmdEncrypt g "input" input); [reflexivity|exact GI]).
  erewrite bind_ok by (apply (get_param_run V CmdEncrypt g "output" output); [reflexivity|exact GO]).
  intros R. replace (if match g "aes"%string with [] => false | _ :: _ => true end then Aes256Gcm else XChaCha20Poly1305)
    with (algorithm_asked g) in R by (unfold algorithm_asked; destruct (g "aes"%string); reflexivity).
  rewrite encrypt_stream_eq in R by exact NE. unfold bind in R.
  destruct (encrypt_main V input output p (algorithm_asked g) (printed n c)) as [o1 c1] eqn:EM.
  exists p, n, o1, c1. do 2 (split; [assumption|]). split; [exact EM|].
  unfold finish in R. rewrite (po_erase _ _ _ _ PO) in R.
  destruct o1 as [[]|e| |]; [right; auto|left|left|left]; injection R as <- <-; (split; [discriminate|auto]).
Qed.
Lemma decrypt_begins : forall V g c o c' input output, ce_debug V = false ->
  given g "input" input -> given g "output" output -> input <> output ->
  run_command V CmdDecrypt g c = (o, c') ->
  exists p n o1 c1, params_of V CmdDecrypt g p /\ Forall silent n
    /\ decrypt_main V input output p (printed n c) = (o1, c1)
    /\ ((o1 <> Ok tt /\ o = o1 /\ c' = c1)
        \/ (o1 = Ok tt
            /\ secure_erase V input (passes_of (g "erase"%string)) (cp_force p) c1 = (o, c'))).
Proof.
  intros V g c o c' input output DB GI GO NE R. cbn [run_command] in R. unfold decrypt_cmd in R.
  destruct (handler_cases V CmdDecrypt g c) as [(p & n & PO & H & _)|(X & _)];
    [right; left; reflexivity| |congruence].
  rewrite (bind_ok _ _ _ _ _ H) in R.
  destruct (first_notes _ _ _ _ _ (says_handler _ silent_warn V _) H) as [F _].
  revert R.
  erewrite bind_ok by (apply (get_param_run V CmdDecrypt g "input" input); [reflexivity|exact GI]).
  erewrite bind_ok by (apply (get_param_run V CmdDecrypt g "output" output); [reflexivity|exact GO]).
  intros R. rewrite decrypt_stream_eq in R by exact NE. unfold bind in R.
  destruct (decrypt_main V input output p (printed n c)) as [o1 c1] eqn:EM.
  exists p, n, o1, c1. do 2 (split; [assumption|]). split; [exact EM|].
  unfold finish in R. rewrite (po_erase _ _ _ _ PO) in R.
  destruct o1 as [[]|e| |]; [right; auto|left|left|left]; injection R as <- <-; (split; [discriminate|auto]).
Qed.

(** The hash step. *)
Lemma hash_step : forall V (b : bool) f c o c' i, no_faults (disk c) -> stat (disk c) (os_path f) = Some (NFile i) ->
  (if b then hash_files V [f] else ret tt) c = (o, c') ->
  o = Ok tt /\ c_a c' = c_a c
  /\ c_out c' = c_out c ++ (if b then [NHash f (hex_encode (ce_blake3 V (s_data (disk c) i)))] else []).
Proof.
  intros V b f c o c' i NF ST H. destruct b.
  - destruct (hash_files_any _ _ _ _ _ H) as (_ & _ & _ & _ & _ & _ & _ & C). destruct (C NF) as [CA X].
    destruct (X [i]) as [-> O]; [constructor; [exact ST|constructor]|]. auto.
  - unfold ret in H. injection H as <- <-. rewrite app_nil_r. auto.
Qed.

Lemma hash_wanted : forall V cmd g p f h, params_of V cmd g p ->
  hashes_in (if cp_hash p then [NHash f h] else []) = match g "hash"%string with [] => [] | _ => [(f, h)] end.
Proof.
  intros V cmd g p f h PO. destruct (po_hash _ _ _ _ PO) as [A B].
  destruct (cp_hash p), (g "hash"%string) as [|v r]; try reflexivity.
  - exfalso. apply A; reflexivity.
  - discriminate B. discriminate.
Qed.

Lemma encrypt_hash : forall V g c c' input output i ns,
  no_faults (disk c) -> inodes_ok (disk c) ->
  given g "input" input -> given g "output" output ->
  stat (disk c) (os_path input) = Some (NFile i) ->
  (forall t, In t (write_targets g output) -> stat (disk c) t <> Some (NFile i)) ->
  run_command V CmdEncrypt g c = (Ok tt, c') -> printed_between c c' ns ->
  exists q j ct, resolve true (disk c) (os_path output) = Some q /\ at_place (disk c') q = Some (SFile j ct)
    /\ hashes_in ns = match g "hash"%string with
                      | [] => [] | _ => [(output, hex_encode (ce_blake3 V ct))] end.
Proof.
  intros V g c c' input output i ns NF IO GI GO ST SEP H PB.
  assert (NI : i < s_next (disk c)).
  { unfold stat in ST. destruct (resolve true (disk c) (os_path input)); [|discriminate]. exact (IO _ _ ST). }
  assert (NE : input <> output).
  { intros ->. eapply SEP; [left; reflexivity|exact ST]. }
  destruct (encrypt_begins _ _ _ _ _ _ _ GI GO NE H) as (p & n & o1 & c1 & PO & FN & EM & RES).
  destruct (encrypt_main_any _ _ _ _ _ _ _ _ EM) as (W & _ & _).
  rewrite (header_targets_of _ _ _ _ _ PO), printed_disk in W.
  rewrite encrypt_split in EM. unfold bind in EM.
  destruct (encrypt_main V input output (no_hash p) (algorithm_asked g) (printed n c)) as [o0 c0] eqn:E0.
  destruct RES as [(NO & X & _)|(-> & SE)]; [congruence|].
  destruct o0 as [[]|e| |]; try discriminate EM.
  destruct (encrypt_silent V input output p (algorithm_asked g) NE _ _ _ E0) as (n0 & O0 & F0 & _).
  destruct (encrypt_main_any _ _ _ _ _ _ _ _ E0) as (_ & _ & OK).
  destruct (OK eq_refl) as (i' & raw & hi & ho & hh & a1 & a2 & EN).
  assert (NF' : no_faults (disk (printed n c))) by exact NF.
  destruct (en_calm _ _ _ _ _ _ _ _ _ _ _ _ _ _ EN NF') as (NF0 & _).
  destruct (en_ho _ _ _ _ _ _ _ _ _ _ _ _ _ _ EN) as [STO _].
  destruct (hash_step _ _ _ _ _ _ _ NF0 STO EM) as (_ & CA & O1).
  assert (D1 : disk c1 = disk c0) by (unfold disk; rewrite CA; reflexivity).
  rewrite <- D1 in NF0, STO, O1.
  pose proof (ow_stat_kept _ _ _ _ _ W ST) as ST1.
  destruct (secure_erase_file _ _ _ _ _ _ _ _ SE ST1) as [(X & _)|(s1 & oe & _ & C & ER & OE)]; [discriminate X|].
  rewrite (C NF0) in ER. destruct oe as [[]|x| |]; try discriminate OE.
  destruct (erase_holds _ _ _ _ _ ER) as (_ & OKH & _).
  destruct (OKH eq_refl) as (i2 & q' & STI & RQ' & SN & _ & SAME & _).
  assert (i2 = i) by congruence. subst i2.
  set (j := h_ino ho) in *.
  assert (JI : j <> i).
  { intros E. rewrite E in STO.
    destruct (ow_stat_new _ _ _ _ _ W STO) as [X|(_ & k & X & L)]; [exact (SEP (os_path output) (or_introl eq_refl) X)|].
    injection X as <-. lia. }
  pose proof STO as STJ. unfold stat in STJ. destruct (resolve true (disk c1) (os_path output)) as [q|] eqn:RT; [|discriminate].
  exists q, j, (s_data (disk c1) j). rewrite <- (ow_resolve true _ _ _ (os_path output) W). split; [exact RT|]. split.
  - rewrite SAME; [unfold at_place; rewrite STJ; reflexivity| |congruence].
    intros ->. apply JI.
    assert (RT' : resolve true (disk c1) (os_path input) = Some q').
    { eapply resolve_same; [exact RQ'|exact STJ|discriminate]. }
    unfold stat in STI. rewrite RT', STJ in STI. congruence.
  - assert (S2 : exists n2, c_out c' = c_out c1 ++ n2 /\ Forall silent n2).
    { destruct (says_erase silent silent_warn V input (passes_of (g "erase"%string)) (cp_force p)
        (fun _ => silent_ask _) _ _ _ SE) as (n2 & A & B & _). exists n2. split; assumption. }
    destruct S2 as (n2 & O2 & F2). unfold printed_between in PB.
    rewrite O2, O1, O0 in PB. cbn [c_out printed] in PB. rewrite <- !app_assoc in PB. apply app_inv_head in PB.
    subst ns. rewrite !hashes_app, (silent_hashes _ FN), (silent_hashes _ F0), (silent_hashes _ F2), app_nil_r.
    cbn [app]. eapply hash_wanted. exact PO.
Qed.

Lemma decrypt_hash : forall V g c c' input output i ns,
  ce_debug V = false -> no_faults (disk c) -> inodes_ok (disk c) ->
  given g "input" input -> given g "output" output ->
  stat (disk c) (os_path input) = Some (NFile i) -> stat (disk c) (os_path output) <> Some (NFile i) ->
  run_command V CmdDecrypt g c = (Ok tt, c') -> printed_between c c' ns ->
  hashes_in ns = match g "hash"%string with
                 | [] => [] | _ => [(input, hex_encode (ce_blake3 V (s_data (disk c) i)))] end.
Proof.
  intros V g c c' input output i ns DB NF IO GI GO ST SEP H PB.
  assert (NI : i < s_next (disk c)).
  { unfold stat in ST. destruct (resolve true (disk c) (os_path input)); [|discriminate]. exact (IO _ _ ST). }
  assert (NE : input <> output) by (intros ->; exact (SEP ST)).
  destruct (decrypt_begins _ _ _ _ _ _ _ DB GI GO NE H) as (p & n & o1 & c1 & PO & FN & EM & RES).
  rewrite decrypt_split in EM. unfold bind in EM.
  destruct (decrypt_main V input output (no_hash p) (printed n c)) as [o0 c0] eqn:E0.
  destruct RES as [(NO & X & _)|(-> & SE)]; [congruence|].
  destruct o0 as [[]|e| |]; try discriminate EM.
  destruct (decrypt_silent V input output p NE _ _ _ E0) as (n0 & O0 & F0 & _).
  destruct (decrypt_main_any _ _ _ _ _ _ _ E0) as (W & _ & OK). rewrite printed_disk in W.
  destruct (OK eq_refl) as (i' & raw & hi & ho & hh & a1 & a2 & EN).
  assert (NF' : no_faults (disk (printed n c))) by exact NF.
  destruct (de_calm _ _ _ _ _ _ _ _ _ _ _ _ _ EN NF') as (NF0 & _).
  pose proof (ow_stat_kept _ _ _ _ _ W ST) as ST0.
  assert (U : untouched (disk c) (disk c0) i).
  { apply (ow_untouched _ _ _ _ W NI). intros t [<-|[]]. exact SEP. }
  destruct U as [DI _].
  destruct (hash_step _ _ _ _ _ _ _ NF0 ST0 EM) as (_ & _ & O1). rewrite DI in O1.
  assert (S2 : exists n2, c_out c' = c_out c1 ++ n2 /\ Forall silent n2).
  { destruct (says_erase silent silent_warn V input (passes_of (g "erase"%string)) (cp_force p)
      (fun _ => silent_ask _) _ _ _ SE) as (n2 & A & B & _). exists n2. split; assumption. }
  destruct S2 as (n2 & O2 & F2). unfold printed_between in PB.
  rewrite O2, O1, O0 in PB. cbn [c_out printed] in PB. rewrite <- !app_assoc in PB. apply app_inv_head in PB.
  subst ns. rewrite !hashes_app, (silent_hashes _ FN), (silent_hashes _ F0), (silent_hashes _ F2), app_nil_r.
  cbn [app]. eapply hash_wanted. exact PO.
Qed.

Lemma file_lengths : forall E bs req w w', env_ok E -> 0 < bs -> bs <= BLOCK_SIZE ->
  ht_version (er_header_type req) = V5 -> ht_mode (er_header_type req) = StreamMode ->
  d_plan (w_in w) = [] -> d_plan (w_out w) = [] -> d_data (w_out w) = [] ->
  (er_detached req = true -> d_plan (w_hdr w) = [] /\ d_data (w_hdr w) = []) ->
  encrypt_execute_bs E bs req w = (Ok tt, w') ->
  let n := List.length (d_data (w_in w)) in
  if er_detached req
  then List.length (d_data (w_out w')) = n + 16 * (n / bs + 1) /\ List.length (d_data (w_hdr w')) = 416
  else List.length (d_data (w_out w')) = 416 + (n + 16 * (n / bs + 1)).
Proof.
  intros E bs req w w' HE B1 B2 V5' SM PI PO DO PH EN n.
  destruct (encrypt_ok_inv E bs req w tt w' HE B1 EN)
    as (key & wrapped & b & aad & ct & cs & k & HK & _ & _ & HM & _).
  pose proof (hash_known _ _ _ _ _ HK) as KH.
  destruct (encrypt_execute_result E bs req w key HE B1 B2 HM) as
    (wr & b' & aad' & R1 & R2 & R3 & R4 & R5 & R6); auto.
  { intros. apply e_header_wf_v5; auto. }
  { intros D. apply PH, D. }
  destruct (N.of_nat (List.length (d_data (w_in w)) / bs) <=? counter_max E)%N eqn:CM.
  2:{ destruct R6 as [w2 R6]. congruence. }
  destruct R6 as (w2 & ct2 & cs2 & S1 & S2 & S3 & S4 & S5).
  assert (w2 = w') by congruence. subst w2.
  assert (L : List.length ct2 = n + 16 * (n / bs + 1)).
  { eapply is_ciphertext_length; [exact HE|exact B1|].
    eapply sealed_body_ciphertext; [exact HE|exact B1| | | |exact S2].
    - apply draw_length.
    - apply wf_shape in R2. apply R2.
    - exact SM. }
  assert (LB : List.length b' = 416).
  { destruct header_size_exact as (Hsz & _). rewrite (Hsz _ _ R2 R3). cbn [e_header h_type]. rewrite V5'. reflexivity. }
  assert (W0 : forall l, List.length (write_at [] 0 l) = List.length l).
  { intros l. rewrite write_at_0, skipn_nil, app_nil_r. reflexivity. }
  destruct (er_detached req).
  - destruct S5 as [(D1 & _) D2]. destruct (PH eq_refl) as [_ DH]. split.
    + rewrite D1. cbn [set_pos d_data d_pos]. rewrite DO, W0. exact L.
    + rewrite D2. cbn [put_at set_pos d_data d_pos]. rewrite DH, W0. exact LB.
  - destruct S5 as [(D1 & _) D2]. rewrite D1. cbn [set_pos d_data d_pos]. rewrite DO, W0, app_length, L, LB. reflexivity.
Qed.

Lemma encrypt_size : forall V g c c' input output i,
  env_ok (ce_E V) -> no_faults (disk c) -> inodes_ok (disk c) ->
  given g "input" input -> given g "output" output ->
  stat (disk c) (os_path input) = Some (NFile i) ->
  (forall t, In t (write_targets g output) -> stat (disk c) t <> Some (NFile i)) ->
  (forall h, given g "header" h -> different (disk c) (os_path output) (os_path h)) ->
  run_command V CmdEncrypt g c = (Ok tt, c') ->
  (exists q j ct, resolve true (disk c) (os_path output) = Some q /\ at_place (disk c') q = Some (SFile j ct)
     /\ N.of_nat (List.length ct)
        = encrypted_size (match g "header"%string with [] => false | _ => true end)
            (N.of_nat (List.length (s_data (disk c) i))))
  /\ (forall h, given g "header" h -> exists q j hdr,
        resolve true (disk c) (os_path h) = Some q /\ at_place (disk c') q = Some (SFile j hdr)
        /\ List.length hdr = 416).
Proof.
  intros V g c c' input output i HE NF IO GI GO ST SEP DIF H.
  destruct (encrypt_ran _ _ _ _ _ _ _ _ HE NF IO GI GO ST SEP DIF H) as [_ B].
  destruct (B eq_refl) as (_ & raw & p & w0 & w1 & _ & _ & [EX (WIN & PI) (EE & PO') (qo & io & RO & PLO) EH]).
  assert (L := file_lengths (ce_E V) BLOCK_SIZE
    (mkEncReq (negb (match g "header"%string with [] => true | _ => false end)) raw
       (mkHT V5 (algorithm_asked g) StreamMode) (cp_hashing p)) w0 w1 HE BLOCK_SIZE_pos (le_n _) eq_refl eq_refl PI PO' EE).
  cbn [er_detached] in L. rewrite WIN in L.
  assert (C : forall n, N.of_nat (n + 16 * (n / BLOCK_SIZE + 1)) = body_size (N.of_nat n)).
  { intros n. unfold body_size. rewrite <- block_size_number.
    rewrite Nnat.Nat2N.inj_add, Nnat.Nat2N.inj_mul, Nnat.Nat2N.inj_add, Nnat.Nat2N.inj_div. reflexivity. }
  destruct (g "header"%string) as [|hp r] eqn:GH; cbn [negb] in L.
  - specialize (L (fun X : false = true => False_ind _ (diff_false_true X)) EX). cbv zeta in L. split.
    + exists qo, io, (d_data (w_out w1)). do 2 (split; [assumption|]). rewrite L. cbn [encrypted_size].
      rewrite Nnat.Nat2N.inj_add, C. reflexivity.
    + intros h [r X]. congruence.
  - destruct EH as (EHH & PH & qh & j & RH & PLH).
    specialize (L (fun _ => conj PH EHH) EX). cbv zeta in L. destruct L as [L1 L2]. split.
    + exists qo, io, (d_data (w_out w1)). do 2 (split; [assumption|]). rewrite L1. cbn [encrypted_size]. apply C.
    + intros h [r' X]. assert (h = hp) by congruence. subst h.
      exists qh, j, (d_data (w_hdr w1)). do 2 (split; [assumption|]). exact L2.
Qed.
