(** Proofs about the choice of algorithms. *)
From Coq Require Import List Arith NArith ZArith Ascii String Bool Lia.
From Verif Require Import Bytes Outcome IO Primitives Crypto Header Stream KeyModel EncDec.
From Verif Require Import Overwrite Hash FS Erase Archive Cli CliTools.
From Verif Require Import IOSpec IOFacts HeaderSpec HeaderFacts HeaderProofs StreamSpec FileSpec FileFacts FileProofs RestorePack.
From Verif Require Import FSSpec FSFacts ArchiveSpec CliSpec CliCommands CliProofs CliToolsSpec CliToolsKeys ChoiceSpec.
Import ListNotations.
Local Open Scope nat_scope.
Local Open Scope list_scope.

Lemma hash_table : forall E h pw salt,
  (forall k, In (h, k) kdf_table ->
     hash E h pw salt = match kdf_run E k pw salt with Some key => Ok key | None => Err tt end)
  /\ ((forall k, ~ In (h, k) kdf_table) -> hash E h pw salt = Err tt).
Proof.
  intros E h pw salt. split.
  - intros k H. cbn [kdf_table In] in H.
    repeat (destruct H as [H|H]; [injection H as <- <-; reflexivity|]). destruct H.
  - intros NO. unfold hash. destruct h as [i|i].
    + destruct (Z.eqb_spec i 1) as [->|_]; [exfalso; eapply NO; left; reflexivity|].
      destruct (Z.eqb_spec i 2) as [->|_]; [exfalso; eapply NO; right; left; reflexivity|].
      destruct (Z.eqb_spec i 3) as [->|_]; [exfalso; eapply NO; do 2 right; left; reflexivity|]. reflexivity.
    + destruct (Z.eqb_spec i 4) as [->|_]; [exfalso; eapply NO; do 3 right; left; reflexivity|].
      destruct (Z.eqb_spec i 5) as [->|_]; [exfalso; eapply NO; do 4 right; left; reflexivity|]. reflexivity.
Qed.

Lemma asked_in_table : forall g, In (hashing_asked g, kdf_asked g) kdf_table.
Proof. intros g. unfold hashing_asked, kdf_asked. destruct (g "argon"%string); cbn [kdf_table In]; auto 6. Qed.

Lemma slot_cost : forall E a h k guess slot mk, In (h, k) kdf_table -> ks_hash slot = h ->
  slot_opens E a guess slot mk ->
  exists key, kdf_run E k guess (ks_salt slot) = Some key
    /\ aead_dec E a key (ks_nonce slot) [] (ks_enc slot) = Some mk.
Proof.
  intros E a h k guess slot mk IN HS (key & HK & DK). subst h.
  rewrite (proj1 (hash_table E _ guess (ks_salt slot)) k IN) in HK.
  destruct (kdf_run E k guess (ks_salt slot)) as [x|]; [|discriminate]. injection HK as <-. eauto.
Qed.

Lemma encrypt_protects : forall E bs detached raw a ha k w w', env_ok E -> 0 < bs -> bs <= BLOCK_SIZE ->
  In (ha, k) kdf_table ->
  d_plan (w_in w) = [] -> d_plan (w_out w) = [] -> d_data (w_out w) = [] ->
  (detached = true -> d_plan (w_hdr w) = [] /\ d_data (w_hdr w) = []) ->
  encrypt_execute_bs E bs (mkEncReq detached raw (mkHT V5 a StreamMode) ha) w = (Ok tt, w') ->
  protected_by E a ha k raw (d_data (if detached then w_hdr w' else w_out w')).
Proof.
  intros E bs detached raw a ha k w w' HE B1 B2 IN PI PO DO HD EN.
  set (req := mkEncReq detached raw (mkHT V5 a StreamMode) ha) in *.
  destruct (encrypt_ok_inv E bs req w tt w' HE B1 EN) as (key & _ & _ & _ & _ & _ & _ & HK & _).
  destruct (encrypt_execute_result E bs req w key HE B1 B2) as
    (wrapped & b & aad & R1 & R2 & R3 & R4 & R5 & R6); auto.
  { intros. apply e_header_wf_v5; auto. eapply hash_known; eauto. }
  { intros D. apply HD. exact D. }
  set (h := e_header req (w_rng w) wrapped) in *.
  destruct (N.of_nat (List.length (d_data (w_in w)) / bs) <=? counter_max E)%N.
  2:{ destruct R6 as [w2 R6]. congruence. }
  destruct R6 as (w2 & ct & cs & S1 & _ & _ & _ & S5).
  assert (w2 = w') by congruence. subst w2.
  assert (DATA : exists t, d_data (if detached then w_hdr w' else w_out w') = b ++ t).
  { change (er_detached req) with detached in S5. destruct detached.
    - destruct S5 as [_ ->]. exists []. rewrite app_nil_r. destruct (HD eq_refl) as [_ X].
      cbn [put_at set_pos d_data d_pos]. rewrite X. apply write_at_empty.
    - destruct S5 as [(X & _) _]. exists ct. cbn [set_pos d_data d_pos] in X. rewrite X, DO. apply write_at_empty. }
  destruct DATA as [t DATA]. rewrite DATA.
  destruct (header_round_trip h R2) as (b' & Hb & RT). assert (b' = b) by congruence. subst b'.
  destruct (RT (mkDev (b ++ t) 0 [] [])) as [A _].
  { exists t. reflexivity. }
  destruct (A eq_refl) as (h' & aad' & DE & (T & _ & K & _)).
  exists h', aad', (set_pos (0 + List.length b) (mkDev (b ++ t) 0 [] [])),
    (mkSlot ha wrapped (e_mk_nonce a (w_rng w)) (e_salt (w_rng w))).
  split; [exact DE|]. split; [rewrite <- T; reflexivity|]. split; [rewrite <- K; reflexivity|].
  split; [reflexivity|]. split; [apply draw_length|].
  split.
  { intros guess mk SO. eapply slot_cost; [exact IN|reflexivity|exact SO]. }
  destruct R5 as (l1 & s & l2 & EQ & SO & _). cbn [h e_header h_keyslots] in EQ.
  destruct l1 as [|x l1]; cbn [app] in EQ.
  - exists (e_master (w_rng w)). split; [|apply draw_length].
    injection EQ as <- _. exact SO.
  - destruct l1; discriminate EQ.
Qed.

Lemma encrypt_as_asked : forall V g c c' input output i,
  env_ok (ce_E V) -> no_faults (disk c) -> inodes_ok (disk c) ->
  given g "input" input -> given g "output" output ->
  stat (disk c) (os_path input) = Some (NFile i) ->
  (forall t, In t (write_targets g output) -> stat (disk c) t <> Some (NFile i)) ->
  (forall h, given g "header" h -> different (disk c) (os_path output) (os_path h)) ->
  run_command V CmdEncrypt g c = (Ok tt, c') ->
  exists raw q j data, key_taken V CmdEncrypt g Validate c output raw
    /\ resolve true (disk c) (os_path (match g "header"%string with [] => output | h :: _ => h end)) = Some q
    /\ at_place (disk c') q = Some (SFile j data)
    /\ protected_by (ce_E V) (algorithm_asked g) (hashing_asked g) (kdf_asked g) raw data.
Proof.
  intros V g c c' input output i HE NF IO GI GO ST SEP DIF H.
  destruct (encrypt_ran _ _ _ _ _ _ _ _ HE NF IO GI GO ST SEP DIF H) as [_ B].
  destruct (B eq_refl) as (_ & raw & p & w0 & w1 & PO & KT & [EX (WIN & PI) (EE & PO') (qo & io & RO & PLO) EH]).
  assert (HA : cp_hashing p = hashing_asked g).
  { rewrite (po_hashing _ _ _ _ PO). unfold hashing_asked. destruct (g "argon"%string); reflexivity. }
  rewrite HA in EX.
  assert (B2 : 0 < BLOCK_SIZE) by (apply Nat.ltb_lt; reflexivity).
  exists raw. destruct (g "header"%string) as [|hp r] eqn:GH; cbn [negb] in EX.
  - exists qo, io, (d_data (w_out w1)). split; [exact KT|]. split; [exact RO|]. split; [exact PLO|].
    eapply (encrypt_protects _ _ false); eauto using asked_in_table. discriminate.
  - destruct EH as (EHH & PH & qh & j & RH & PLH).
    exists qh, j, (d_data (w_hdr w1)). split; [exact KT|]. split; [exact RH|]. split; [exact PLH|].
    eapply (encrypt_protects _ _ true); eauto using asked_in_table.
Qed.

Lemma manipulation_hashing : forall V m c old new ha c',
  key_manipulation_params V m c = (Ok (old, new, ha), c') ->
  ha = match value_of m "argon" with Some _ => Argon2id 3 | None => Blake3Balloon 5 end.
Proof.
  intros V m c old new ha c' H. unfold key_manipulation_params, bind in H.
  destruct (key_init V m _ "keyfile-old" c) as [[k1| | |] c1] eqn:E1; try discriminate H.
  destruct (key_init V m _ "keyfile-new" c1) as [[k2| | |] c2] eqn:E2; try discriminate H.
  destruct (hashing_algorithm_of V m c2) as [[h| | |] c3] eqn:E3; try discriminate H.
  unfold ret in H. injection H as <- <- <- <-.
  unfold hashing_algorithm_of, bind, contains_id, value_of in *.
  destruct (find_arg m "argon") as [a|].
  - unfold ret in E3. destruct (m_given m "argon"); [destruct (a_default a)|]; injection E3 as <- _; reflexivity.
  - destruct (ce_debug V); [discriminate E3|]. unfold ret in E3. injection E3 as <- _. reflexivity.
Qed.
