(** What a run of encrypt makes can be decrypted, also if calls fail. *)
From Coq Require Import List Arith NArith ZArith Ascii String Bool Lia.
From Verif Require Import Bytes Outcome IO IOFacts Primitives Crypto Header Stream KeyModel EncDec.
From Verif Require Import Overwrite Hash FS Erase Archive Cli.
From Verif Require Import BytesFacts HeaderSpec HeaderFacts HeaderProofs IOSpec FileSpec FileFacts FileProofs FSSpec FSFacts EraseProofs ArchiveSpec
  ArchiveProofs UnpackProofs PackProofs RestorePack RestoreProofs ToolSpec ToolProofs CliSpec CliKeys CliRuns WorldFrames FaultsSpec.
Import ListNotations.
Local Open Scope nat_scope.
Local Open Scope list_scope.

(** ** The library *)

Lemma made_back : forall E bs req w w', env_ok E -> 0 < bs ->
  ht_version (er_header_type req) = V5 ->
  no_short (d_plan (w_in w)) -> no_short (d_plan (w_out w)) -> d_data (w_out w) = [] ->
  (er_detached req = true -> no_short (d_plan (w_hdr w)) /\ d_data (w_hdr w) = []) ->
  encrypt_execute_bs E bs req w = (Ok tt, w') ->
  exists h b aad ct cs, wf_header h /\ ht_mode (h_type h) = StreamMode /\ serialize h = Ok b /\ List.length b = 416
    /\ create_aad h = Ok aad /\ unlocks E (er_raw_key req) h (e_master (w_rng w))
    /\ sealed_body E bs h aad (e_master (w_rng w)) (d_data (w_in w)) ct cs
    /\ if er_detached req then d_data (w_hdr w') = b /\ d_data (w_out w') = ct
       else d_data (w_out w') = b ++ ct.
Proof.
  intros E bs req w w' HE B V5' PI PO DO HD EN.
  pose proof (encrypt_ok_inv E bs req w tt w' HE B EN) as X. cbv zeta in X.
  destruct X as (key & wrapped & b & aad & ct & cs & k & HK & AE & LW & HM & VV & S & CA & SB & _ & _ & PP & KB & R).
  rewrite (PP PI) in SB.
  pose proof (e_header_wf_v5 req (w_rng w) wrapped V5' (hash_known _ _ _ _ _ HK) LW) as WF.
  exists (e_header req (w_rng w) wrapped), b, aad, ct, cs.
  split; [exact WF|]. split; [exact HM|]. split; [exact S|]. split.
  { destruct header_size_exact as (Hsz & _). rewrite (Hsz _ _ WF S). cbn [e_header h_type]. rewrite V5'. reflexivity. }
  split; [exact CA|]. split.
  { unfold unlocks. cbn [h_type e_header h_keyslots h_salt]. rewrite V5'.
    exists [], (mkSlot (er_hashing_algorithm req) wrapped (e_mk_nonce (ht_algorithm (er_header_type req)) (w_rng w)) (e_salt (w_rng w))), [].
    split; [reflexivity|]. split; [|intros ? []].
    exists key. split; [exact HK|]. cbn [ks_nonce ks_enc]. eapply aead_correct; eauto. }
  split; [exact SB|]. destruct (er_detached req).
  - destruct (HD eq_refl) as [PH DH]. destruct R as (R1 & R2 & R3). rewrite (R3 PH), firstn_all in R1.
    destruct R1 as (R1 & _), R2 as (R2 & _). cbn [set_pos d_data d_pos] in R1, R2.
    rewrite R1, R2, DO, DH, !write_at_empty. auto.
  - destruct R as (R1 & _ & R3). rewrite (R3 PO), firstn_all in R1.
    destruct R1 as (R1 & _). cbn [set_pos d_data d_pos] in R1. rewrite R1, DO, write_at_empty. reflexivity.
Qed.

(** ** Files opened behave as the state says *)

Definition kept_an (s s' : sys) : Prop := all_or_nothing s -> all_or_nothing s'.
Lemma an_refl : forall s, kept_an s s. Proof. intros s H. exact H. Qed.
Lemma an_trans : forall a b c, kept_an a b -> kept_an b c -> kept_an a c.
Proof. intros a b c H1 H2 H. auto. Qed.
Lemma an_same : forall s s', s_plans s' = s_plans s -> kept_an s s'.
Proof. intros s s' E H. unfold all_or_nothing. rewrite E. exact H. Qed.
Lemma next_fault_plans : forall s, s_plans (snd (next_fault s)) = s_plans s.
Proof. intros s. unfold next_fault. destruct (s_faults s); reflexivity. Qed.
Lemma next_plan_an : forall s, all_or_nothing s -> no_short (fst (next_plan s)) /\ all_or_nothing (snd (next_plan s)).
Proof.
  intros s H. unfold next_plan, all_or_nothing in *. destruct (s_plans s) as [|p l] eqn:P.
  - cbn. rewrite P. split; [intros k []|constructor].
  - inversion H. subst. cbn. auto.
Qed.

(** A step that may open a file. *)
Definition opens_an (m : M sys st_error entry) : Prop := forall s o s', m s = (o, s') -> all_or_nothing s ->
  all_or_nothing s' /\ forall h, o = Ok (EFile h) -> no_short (h_plan h).
Lemma oa_call_or : forall e m, opens_an m -> opens_an (call_or e m).
Proof.
  intros e m Hm s o s' H A. unfold call_or in H. pose proof (next_fault_plans s) as R.
  destruct (next_fault s) as [b s1]. cbn in R. pose proof (an_same _ _ R A) as A1. destruct b.
  - inversion H. subst. split; [exact A1|discriminate].
  - eapply Hm; eauto.
Qed.
Lemma oa_new_handle : forall p i s o s', new_handle p i s = (o, s') -> all_or_nothing s ->
  all_or_nothing s' /\ forall h, o = Ok (EFile h) -> no_short (h_plan h).
Proof.
  intros p i s o s' H A. unfold new_handle in H. pose proof (next_plan_an s A) as R.
  destruct (next_plan s) as [pl s1]. cbn in R. inversion H. subst. split; [apply R|].
  intros h X. injection X as <-. apply R.
Qed.
Ltac stays H A := inversion H; subst; split; [exact A|discriminate].
Lemma oa_read_file : forall p, opens_an (read_file p).
Proof.
  intros p s o s' H A. unfold read_file in H. destruct (is_dir s p); [stays H A|]. revert s o s' H A. 
  apply (oa_call_or StOpenRead). intros s o s' H A. destruct (stat s p) as [[|i|t]|]; try stays H A.
  eapply oa_new_handle; eauto.
Qed.
Lemma oa_create_file : forall p, opens_an (create_file p).
Proof.
  intros p. apply oa_call_or. intros s o s' H A. destruct (resolve false s p); [|stays H A].
  destruct (lookup _ _); [stays H A|]. eapply oa_new_handle; [exact H|]. exact A.
Qed.
Lemma oa_write_file : forall p, opens_an (write_file p).
Proof.
  intros p. apply oa_call_or. intros s o s' H A. destruct (stat s p) as [[|i|t]|]; try stays H A.
  eapply oa_new_handle; [exact H|]. exact A.
Qed.
Lemma oa_create_or_write : forall p, opens_an (create_or_write p).
Proof.
  intros p s o s' H A. unfold create_or_write, or_else in H.
  destruct (create_file p s) as [r s1] eqn:CF. destruct (oa_create_file _ _ _ _ CF A) as [A1 X].
  destruct r as [e|e| |].
  - inversion H. subst. auto.
  - eapply oa_write_file; eauto.
  - stays H A1.
  - stays H A1.
Qed.

Definition can (c c' : cli) : Prop := kept_an (disk c) (disk c').
Lemma can_refl : forall c, can c c. Proof. intros c. apply an_refl. Qed.
Lemma can_trans : forall a b c, can a b -> can b c -> can a c.
Proof. intros a b c. apply an_trans. Qed.
Lemma can_same : forall c c', c_a c' = c_a c -> can c c'.
Proof. intros c c' E. unfold can, disk. rewrite E. apply an_refl. Qed.
Lemma an_read_keyfile : forall p, always kept_an (read_keyfile p).
Proof.
  intros p s o s' H A. unfold read_keyfile, call_or in H. pose proof (next_fault_plans s) as R.
  destruct (next_fault s) as [b s1]. cbn in R. pose proof (an_same _ _ R A) as A1. destruct b; [inversion H; subst; exact A1|].
  destruct (stat s1 p) as [[|i|t]|]; try (inversion H; subst; exact A1).
  pose proof (next_plan_an s1 A1) as [_ R1]. destruct (next_plan s1) as [pl s2]. cbn in R1.
  assert (X : s' = s2) by (destruct (dev_read_to_end _) as [[] d]; inversion H; reflexivity).
  subst. exact R1.
Qed.
Lemma an_prompt : always can prompt_password.
Proof.
  intros c o c' H. unfold prompt_password in H. destruct (c_tty c) as [|[l|] r]; inversion H; subst;
    first [apply can_refl|apply can_same; reflexivity].
Qed.
Lemma an_bind : forall {E A B} (m : M cli E A) (f : A -> M cli E B),
  always can m -> (forall a, always can (f a)) -> always can (bind m f).
Proof. intros E A B m f. apply (always_bind can can_trans). Qed.
Lemma an_map_err : forall {E F A} (g : E -> F) (m : M cli E A), always can m -> always can (map_err g m).
Proof. intros E F A g m. apply always_map_err. Qed.
Lemma an_keep : forall {E A} (o : outcome E A), always can (fun c => (o, c)).
Proof. intros E A o c r c' H. inversion H. subst. apply can_refl. Qed.
Lemma an_say : forall n, always can (say n).
Proof. intros n c o c' H. inversion H. subst. apply can_same. reflexivity. Qed.
Ltac walk :=
  repeat lazymatch goal with
    | |- always can (bind _ _) => apply an_bind; [|intros ?]
    | |- always can (ret _) => apply an_keep
    | |- always can (err _) => apply an_keep
    | |- always can (lift _) => apply an_keep
    | |- always can (lift_opt _ ?o) => destruct o; apply an_keep
    | |- always can panic => apply an_keep
    | |- always can (say _) => apply an_say
    | |- always can (map_err _ _) => apply an_map_err
    | |- always can (if ?b then _ else _) => destruct b
    | |- always can (match ?x with _ => _ end) => destruct x
    end.
Lemma an_password : forall n st, always can (password_loop n st).
Proof.
  induction n as [|n IH]; intros st; cbn [password_loop]; [apply an_keep|].
  walk; try apply an_prompt. apply IH.
Qed.
Lemma an_secret : forall V k st, always can (get_secret V k st).
Proof.
  intros V k st. unfold get_secret. walk.
  - intros c o c' H. inversion H. subst. apply can_same. reflexivity.
  - intros c o c' H. rewrite on_fs_run in H. inversion H. subst. unfold can. rewrite set_disk_disk.
    destruct (read_keyfile (os_path path) (disk c)) as [r s1] eqn:RK. eapply an_read_keyfile; eauto.
  - intros c o c' H. eapply an_password; eauto.
Qed.

(** ** The command *)

Lemma encrypt_main_an : forall V input output p a c c',
  encrypt_main V input output p a c = (Ok tt, c') ->
  exists i raw hi ho hh a1 a2, encrypted V input output p a c c' i raw hi ho hh a1 a2
    /\ (all_or_nothing (disk c) -> no_short (h_plan hi) /\ no_short (h_plan ho)
        /\ forall h, hh = Some h -> no_short (h_plan h)).
Proof.
  intros V input output p a c c' H.
  destruct (encrypt_main_any _ _ _ _ _ _ _ _ H) as (_ & NE & _).
  remember (@Ok cli_error unit tt) as o eqn:OO. cut (o = Ok tt -> exists i raw hi ho hh a1 a2, encrypted V input output p a c c' i raw hi ho hh a1 a2
    /\ (all_or_nothing (disk c) -> no_short (h_plan hi) /\ no_short (h_plan ho)
        /\ forall h, hh = Some h -> no_short (h_plan h))); [auto|].
  clear OO NE. unfold encrypt_main in H.
  cut (only_writes (disk c) (os_path output :: header_targets p) (disk c') /\ (forall e, o = Err e -> not_erase e) /\ (o = Ok tt -> exists i raw hi ho hh a1 a2, encrypted V input output p a c c' i raw hi ho hh a1 a2
    /\ (all_or_nothing (disk c) -> no_short (h_plan hi) /\ no_short (h_plan ho)
        /\ forall h, hh = Some h -> no_short (h_plan h)))); [tauto|].
  set (ts := os_path output :: header_targets p). set (s := disk c).
  (* check *)
  unfold bind at 1 in H. destruct (check_or_exit output (cp_force p) c) as [r c0] eqn:CK.
  destruct (check_or_exit_any _ _ _ _ _ CK) as (CA & CT & RES & _).
  assert (S0 : disk c0 = s) by (unfold disk; rewrite CA; reflexivity).
  assert (W0 : only_writes s ts (disk c0)) by (rewrite S0; apply ow_refl).
  destruct RES as [<-|[<-|[<-|[]]]];
    [|injection H as <- <-; split; [exact W0|]; split; [intros e X; injection X as <-; split; discriminate|discriminate]
     |injection H as <- <-; split; [exact W0|]; split; [intros e X; injection X as <-; split; discriminate|discriminate]].
  pose proof (check_or_exit_stdin _ _ _ _ CK) as CS.
  (* input *)
  unfold bind at 1 in H. destruct (storage (read_file (os_path input)) c0) as [r1 c1] eqn:RF.
  destruct (storage_inv _ _ _ _ RF) as (r & s1 & RF' & -> & ->). clear RF. rewrite S0 in RF'.
  destruct (read_file_any _ _ _ _ RF') as (D1 & C1 & RES1).
  assert (W1 : only_writes s ts s1) by (apply ow_disk; exact D1).
  assert (RES1' : (exists fi, r = Ok fi /\ ((fi = EDir (os_path input)) \/ exists i plan, fi = EFile (mkHandle (os_path input) i 0 plan)
             /\ stat s (os_path input) = Some (NFile i) /\ (no_faults s -> plan = [])))
          \/ r = Err StOpenRead).
  { destruct RES1 as [[-> _]|[(i & plan & -> & X)|[-> _]]]; [left|left|right]; eauto 8. }
  clear RES1. destruct RES1' as [(fi & -> & FI)| ->]; cbn [omap] in H.
  2:{ injection H as <- <-. split; [exact W1|]. split; [intros e X; injection X as <-; split; discriminate|discriminate]. }
  (* key *)
  unfold bind at 1 in H.
  destruct (get_secret V (cp_key p) Validate (set_disk s1 c0)) as [r2 c2] eqn:GS.
  destruct (get_secret_any _ _ _ _ _ _ GS) as (D2 & T2 & C2 & ND2 & PN2 & OK2 & ER2).
  rewrite set_disk_disk in D2, C2.
  assert (W2 : only_writes s ts (disk c2)) by (eapply ow_then_disk; eauto).
  destruct r2 as [raw|e| |]; [| | |congruence].
  2:{ injection H as <- <-. split; [exact W2|]. split; [|discriminate]. intros x X. injection X as <-.
      destruct (ER2 e eq_refl) as [SE _]. intros y. cbn in SE. 
      destruct SE as [<-|[<-|[<-|[<-|[<-|[<-|[]]]]]]]; split; discriminate. }
  2:{ injection H as <- <-. split; [exact W2|]. split; discriminate. }
  (* output *)
  unfold bind at 1 in H. destruct (storage (create_or_write (os_path output)) c2) as [r3 c3] eqn:SC.
  destruct (storage_inv _ _ _ _ SC) as (r & s3 & CW & -> & ->). clear SC.
  assert (I3 : In (os_path output) ts) by (left; reflexivity).
  destruct (ow_create_or_write _ _ _ _ _ _ W2 I3 CW) as [W3 MW3].
  assert (RES3 : (exists e, r = Err e) \/ exists ho, r = Ok (EFile ho) /\ s_data s3 (h_ino ho) = [] /\ h_pos ho = 0
             /\ (no_faults (disk c2) -> no_faults s3 /\ h_plan ho = [])).
  { destruct (create_or_write_any _ _ _ _ CW) as [(e & -> & _)|(h & -> & _ & A1 & A2 & _ & _ & _ & _ & A3 & _)]; eauto 8. }
  destruct RES3 as [[e ->]|(ho & -> & DE3 & PO3 & C3)]; cbn [omap] in H.
  { injection H as <- <-. split; [exact W3|]. split; [intros x X; injection X as <-; split; discriminate|discriminate]. }
  pose proof (cow_stat _ _ _ _ CW) as ST3.
  (* header *)
  unfold bind at 1 in H. destruct (open_header p (set_disk s3 c2)) as [r4 c4] eqn:OH.
  assert (IH : forall h, cp_header p = Some h -> In (os_path h) ts).
  { intros h E. right. unfold header_targets. rewrite E. left. reflexivity. }
  assert (W3' : only_writes s ts (disk (set_disk s3 c2))) by exact W3.
  destruct (open_header_frame s ts _ _ _ _ W3' IH OH) as (W4 & NP4 & ND4 & SOME4 & NONE4 & ER4).
  destruct r4 as [fh|e| |]; try congruence.
  2:{ injection H as <- <-. split; [exact W4|]. split; [|discriminate]. intros x X. injection X as <-.
      destruct (ER4 e eq_refl) as [[<-|[<-|[]]]|[y ->]]; split; discriminate. }
  (* handles *)
  unfold bind at 1 in H. destruct FI as [->|(i & plan & -> & STI & PLI)]; cbn [try_handle] in H.
  { unfold err in H. injection H as <- <-. split; [exact W4|]. split; [intros x X; injection X as <-; split; discriminate|discriminate]. }
  unfold ret in H. unfold bind at 1 in H. cbn [try_handle] in H. unfold ret in H.
  (* encrypt *)
  unfold bind at 1 in H. rewrite on_a_run in H.
  set (hi := mkHandle (os_path input) i 0 plan) in *.
  set (req := mkEncReq (is_some (ok_handle fh)) raw (mkHT V5 a StreamMode) (cp_hashing p)) in *.
  destruct (encrypt_files V req hi ho (ok_handle fh) (c_a c4)) as [r5 a5] eqn:EF. cbn [fst snd] in H.
  destruct (encrypt_files_frame _ _ _ _ _ _ _ _ EF) as (T5 & D5 & E5 & ER5). fold (disk c4) in T5, D5, E5.
  assert (MW : forall j, In j (written ho (ok_handle fh)) -> may_write s ts j).
  { intros j [<-|I]; [apply MW3; reflexivity|].
    destruct fh as [fh|]; cbn in I; [|destruct I].
    destruct (SOME4 fh eq_refl) as (h & -> & MH & _). cbn in I. destruct I as [<-|[]]. exact MH. }
  assert (W5 : only_writes s ts (fst a5)) by (eapply ow_files; eauto).
  destruct r5 as [u|e| |].
  2:{ injection H as <- <-. split; [exact W5|]. split; [|discriminate]. intros x X. injection X as <-.
      destruct (ER5 e eq_refl) as [->|[y ->]]; split; discriminate. }
  2,3: injection H as <- <-; split; [exact W5|]; split; discriminate.
  destruct u.
  (* flush *)
  unfold bind at 1 in H. destruct (flush_opt fh (set_a a5 c4)) as [r6 c6] eqn:F6.
  destruct (flush_opt_any _ _ _ _ F6) as (D6 & T6 & _ & _ & NP6 & ND6 & ER6 & C6). rewrite set_a_disk in D6, C6.
  assert (W6 : only_writes s ts (disk c6)) by (eapply ow_then_disk; eauto).
  destruct r6 as [u|e| |]; try congruence.
  2:{ injection H as <- <-. split; [exact W6|]. split; [|discriminate]. intros x X. injection X as <-.
      destruct (ER6 e eq_refl) as [y ->]; split; discriminate. }
  unfold bind at 1 in H. destruct (storage (flush_file (EFile ho)) c6) as [r7 c7] eqn:F7.
  destruct (storage_inv _ _ _ _ F7) as (r & s7 & FF & -> & ->).
  destruct (flush_file_any _ _ _ _ FF) as (D7 & NP7 & ND7 & C7).
  assert (W7 : only_writes s ts s7) by (eapply ow_then_disk; eauto).
  destruct r as [u7|e| |]; cbn [omap] in H; try congruence.
  2:{ injection H as <- <-. split; [exact W7|]. split; [intros x X; injection X as <-; split; discriminate|discriminate]. }
  (* hash *)
  assert (HX : same_disk s7 (disk c') /\ (forall e, o = Err e -> not_erase e) /\ (no_faults s7 -> disk c' = s7)).
  { destruct (cp_hash p).
    - destruct (hash_files_any _ _ _ _ _ H) as (D8 & _ & _ & _ & ER8 & _ & _ & C8).
      rewrite set_disk_disk in D8. split; [exact D8|]. split.
      + intros e E. destruct (ER8 e E) as [->|[y ->]]; split; discriminate.
      + intros NF. destruct (C8 NF) as [CA8 _]. unfold disk at 1. rewrite CA8. reflexivity.
    - unfold ret in H. injection H as <- <-. split; [apply same_disk_refl|]. split; [discriminate|reflexivity]. }
  destruct HX as (D8 & ER8 & C8).
  split; [eapply ow_then_disk; eauto|]. split; [exact ER8|]. intros _.
  assert (D58 : same_disk (fst a5) (disk c')).
  { eapply same_disk_trans; [exact D6|]. eapply same_disk_trans; eauto. }
  assert (ALL : forall q n, stat (disk c4) q = Some n -> stat (disk c') q = Some n).
  { intros q n X. rewrite (stat_disk _ _ q D58). unfold stat in *.
    destruct T5 as (TN & TC & _). rewrite TN, (resolve_nodes true (disk c4) (fst a5)) by congruence. exact X. }
  exists i, raw, hi, ho, (ok_handle fh), (c_a c4), a5.
  (* the header opening seen as a writing step *)
  assert (H34 : only_writes s3 (header_targets p) (disk c4)
                /\ (no_faults s3 -> no_faults (disk c4))
                /\ match cp_header p with
                   | None => fh = None
                   | Some hp => exists h, fh = Some (EFile h) /\ stat (disk c4) (os_path hp) = Some (NFile (h_ino h))
                                /\ h_pos h = 0 /\ s_data (disk c4) (h_ino h) = []
                                /\ (no_faults s3 -> h_plan h = [])
                                /\ (h_ino h = s_next s3 \/ stat s3 (os_path hp) = Some (NFile (h_ino h)))
                   end
                /\ s_data (disk c4) (h_ino ho) = []).
  { unfold header_targets, open_header in *. destruct (cp_header p) as [hp|].
    - unfold bind in OH. destruct (check_or_exit hp (cp_force p) (set_disk s3 c2)) as [r cx] eqn:CKX.
      destruct (check_or_exit_any _ _ _ _ _ CKX) as (CAX & _ & RX & _).
      destruct RX as [<-|[<-|[<-|[]]]]; try discriminate OH.
      assert (DX : disk cx = s3) by (unfold disk; rewrite CAX; reflexivity).
      destruct (storage (create_or_write (os_path hp)) cx) as [ry cy] eqn:SY.
      destruct (storage_inv _ _ _ _ SY) as (r & sy & CWY & -> & ->). rewrite DX in CWY.
      destruct (ow_create_or_write s3 [os_path hp] s3 (os_path hp) r sy (ow_refl _ _) (or_introl eq_refl) CWY) as [WY _].
      destruct (create_or_write_any _ _ _ _ CWY) as [(e & -> & _)|(h & -> & _ & PY & EY & _ & _ & _ & DY & CY & WHY)];
        cbn [omap] in OH; [discriminate|]. unfold ret in OH. injection OH as <- <-. rewrite set_disk_disk.
      split; [exact WY|]. split; [intros NF; apply (CY NF)|]. split.
      + exists h. split; [reflexivity|]. split; [eapply cow_stat; eauto|]. split; [exact PY|]. split; [exact EY|].
        split; [intros NF; apply (CY NF)|].
        destruct WHY as [(q & _ & _ & X & _)|(X & _)]; auto.
      + destruct (Nat.eq_dec (h_ino ho) (h_ino h)) as [E|NE]; [rewrite E; exact EY|].
        rewrite (DY _ NE). exact DE3.
    - unfold ret in OH. injection OH as <- <-. rewrite set_disk_disk. split; [apply ow_refl|]. auto. }
  destruct H34 as (W34 & C34 & HH & DE4).
  assert (CALM : no_faults s -> no_faults (disk c') /\ plan = [] /\ no_faults s3 /\ h_plan ho = []).
  { intros NF. assert (NF1 : no_faults s1) by (rewrite (C1 NF); exact NF).
    destruct (C3 (C2 NF1)) as [NF3 P3].
    assert (NF5 : no_faults (fst a5)).
    { destruct (C34 NF3) as [X Y]. destruct T5 as (_ & _ & _ & _ & X' & Y'). split; congruence. }
    assert (NF6 : no_faults (disk c6)).
    { unfold flush_opt in F6. destruct fh as [fh|].
      - destruct (storage_inv _ _ _ _ F6) as (rz & sz & FZ & _ & ->). rewrite set_disk_disk.
        destruct (flush_file_any _ _ _ _ FZ) as (_ & _ & _ & CZ). rewrite set_a_disk in CZ.
        destruct (CZ NF5) as [-> _]. exact NF5.
      - unfold ret in F6. injection F6 as _ <-. exact NF5. }
    destruct (C7 NF6) as [-> _]. split; [rewrite (C8 NF6); exact NF6|]. auto. }
  split.
  2:{ fold s. intros A.
    destruct (oa_read_file _ _ _ _ RF' A) as [A1 PI].
    assert (A2 : all_or_nothing (disk c2)).
    { apply (an_secret _ _ _ _ _ _ GS). rewrite set_disk_disk. exact A1. }
    destruct (oa_create_or_write _ _ _ _ CW A2) as [A3 PO].
    split; [apply (PI hi); reflexivity|]. split; [apply PO; reflexivity|].
    intros h EH. unfold open_header in OH. destruct (cp_header p) as [hp|]; [|unfold ret in OH; injection OH as <- <-; discriminate EH].
    unfold bind in OH. destruct (check_or_exit hp (cp_force p) (set_disk s3 c2)) as [rk ck] eqn:CKH.
    destruct (check_or_exit_any _ _ _ _ _ CKH) as (CAX & _ & RX & _).
    destruct RX as [<-|[<-|[<-|[]]]]; try discriminate OH.
    assert (DX : disk ck = s3) by (unfold disk; rewrite CAX; reflexivity).
    destruct (storage (create_or_write (os_path hp)) ck) as [ry cy] eqn:SY.
    destruct (storage_inv _ _ _ _ SY) as (r & sy & CWY & -> & ->). rewrite DX in CWY.
    destruct (oa_create_or_write _ _ _ _ CWY A3) as [_ PH].
    destruct r as [e|e| |]; cbn [omap] in OH; try discriminate OH. unfold ret in OH. injection OH as <- <-.
    destruct e as [h'|]; [|discriminate EH]. cbn in EH. injection EH as ->. apply PH. reflexivity. }
  constructor.
  - exact STI.
  - exists c0, (c_tty c2). split; [exact CA|]. split; [exact CT|]. split; [exact CS|].
    apply (yields_disk V c0 (set_disk s1 c0)); [rewrite S0; exact D1|reflexivity|reflexivity|].
    apply OK2. reflexivity.
  - split; reflexivity.
  - split; [|exact PO3]. apply ALL. eapply ow_stat_kept; eauto.
  - destruct (cp_header p) as [hp|].
    + destruct HH as (h & -> & STH & PH & EH & _). exists h. split; [reflexivity|]. split; [apply ALL; exact STH|].
      split; assumption.
    + subst fh. reflexivity.
  - exact DE4.
  - exact W4.
  - exact EF.
  - exact D58.
  - intros IO hp h E1 E2 [DF1 DF2] EQ. rewrite E1 in HH. destruct HH as (h' & -> & _ & _ & _ & _ & WHY).
    cbn in E2. injection E2 as ->.
    destruct (create_or_write_any _ _ _ _ CW)
      as [(e & X & _)|(h0 & X & _ & _ & _ & _ & _ & _ & _ & _ & NEW)]; [discriminate|].
    injection X as <-.
    destruct WHY as [X|STH].
    + rewrite X in EQ. destruct NEW as [(q & _ & _ & HI & NX & _)|(STO & NX & _)]; [lia|].
      assert (L : h_ino ho < s_next s).
      { rewrite (stat_disk s (disk c2)) in STO.
        - unfold stat in STO. destruct (resolve true s (os_path output)) as [r1|]; [|discriminate].
          exact (IO _ _ STO).
        - eapply same_disk_trans; eauto. }
      pose proof (ow_next _ _ _ W3). lia.
    + assert (D02 : same_disk s (disk c2)) by (eapply same_disk_trans; eauto).
      destruct NEW as [(q & RQ & LQ & HI & NX & N & _)|(STO & NX & N & _)].
      * pose proof (ow_resolve true _ _ _ (os_path hp) W3) as RH.
        unfold stat in STH. rewrite RH in STH.
        destruct (resolve true s (os_path hp)) as [r2|] eqn:R2; [|discriminate].
        rewrite N, lookup_add in STH by exact LQ.
        destruct (cpath_eqb r2 q) eqn:EQ2.
        -- apply cpath_eqb_eq in EQ2. subst r2. apply DF1. fold s. rewrite R2.
           rewrite <- (ow_resolve true _ _ _ (os_path output) W3).
           unfold stat in ST3. destruct (resolve true s3 (os_path output)) as [r1|] eqn:R1; [|discriminate].
           assert (X : r1 = q); [|congruence].
           apply (resolve_missing (disk c2) (os_path output) r1 q RQ LQ).
           rewrite (ow_resolve true _ _ _ _ W3) in R1. rewrite (resolve_disk true s (disk c2)) by exact D02. exact R1.
        -- assert (DN : s_nodes (disk c2) = s_nodes s) by apply D02.
           rewrite DN in STH. specialize (IO _ _ STH).
           assert (DX : s_next (disk c2) = s_next s) by apply D02. fold s in IO. lia.
      * apply (DF2 (h_ino ho)).
        -- fold s. rewrite <- (stat_disk s (disk c2)) by exact D02. exact STO.
        -- fold s. rewrite EQ, <- STH. rewrite <- (stat_disk s (disk c2)) by exact D02.
           unfold stat. rewrite N, (resolve_nodes true (disk c2) s3); [reflexivity|exact N|].
           rewrite (ow_cwd _ _ _ W3), (ow_cwd _ _ _ W2). reflexivity.
  - intros NF. destruct (CALM NF) as (NF' & PL & NF3 & P3). split; [exact NF'|]. split; [exact PL|].
    split; [exact P3|]. intros h E. destruct (cp_header p) as [hp|].
    + destruct HH as (h' & -> & _ & _ & _ & PH & _). cbn in E. injection E as <-. apply PH, NF3.
    + subst fh. discriminate E.
Qed.
