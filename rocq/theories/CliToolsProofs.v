(** Proofs about the functions behind the subcommands [header] and [key]. *)
From Coq Require Import List Arith NArith ZArith Ascii String Bool Lia.
From Verif Require Import Bytes Outcome IO Primitives Crypto Header Stream KeyModel EncDec KeyOps HeaderOps.
From Verif Require Import Overwrite Hash FS Erase Archive Cli CliTools.
From Verif Require Import BytesFacts HeaderSpec HeaderFacts HeaderProofs IOSpec IOFacts FileSpec FileFacts FileProofs.
From Verif Require Import KeySpec KeyFacts KeyProofs DecSim KeyResults HeaderOpsProofs WorldFrames KeyHistory.
From Verif Require Import FSSpec FSFacts ArchiveSpec EraseProofs UnpackProofs PackProofs ToolSpec ToolProofs.
From Verif Require Import CliSpec CliKeys CliRuns CliProofs CliToolsSpec CliToolsRuns.
Import ListNotations.
Local Open Scope nat_scope.
Local Open Scope list_scope.

(** ** Sessions *)

Lemma tool_keeps_names : forall V input t c o c', env_ok (ce_E V) -> run_tool V input t c = (o, c') ->
  s_nodes (disk c') = s_nodes (disk c) /\ s_cwd (disk c') = s_cwd (disk c).
Proof.
  intros V input t c o c' HE H.
  destruct (run_tool_any _ _ _ _ _ _ HE H) as (_ & _ & [(_ & (A & _ & _ & B & _))|(_ & i & _ & ((A & _ & _ & B & _) & _))] & _);
    auto.
Qed.

Lemma session_holds : forall V input i, env_ok (ce_E V) -> forall l a h hdr body ops,
  no_faults (fst a) -> stat (fst a) (os_path input) = Some (NFile i) ->
  ht_version (h_type h) = V5 -> well_formed_file h hdr body (s_data (fst a) i) ->
  session_ops V input l a ops ->
  let r := run_session V input l a in
  let q := run_all (ce_E V) (made_ops ops) (s_data (fst a) i) in
  outcomes_of ops (fst q) (fst r) /\ s_data (fst (snd r)) i = snd q
  /\ stat (fst (snd r)) (os_path input) = Some (NFile i) /\ no_faults (fst (snd r)).
Proof.
  intros V input i HE l. induction l as [|[t [stdin tty]] l IH]; intros a h hdr body ops NF ST V5H W S r q.
  - inversion S; subst. split; [constructor|]. auto.
  - unfold r, q. clear r q.
    set (c := mkCli a stdin tty []) in *.
    destruct (run_tool V input t c) as [o c'] eqn:RT.
    destruct (run_tool_any _ _ _ _ _ _ HE RT) as (_ & _ & _ & EFF & CALM).
    destruct (tool_keeps_names _ _ _ _ _ _ HE RT) as [NN NC].
    assert (ST' : stat (fst (c_a c')) (os_path input) = Some (NFile i)).
    { rewrite <- ST. unfold stat. change (fst (c_a c')) with (disk c').
      rewrite (resolve_nodes true (disk c) (disk c') _ NN NC), NN. reflexivity. }
    destruct (wff_aad _ _ _ _ W) as [aad AAD].
    pose proof (wff_deserialize _ _ _ _ _ [] W AAD) as DS.
    destruct (EFF i ST NF) as [EV _].
    assert (DSX : exists d2 hd2 aad2, deserialize (dev_at (s_data (disk c) i) 0) = (Ok (hd2, aad2), d2) /\ version_of hd2 = V5).
    { do 3 eexists. split; [exact DS|]. unfold version_of, reread. rewrite V5H. exact V5H. }
    destruct DSX as (d2 & hd2 & aad2 & DS2 & VV). destruct (EV _ _ _ DS2 VV) as [EOP ENO].
    cbn [run_session]. fold c. rewrite RT. cbn [fst snd].
    inversion S as [|? ? ? ? ? op ops' c0 SUP REST|? ? ? ? ? ops' c0 SUP REST]; subst.
    + change (supplies V c t op) in SUP.
      assert (REST' : session_ops V input l (c_a c') ops').
      { replace (c_a c') with (c_a (snd (run_tool V input t c))) by (rewrite RT; reflexivity). exact REST. }
      destruct (EOP op SUP) as [-> DATA].
      destruct (run_on_wff (ce_E V) (op, s_rng (fst a)) h hdr body (s_data (fst a) i) HE V5H W) as (h' & hdr' & V' & W').
      change (s_data (disk c') i) with (s_data (fst (c_a c')) i) in DATA.
      change (s_rng (disk c)) with (s_rng (fst a)) in DATA. change (s_data (disk c) i) with (s_data (fst a) i) in DATA.
      rewrite <- DATA in W'.
      destruct (IH (c_a c') h' hdr' body ops' (CALM NF) ST' V' W' REST') as (A & B & C & D).
      cbn [made_ops run_all]. rewrite DATA in A, B. cbn [fst snd].
      split; [constructor; exact A|]. auto.
    + change (forall op, ~ supplies V c t op) in SUP.
      assert (REST' : session_ops V input l (c_a c') ops').
      { replace (c_a c') with (c_a (snd (run_tool V input t c))) by (rewrite RT; reflexivity). exact REST. }
      destruct (ENO SUP) as [UN OUT].
      assert (DATA : s_data (fst (c_a c')) i = s_data (fst a) i) by (apply (un_data _ _ _ UN)).
      rewrite <- DATA in W.
      destruct (IH (c_a c') h hdr body ops' (CALM NF) ST' V5H W REST') as (A & B & C & D).
      cbn [made_ops]. rewrite DATA in A, B. split; [constructor; assumption|]. auto.
Qed.

Lemma supplied_or_not : forall V c t, no_faults (disk c) ->
  (exists op, supplies V c t op) \/ forall op, ~ supplies V c t op.
Proof.
  intros V c t NF. destruct (take_keys V t c) as [o c'] eqn:TK.
  destruct (take_keys_any _ _ _ _ _ TK) as (_ & ND & NP & OK & ER).
  destruct o as [op|e| |]; [left; eauto|right; apply (ER e eq_refl); exact NF| |congruence].
  right. intros op S. destruct (NP eq_refl) as (k & IK & n & -> & GP).
  assert (NY : forall c0 st l t0, ~ yields V c0 (Generate n) st l t0).
  { intros c0 st l t0 Y. inversion Y. congruence. }
  destruct t as [ko kn ha|ko kn ha|k|k], op; cbn [supplies tool_keys] in S, IK; try contradiction.
  - destruct S as [_ (t1 & t2 & Y1 & Y2)]. destruct IK as [->|[->|[]]]; eapply NY; eauto.
  - destruct S as [_ (t1 & t2 & Y1 & Y2)]. destruct IK as [->|[->|[]]]; eapply NY; eauto.
  - destruct S as [t1 Y1]. destruct IK as [->|[]]; eapply NY; eauto.
  - destruct S as [t1 Y1]. destruct IK as [->|[]]; eapply NY; eauto.
Qed.

Lemma session_ops_exist : forall V input, env_ok (ce_E V) -> forall l a, no_faults (fst a) ->
  exists ops, session_ops V input l a ops.
Proof.
  intros V input HE l. induction l as [|[t [stdin tty]] l IH]; intros a NF; [eexists; constructor|].
  set (c := mkCli a stdin tty []).
  destruct (run_tool V input t c) as [o c'] eqn:RT.
  destruct (run_tool_any _ _ _ _ _ _ HE RT) as (_ & _ & _ & _ & CALM).
  assert (X : exists ops, session_ops V input l (c_a (snd (run_tool V input t c))) ops).
  { rewrite RT. apply IH. apply CALM. exact NF. }
  destruct X as [ops X]. destruct (supplied_or_not V c t NF) as [[op S]|S].
  - exists (Some (op, s_rng (fst a)) :: ops). apply so_op; assumption.
  - exists (None :: ops). apply so_no_key; assumption.
Qed.

Lemma existsb_bytes_in : forall pw l, existsb (Bytes.bytes_eqb pw) l = true <-> In pw l.
Proof.
  intros pw l. rewrite existsb_exists. split.
  - intros (x & I & E). apply bytes_eqb_eq in E. subst x. exact I.
  - intros I. exists pw. split; [exact I|]. apply bytes_eqb_eq. reflexivity.
Qed.

Lemma session_keys : forall V input i req w w' a l ops pw, env_ok (ce_E V) ->
  ht_version (er_header_type req) = V5 -> er_detached req = false ->
  d_plan (w_in w) = [] -> d_plan (w_out w) = [] -> d_data (w_out w) = [] ->
  encrypt_execute (ce_E V) req w = (Ok tt, w') ->
  no_faults (fst a) -> stat (fst a) (os_path input) = Some (NFile i) ->
  s_data (fst a) i = d_data (w_out w') ->
  session_ops V input l a ops ->
  let E := ce_E V in
  let r := run_session V input l a in
  let data := s_data (fst (snd r)) i in
  let q := run_all E (made_ops ops) (s_data (fst a) i) in
  outcomes_of ops (fst q) (fst r)
  /\ ((exists n, n <= List.length (made_ops ops)
         /\ crossed E (pw :: er_raw_key req :: passwords (made_ops ops))
              (snd (run_all E (firstn n (made_ops ops)) (s_data (fst a) i))))
      \/ exists keys, follow (made_ops ops) (fst q) [er_raw_key req] = Some keys
         /\ List.length keys <= 4
         /\ (In pw keys -> recovers E pw data None (d_data (w_in w)))
         /\ (~ In pw keys -> forall v, w_in v = dev_at data 0 -> d_plan (w_out v) = [] ->
               exists e v', decrypt_execute E false pw v = (Err e, v') /\ w_out v' = w_out v)).
Proof.
  intros V input i req w w' a l ops pw HE HV HD PI PO DO ENC NF ST DATA S E r data q.
  destruct (encrypt_wff _ _ _ _ HE HV HD PO DO ENC) as (h & hdr & body & VH & W).
  rewrite <- DATA in W.
  destruct (session_holds V input i HE l a h hdr body ops NF ST VH W S) as (OUT & FIN & _ & _).
  fold E r q data in OUT, FIN. split; [exact OUT|].
  pose proof (history_follow_holds (ce_E V) req w w' (made_ops ops) pw HE HV HD PI PO DO ENC) as H31.
  cbv zeta in H31. rewrite <- DATA in H31. fold E q in H31.
  destruct H31 as [X|(keys & FO & _ & _ & (hh & slots & _ & LS & L4) & DEC)]; [left; exact X|right].
  exists keys. split; [exact FO|]. split; [rewrite <- LS; exact L4|]. rewrite <- FIN in DEC. split.
  - intros IN. apply existsb_bytes_in in IN. rewrite IN in DEC. apply recovers_of.
    intros v P1 P2 P3 Q1 Q2 Q3 _ Q4 Q5. apply DEC; [|exact P2].
    destruct (w_in v) as [dd dp dpl dl]. cbn in *. subst. reflexivity.
  - intros NI. destruct (existsb (Bytes.bytes_eqb pw) keys) eqn:X; [apply existsb_bytes_in in X; contradiction|].
    exact DEC.
Qed.

(** ** The details of a header *)

Lemma parsed_shape : forall d h aad d', deserialize d = (Ok (h, aad), d') ->
  match ht_version (h_type h) with
  | V1 | V2 | V3 => h_keyslots h = None /\ exists s, h_salt h = Some s
  | V4 => exists k, h_keyslots h = Some [k] /\ h_salt h = Some (ks_salt k) /\ known_hash (ks_hash k)
  | V5 => h_salt h = Some (zeros 16)
          /\ exists l, h_keyslots h = Some l /\ Forall (fun k => known_hash (ks_hash k)) l
               /\ List.length l <= 4
  end.
Proof.
  intros d h aad d' H. pose proof (deserialize_spec _ _ _ H) as (_ & _ & _ & SP). cbv zeta in SP.
  destruct SP as (LEN & _ & P & _).
  set (v := ht_version (h_type h)) in *. set (full := firstn _ _) in *.
  rewrite parse_header_eq in P by exact LEN.
  destruct (parse_algorithm (slice 2 2 full)) as [a|]; [|discriminate].
  destruct (parse_mode (slice 4 2 full)) as [m|]; [|discriminate].
  unfold parsed in P. cbn [ht_version ht_algorithm ht_mode] in P. cbv zeta in P.
  destruct v eqn:EV; cbn [get_size] in LEN.
  1,2,3: injection P as <- _; split; [reflexivity|eexists; reflexivity].
  - injection P as <- _. eexists. split; [reflexivity|]. split; [reflexivity|]. cbn. auto.
  - destruct (parse_slots_total 4 a [] (skipn 32 full)) as [(new & N1 & N2 & N3 & _)|(N1 & _)];
      [rewrite skipn_length; lia| |]; rewrite N1 in P; [|discriminate].
    injection P as <- _. split; [reflexivity|]. cbn [app h_keyslots]. eexists. split; [reflexivity|].
    split; [|exact N3]. eapply Forall_impl; [|exact N2]. intros k [_ K]. exact K.
Qed.

Lemma say_lines_run : forall l c, say_lines l c = (Ok tt, printed (map NLine l) c).
Proof.
  induction l as [|x l IH]; intros c; cbn [say_lines map].
  - unfold printed. rewrite app_nil_r. unfold ret. rewrite <- cli_eta. reflexivity.
  - unfold bind. rewrite say_run, IH. unfold printed. cbn [c_a c_stdin c_tty c_out]. rewrite <- app_assoc. reflexivity.
Qed.

Lemma detail_lines_some : forall d h aad d', deserialize d = (Ok (h, aad), d') ->
  exists l, detail_lines h aad = Some l.
Proof.
  intros d h aad d' H. apply parsed_shape in H. unfold detail_lines.
  destruct (ht_version (h_type h)).
  1,2,3: destruct H as (_ & s & ->); eexists; reflexivity.
  - destruct H as (k & -> & _). eexists. reflexivity.
  - destruct H as (_ & l & -> & _). eexists. reflexivity.
Qed.

Lemma details_any : forall input c o c', details input c = (o, c') ->
  unchanged (disk c) (disk c') /\ asks_nothing c c'
  /\ ((exists e, o = Err e /\ c_out c' = c_out c
         /\ (no_faults (disk c) -> forall i, stat (disk c) (os_path input) = Some (NFile i) ->
               exists e' d', deserialize (dev_at (s_data (disk c) i) 0) = (Err e', d')))
      \/ (o = Ok tt /\ exists i plan h aad d' ls, stat (disk c) (os_path input) = Some (NFile i)
            /\ deserialize (mkDev (s_data (disk c) i) 0 plan []) = (Ok (h, aad), d')
            /\ (no_faults (disk c) -> plan = [])
            /\ detail_lines h aad = Some ls /\ c_out c' = c_out c ++ map NLine ls)).
Proof.
  intros input c o c' H. unfold details, open_ro in H. unfold bind at 1 in H. rewrite on_fs_run in H.
  destruct (open_rw (os_path input) (disk c)) as [r s1] eqn:OR. cbn [fst snd] in H.
  destruct (open_rw_any _ _ _ _ OR) as (D & RG & CA & CASES). apply un_disk in D.
  destruct CASES as [(i & plan & -> & ST & PL)|(-> & NO)].
  2:{ injection H as <- <-. split; [exact D|]. split; [split; reflexivity|]. left. exists TOpen.
      split; [reflexivity|]. split; [reflexivity|]. intros N i SI. destruct (NO N i SI). }
  unfold bind in H. set (h := mkHandle (os_path input) i 0 plan) in *. set (c1 := set_disk s1 c) in *.
  destruct (on_handle _ h c1) as [r2 c2] eqn:D2.
  destruct (on_handle_reads _ _ _ _ _ _ still_deserialize D2)
    as (o0 & d & DS & -> & P2 & U2 & R2 & N2 & T2 & (A2 & B2) & O2).
  unfold c1 in *. rewrite set_disk_disk in *. change (handle_dev s1 h) with (mkDev (s_data s1 i) 0 plan []) in DS.
  rewrite (un_data _ _ _ D) in DS.
  assert (U : unchanged (disk c) (disk c2)) by (eapply un_trans; eauto).
  pose proof (deserialize_spec _ _ _ DS) as (_ & _ & _ & SP).
  destruct o0 as [[hd aad]|e| |]; try contradiction.
  2:{ injection H as <- <-. split; [exact U|]. split; [split; assumption|]. left. exists TNoHeader.
      split; [reflexivity|]. split; [exact O2|]. intros N j SJ. rewrite ST in SJ. injection SJ as <-.
      rewrite (PL N) in DS. eauto. }
  cbn [fst snd] in H. destruct (detail_lines_some _ _ _ _ DS) as [ls LS]. rewrite LS in H.
  unfold up in H. rewrite map_err_run, say_lines_run in H. cbn [fst snd omap] in H. injection H as <- <-.
  split; [exact U|]. split; [split; assumption|]. right. split; [reflexivity|].
  exists i, plan, hd, aad, d, ls. do 4 (split; [assumption|]).
  unfold printed. cbn [c_out]. rewrite O2. reflexivity.
Qed.

Lemma append_inj_l : forall a x y, (a ++ x = a ++ y)%string -> x = y.
Proof. induction a as [|ch a IH]; intros x y H; [exact H|]. cbn in H. injection H as H. auto. Qed.
Lemma append_length : forall a b, String.length (a ++ b) = String.length a + String.length b.
Proof. induction a as [|ch a IH]; intros b; [reflexivity|]. cbn. rewrite IH. reflexivity. Qed.
Lemma append_inj_r : forall a x y, (x ++ a = y ++ a)%string -> x = y.
Proof.
  intros a x. induction x as [|ch x IH]; intros y H.
  - destruct y as [|c y]; [reflexivity|]. exfalso. apply (f_equal String.length) in H.
    rewrite !append_length in H. cbn in H. lia.
  - destruct y as [|c y].
    + exfalso. apply (f_equal String.length) in H. rewrite !append_length in H. cbn in H. lia.
    + cbn in H. injection H as -> H. f_equal. auto.
Qed.
Lemma hex_line : forall a b l l', (a ++ hex_encode l ++ b = a ++ hex_encode l' ++ b)%string -> l = l'.
Proof.
  intros a b l l' H. apply append_inj_l in H. apply append_inj_r in H. symmetry.
  eapply (proj2 (proj2 (proj2 (hex_holds l)))). symmetry. exact H.
Qed.
Lemma cons_inv : forall {A} (x y : A) l m, x :: l = y :: m -> x = y /\ l = m.
Proof. intros A x y l m H. injection H as -> ->. auto. Qed.

Lemma some_inv : forall {A} (x y : A), Some x = Some y -> x = y.
Proof. intros A x y H. injection H as ->. reflexivity. Qed.

Lemma show_hashing_inj : forall h h', known_hash h -> known_hash h' -> show_hashing h = show_hashing h' -> h = h'.
Proof.
  intros h h' K K'. unfold known_hash in K, K'. cbn [In] in K, K'.
  repeat (destruct K as [<-|K]); try contradiction;
    repeat (destruct K' as [<-|K']); try contradiction; vm_compute; intros H; try reflexivity; discriminate.
Qed.

Lemma slots_lines_inj : forall l l' i, Forall (fun k => known_hash (ks_hash k)) l ->
  Forall (fun k => known_hash (ks_hash k)) l' -> slots_lines i l = slots_lines i l' -> l = l'.
Proof.
  induction l as [|k l IH]; intros [|k' l'] i F F' H; [reflexivity|discriminate|discriminate|].
  inversion F; inversion F'; subst. cbn [slots_lines slot_lines app] in H.
  apply cons_inv in H as [_ H]. apply cons_inv in H as [E1 H]. apply cons_inv in H as [E2 H].
  apply cons_inv in H as [E3 H]. apply cons_inv in H as [E4 H].
  apply append_inj_l in E1. apply show_hashing_inj in E1; try assumption.
  apply hex_line in E2, E3, E4. f_equal; [|eapply IH; eauto].
  destruct k, k'. cbn in *. congruence.
Qed.

Lemma detail_lines_inj : forall d h aad d' e h2 aad2 e' ls,
  deserialize d = (Ok (h, aad), d') -> deserialize e = (Ok (h2, aad2), e') ->
  detail_lines h aad = Some ls -> detail_lines h2 aad2 = Some ls -> h = h2 /\ aad = aad2.
Proof.
  intros d h aad d' e h2 aad2 e' ls D E L L2. apply parsed_shape in D, E.
  destruct h as [[v a m] n s k], h2 as [[v2 a2 m2] n2 s2 k2]. unfold detail_lines in L, L2.
  cbn [h_type ht_version ht_algorithm ht_mode h_nonce h_salt h_keyslots] in *.
  set (first := fun v a m n aad =>
    ["Header version: " ++ show_version v; "Encryption algorithm: " ++ show_algorithm a;
     "Encryption mode: " ++ show_mode m; "Encryption nonce: " ++ hex_encode n ++ " (hex)";
     "AAD: " ++ hex_encode aad ++ " (hex)"]%string).
  assert (FI : forall r r2, first v a m n aad ++ r = first v2 a2 m2 n2 aad2 ++ r2 ->
     v = v2 /\ a = a2 /\ m = m2 /\ n = n2 /\ aad = aad2 /\ r = r2).
  { intros r r2 H. unfold first in H. cbn [app] in H.
    apply cons_inv in H as [E1 H]. apply cons_inv in H as [E2 H]. apply cons_inv in H as [E3 H].
    apply cons_inv in H as [E4 H]. apply cons_inv in H as [E5 H].
    apply append_inj_l in E1, E2, E3. apply hex_line in E4, E5.
    split; [destruct v, v2; try discriminate; reflexivity|].
    split; [destruct a, a2; try discriminate; reflexivity|].
    split; [destruct m, m2; try discriminate; reflexivity|]. auto. }
  assert (SH : exists r r2, Some (first v a m n aad ++ r) = Some ls /\ Some (first v2 a2 m2 n2 aad2 ++ r2) = Some ls).
  { clear FI. 
    assert (X : exists r, Some (first v a m n aad ++ r) = Some ls)
      by (destruct v; [destruct s; [|discriminate]..|destruct k; [|discriminate]|destruct k; [|discriminate]]; eexists; exact L).
    assert (Y : exists r, Some (first v2 a2 m2 n2 aad2 ++ r) = Some ls)
      by (destruct v2; [destruct s2; [|discriminate]..|destruct k2; [|discriminate]|destruct k2; [|discriminate]]; eexists; exact L2).
    destruct X as [r X], Y as [r2 Y]. eauto. }
  destruct SH as (r & r2 & X & Y). rewrite <- Y in X. apply some_inv in X.
  destruct (FI r r2 X) as (<- & <- & <- & <- & <- & <-). clear X.
  assert (TAIL : forall x y, Some (first v a m n aad ++ x) = Some ls -> Some (first v a m n aad ++ y) = Some ls -> x = y).
  { intros x y A B. rewrite <- B in A. apply some_inv in A. apply app_inv_head in A. exact A. }
  split; [|reflexivity].
  destruct v.
  1,2,3: destruct D as (-> & x & ->), E as (-> & y & ->); pose proof (TAIL _ _ L L2) as T;
    apply cons_inv in T as [T _]; apply hex_line in T; subst y; reflexivity.
  - destruct D as (x & -> & -> & KX), E as (y & -> & -> & KY).
    pose proof (TAIL _ _ L L2) as T. apply slots_lines_inj in T; [|constructor; auto|constructor; auto].
    injection T as ->. reflexivity.
  - destruct D as (-> & x & -> & KX & _), E as (-> & y & -> & KY & _).
    pose proof (TAIL _ _ L L2) as T. apply slots_lines_inj in T; try assumption. subst y. reflexivity.
Qed.
