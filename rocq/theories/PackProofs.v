(** Packing: what it may do to the file system, and its temporary file. *)
From Coq Require Import List Arith NArith ZArith Lia Ascii String Bool.
From Verif Require Import Bytes Outcome IO Primitives Crypto Header Stream KeyModel EncDec Overwrite FS Erase Archive.
From Verif Require Import IOSpec IOFacts ToolSpec ToolProofs FSSpec FSFacts EraseProofs EraseDirProofs EraseSched.
From Verif Require Import ArchiveSpec ArchiveWalk ArchiveProofs WorldFrames UnpackProofs.
Import ListNotations.
Local Open Scope nat_scope.
Local Open Scope list_scope.

Lemma pack_add_state : forall bs es acc s o zs s',
  pack_add bs es acc s = ((o, zs), s') -> s' = s.
Proof.
  intros bs. induction es as [|e es IH]; intros acc s o zs s' H; cbn [pack_add] in H.
  - congruence.
  - destruct e as [h|p].
    2:{ destruct (has_name _ acc); [congruence|]. eapply IH. exact H. }
    + destruct (has_name _ acc); [congruence|].
      destruct (pack_read _ _ _ _) as [[o1 d1] d2].
      destruct o1; try congruence. eapply IH. exact H.
Qed.

(** What is added depends only on the content of the files. *)
Definition from_files (sa sb : sys) (es : list entry) : Prop :=
  forall h, In (EFile h) es -> s_data sa (h_ino h) = s_data sb (h_ino h).

Lemma pack_add_data : forall bs sa sb es acc, from_files sa sb es ->
  fst (pack_add bs es acc sa) = fst (pack_add bs es acc sb).
Proof.
  intros bs sa sb. induction es as [|e es IH]; intros acc F; cbn [pack_add]; [reflexivity|].
  assert (F' : from_files sa sb es) by (intros h Hh; apply F; right; exact Hh).
  destruct e as [h|p].
  2:{ destruct (has_name _ acc); [reflexivity|]. apply IH, F'. }
  - destruct (has_name _ acc); [reflexivity|]. unfold handle_dev.
    rewrite (F h (or_introl eq_refl)).
    destruct (pack_read _ _ _ _) as [[o1 d1] d2].
    destruct o1; try reflexivity. apply IH, F'.
Qed.

(** Files other than the output and the header file, which the caller opened. *)
Definition other (req : pack_request) (j : nat) : Prop :=
  j <> h_ino (pr_out req) /\ forall x, pr_hdr req = Some x -> j <> h_ino x.

Lemma encrypt_world : forall E bs ereq hi ho hh a o hi' ho' a', 0 < bs ->
  run_world (encrypt_execute_bs E bs ereq) hi ho hh a = ((o, (hi', ho')), a') ->
  h_ino ho <> h_ino hi -> (forall x, hh = Some x -> h_ino x <> h_ino hi) ->
  same_tree (fst a) (fst a') /\ h_ino hi' = h_ino hi /\ h_path hi' = h_path hi
  /\ (h_plan hi = [] -> h_plan hi' = [])
  /\ (forall j, j <> h_ino ho -> (forall x, hh = Some x -> j <> h_ino x) ->
        s_data (fst a') j = s_data (fst a) j)
  /\ (exists es, s_log (fst a') = s_log (fst a) ++ es
        /\ Forall (fun e => match e with
                           | FWrite j _ _ => j = h_ino ho \/ exists x, hh = Some x /\ j = h_ino x
                           | _ => False end) es).
Proof.
  intros E bs ereq hi ho hh a o hi' ho' a' B H NO NH. unfold run_world in H.
  destruct (encrypt_execute_bs _ _ _ _) as [o1 w] eqn:D.
  injection H as H1 H2 H3 H4. subst.
  apply enc_execute_frame in D; [|exact B].
  destruct D as [[DI [LI MI]] [MH MO]]. cbn [w_in w_hdr w_out] in *. cbn [fst].
  split; [destruct hh; repeat split|]. split; [reflexivity|]. split; [reflexivity|].
  split; [exact MI|]. cbn [handle_dev d_log d_data] in *. split.
  - intros j J1 J2.
    destruct hh as [x|]; cbn [put_opt opt_dev handle_dev] in *;
      cbn [put_handle with_rng with_data s_data].
    + rewrite set_data_neq by (apply J2; reflexivity). rewrite set_data_neq by exact J1.
      unfold set_data. destruct (j =? h_ino hi) eqn:E3; [|reflexivity].
      apply Nat.eqb_eq in E3. subst. exact DI.
    + rewrite set_data_neq by exact J1.
      unfold set_data. destruct (j =? h_ino hi) eqn:E3; [|reflexivity].
      apply Nat.eqb_eq in E3. subst. exact DI.
  - destruct hh as [x|]; cbn [put_opt put_handle with_rng with_data s_log]; rewrite LI; cbn [map];
      rewrite app_nil_r; rewrite <- ?app_assoc; eexists; (split; [reflexivity|]).
    + apply Forall_app. split; apply Forall_forall; intros e He; apply in_map_iff in He;
        destruct He as [v [Ev _]]; subst e; eauto.
    + apply Forall_forall; intros e He; apply in_map_iff in He; destruct He as [v [Ev _]]; subst e; auto.
Qed.

Section Pack.

Variables (E : env) (Z : zip_env) (pick : rng -> string * rng) (bs : nat) (req : pack_request) (s : sys).

Hypothesis BS : 0 < bs.
Hypothesis HO : h_ino (pr_out req) < s_next s.
Hypothesis HH : forall x, pr_hdr req = Some x -> h_ino x < s_next s.

Notation made := (temp_made True s).

Definition out_event (e : fsev) : Prop :=
  match e with
  | FWrite j _ _ => j = h_ino (pr_out req) \/ exists x, pr_hdr req = Some x /\ j = h_ino x
  | _ => False
  end.

(** After the archive was encrypted, whatever the result. *)
Record sealed (s1 s2 : sys) : Prop := {
  sl_tree : same_tree s1 s2;
  sl_data : forall j, other req j -> s_data s2 j = s_data s1 j;
  sl_log : exists es, s_log s2 = s_log s1 ++ es /\ Forall out_event es
}.

Definition collected (zs : list zent) (o : outcome pack_error unit) : Prop :=
  (forall h, In (EFile h) (pr_files req) -> h_ino h < s_next s) ->
  fst (pack_add bs (pr_files req) [] s) = (o, zs).

Definition encreq := mkEncReq (match pr_hdr req with Some _ => true | None => false end)
  (pr_raw_key req) (pr_header_type req) (pr_hashing_algorithm req).

Inductive pstages (tr : trace) (r : outcome pack_error unit) (s' : sys) : Prop :=
| ps_temp : same_disk s s' -> r = Err PkCreateArchive -> create_temp_file pick s = (Err StCreateFile, s') ->
    pstages tr r s'
| ps_early : forall T zs oz, resolve false s (temp_path pick s) = Some T -> lookup (s_nodes s) T = None ->
    made T s' ->
    (no_faults s -> s_data s' (s_next s) = z_encode Z (pr_compression req) zs) ->
    collected zs oz -> (no_faults s -> oz <> Ok tt) ->
    r <> Ok tt -> r <> Err PkCreateArchive -> (forall e, r <> Err (PkEncrypt e)) -> pstages tr r s'
| ps_encrypt : forall T s1,
    resolve false s (temp_path pick s) = Some T -> lookup (s_nodes s) T = None ->
    made T s1 -> sealed s1 s' -> (r = Panic \/ r = Diverge) ->
    (exists w oe w', encrypt_execute_bs E bs encreq w = (oe, w') /\ (oe = Panic \/ oe = Diverge)) ->
    pstages tr r s'
| ps_wipe : forall T zs h1 a1 h hx a2 cap oe o6,
    resolve false s (temp_path pick s) = Some T -> lookup (s_nodes s) T = None ->
    made T (fst a1) ->
    (no_faults s -> s_data (fst a1) (s_next s) = z_encode Z (pr_compression req) zs) ->
    collected zs (Ok tt) ->
    snd a1 = tr -> s_rng (fst a1) = snd (pick (s_rng s)) ->
    h_ino h1 = s_next s -> (no_faults s -> h_plan h1 = []) ->
    run_world (encrypt_execute_bs E bs encreq) h1 (pr_out req) (pr_hdr req) a1 = ((oe, (h, hx)), a2) ->
    oe <> Panic -> oe <> Diverge ->
    sealed (fst a1) (fst a2) ->
    h_ino h = s_next s -> h_path h = temp_path pick s -> (no_faults s -> h_plan h = []) ->
    cap = List.length (s_data (fst a1) (s_next s)) ->
    wipe_temp h cap 2 (fst a2) = (o6, s') ->
    r = (match o6 with
         | Ok _ => match oe with Ok a => Ok a | Err e => Err (PkEncrypt e) | Panic => Panic | Diverge => Diverge end
         | Err e => Err PkFinishArchive | Panic => Panic | Diverge => Diverge end) ->
    pstages tr r s'.

(** Errors of the first half. *)
Definition early_error (o : outcome pack_error unit) : Prop :=
  o <> Err PkCreateArchive /\ forall e, o <> Err (PkEncrypt e).

Lemma pack_read_error : forall n acc d o l d',
  pack_read n bs acc d = ((o, l), d') -> early_error o.
Proof.
  unfold early_error. induction n as [|n IH]; intros acc d o l d' PR; cbn [pack_read] in PR.
  - injection PR as P1 _ _. subst. split; [|intros e]; discriminate.
  - destruct (dev_read bs d) as [og dx]. destruct og as [got|er| |].
    + destruct (List.length got =? bs); [eapply IH; eauto|].
      injection PR as P1 _ _; subst; split; [|intros e]; discriminate.
    + injection PR as P1 _ _; subst; split; [|intros e]; discriminate.
    + injection PR as P1 _ _; subst; split; [|intros e]; discriminate.
    + injection PR as P1 _ _; subst; split; [|intros e]; discriminate.
Qed.

Lemma pack_add_error : forall es acc sx o l s', pack_add bs es acc sx = ((o, l), s') -> early_error o.
Proof.
  unfold early_error.
  induction es as [|e es IH]; intros acc sx o l s' ADD; cbn [pack_add] in ADD.
  - injection ADD as A1 _ _. subst. split; [|intros e]; discriminate.
  - destruct e as [h|p].
    2:{ destruct (has_name _ acc); [|eapply IH; eauto].
        injection ADD as A1 _ _. subst. split; [|intros e]; discriminate. }
    + destruct (has_name _ acc); [injection ADD as A1 _ _; subst; split; [|intros e]; discriminate|].
      destruct (pack_read _ _ _ _) as [[o1 d1] d2] eqn:PR. apply pack_read_error in PR.
      destruct o1; [eapply IH; eauto| | |]; injection ADD as A1 _ _; subst; exact PR.
Qed.

Lemma pack_stages : forall tr r a',
  pack_execute_bs E Z pick bs req (s, tr) = (r, a') -> pstages tr r (fst a').
Proof.
  intros tr r a' H. unfold pack_execute_bs in H. apply bind_inv in H.
  assert (CT : forall o1 a1, map_err (fun _ => PkCreateArchive) (on_sys (create_temp_file pick)) (s, tr) = (o1, a1) ->
    snd a1 = tr /\ ((same_disk s (fst a1) /\ o1 = Err PkCreateArchive
       /\ create_temp_file pick s = (Err StCreateFile, fst a1))
    \/ exists T plan, resolve false s (temp_path pick s) = Some T /\ lookup (s_nodes s) T = None
       /\ o1 = Ok (EFile (mkHandle (temp_path pick s) (s_next s) 0 plan))
       /\ made T (fst a1) /\ s_data (fst a1) (s_next s) = [] /\ (no_faults s -> plan = [])
       /\ s_rng (fst a1) = snd (pick (s_rng s)))).
  { intros o1 a1 C. unfold map_err in C.
    destruct (on_sys (create_temp_file pick) (s, tr)) as [o2 a2] eqn:C2.
    apply zoom_inv in C2. destruct C2 as [s1 [C2 EA]]. cbn [fst snd] in *. subst a2.
    pose proof C2 as C3. apply (create_temp_any True) in C2.
    destruct C2 as [[SD E1]|[T [plan [RT [LT [E1 [TM [ZD PL]]]]]]]]; subst o2; injection C as C1 C2; subst;
      cbn [fst snd]; (split; [reflexivity|]).
    - left. auto.
    - right. exists T, plan. do 6 (split; [auto|]).
      unfold create_temp_file in C3. destruct (pick (s_rng s)) as [n g]. apply create_file_any in C3.
      destruct C3 as [[X _]|[? [? [_ [_ [_ [_ [_ [_ [_ [_ [X _]]]]]]]]]]]]; [discriminate|].
      rewrite X. reflexivity. }
  destruct H as [[tmp [a1 [H1 H]]]|H].
  2:{ assert (X : exists o1, map_err (fun _ => PkCreateArchive) (on_sys (create_temp_file pick)) (s, tr) = (o1, a')
        /\ (forall v, o1 <> Ok v) /\ (forall e, o1 = Err e -> r = Err e)).
      { destruct H as [[e [H1 X]]|[[H1 X]|[H1 X]]]; eexists; (split; [exact H1|]);
          (split; [discriminate|]); congruence. }
      destruct X as [o1 [X1 [X2 X3]]]. apply CT in X1.
      destruct X1 as [_ [[SD [X C]]|[T [plan [_ [_ [X _]]]]]]]; [|exfalso; eapply X2; eauto].
      apply ps_temp; auto. }
  apply CT in H1. destruct H1 as [ETR [[_ [X _]]|[T [plan [RT [LT [X [TM1 [ZD [PL RG]]]]]]]]]]; [discriminate|].
  apply Ok_inj in X. subst tmp. clear CT.
  set (h0 := mkHandle (temp_path pick s) (s_next s) 0 plan) in *.
  (* the archive *)
  assert (PA : forall o2 h2 s2, pack_archive Z bs req h0 (fst a1) = ((o2, h2), s2) ->
    exists zs oz, made T s2 /\ s_rng s2 = s_rng (fst a1)
      /\ (no_faults s -> s_data s2 (s_next s) = z_encode Z (pr_compression req) zs)
      /\ collected zs oz /\ (o2 = Ok tt -> oz = Ok tt) /\ (no_faults s -> oz = Ok tt -> o2 = Ok tt)
      /\ h_ino h2 = s_next s /\ h_path h2 = temp_path pick s /\ (no_faults s -> h_plan h2 = [])
      /\ early_error o2).
  { intros o2 h2 s2 PK. unfold pack_archive in PK.
    destruct (pack_add bs (pr_files req) [] (fst a1)) as [[o zs] s3] eqn:ADD.
    pose proof (pack_add_error _ _ _ _ _ _ ADD) as OE.
    pose proof (pack_add_state _ _ _ _ _ _ _ ADD) as ES. subst s3.
    destruct (put_archive (z_encode Z (pr_compression req) zs) h0 (fst a1)) as [[w h3] s3] eqn:PUT.
    unfold put_archive in PUT. pose proof PUT as RT2. apply run_handle_tree in RT2.
    destruct RT2 as [ST [HI [HP [DD _]]]]. cbn [h0 h_ino h_path] in HI, HP, DD.
    injection PK as P1 P2 P3. subst h2 s2.
    unfold run_handle in PUT.
    destruct (ow_dev (dev_write_all (z_encode Z (pr_compression req) zs)) (handle_dev (fst a1) h0, s_rng (fst a1)))
      as [ot [d g]] eqn:OD.
    pose proof OD as OD0. unfold ow_dev in OD0. apply zoom_inv in OD0. destruct OD0 as [dd [_ EG]].
    cbn [fst snd] in EG. injection EG as _ EG.
    apply ow_dev_inv in OD. destruct OD as [OD _]. cbn [fst] in OD.
    pose proof (grows_write_all _ _ _ _ OD) as [MK [GL [ws [LW FW]]]].
    apply dev_write_all_spec in OD. destruct OD as [_ OD].
    cbn [handle_dev d_log d_data d_plan h0 h_plan h_ino app] in LW, GL, MK.
    injection PUT as U1 U2 U3.
    assert (SD3 : s_data s3 (s_next s) = d_data d).
    { subst s3. cbn [with_rng put_handle with_data s_data h0 h_ino]. unfold set_data.
      rewrite Nat.eqb_refl. reflexivity. }
    assert (OTN : no_faults s -> ot = Ok tt).
    { intros N. destruct ot as [[]|e| |]; try contradiction; [reflexivity|].
      destruct OD as [_ OD]. exfalso. apply OD. cbn. apply PL, N. }
    exists zs, o. split.
    { eapply temp_made_more; eauto. exists ws. subst s3. cbn [with_rng put_handle with_data s_log].
      split; [rewrite LW; reflexivity|]. intros _. rewrite SD3. auto. }
    split; [subst s3; cbn [with_rng s_rng]; exact EG|].
    split.
    { intros N. rewrite SD3. rewrite (OTN N) in OD.
      destruct OD as [OD _]. rewrite OD. cbn [handle_dev d_data d_pos h0 h_ino h_pos]. rewrite ZD.
      destruct (z_encode Z (pr_compression req) zs) as [|b l] eqn:ZE; [reflexivity|].
      rewrite BytesFacts.write_at_nonempty by discriminate. cbn. rewrite app_nil_r.
      reflexivity. }
    split.
    { intros FO. rewrite <- (pack_add_data bs (fst a1)); [rewrite ADD; reflexivity|].
      intros h Hh. apply (tm_data _ _ _ _ TM1). pose proof (FO h Hh). lia. }
    split.
    { subst o2. destruct o as [[]|e| |]; congruence. }
    split.
    { intros N EO. pose proof (OTN N). subst o o2 w. subst ot. reflexivity. }
    split; [exact HI|]. split; [exact HP|]. split.
    { intros N. subst h3. cbn [move_handle h_plan]. apply MK. cbn. apply PL, N. }
    subst o2. destruct o as [u|e| |]; [|exact OE|exact OE|exact OE].
    destruct w; (split; [|intros e0]; discriminate). }
  assert (LH : forall ox ax, lift_h (pack_archive Z bs req h0 (fst a1)) (snd a1) = (ox, ax) ->
    exists o2 h2, pack_archive Z bs req h0 (fst a1) = ((o2, h2), fst ax) /\ snd ax = snd a1
      /\ ox = (match o2 with Ok a => Ok (a, h2) | Err e => Err e | Panic => Panic | Diverge => Diverge end)).
  { intros ox ax X. unfold lift_h in X.
    destruct (pack_archive Z bs req h0 (fst a1)) as [[o2 h2] s2]. injection X as X1 X2. subst.
    exists o2, h2. auto. }
  apply bind_inv in H.
  destruct H as [[r1 [a2 [H1 H]]]|H].
  2:{ assert (X : exists ox, lift_h (pack_archive Z bs req h0 (fst a1)) (snd a1) = (ox, a')
        /\ (forall v, ox <> Ok v) /\ r <> Ok tt
        /\ ((exists e, ox = Err e /\ r = Err e) \/ (forall e, r <> Err e))).
      { destruct H as [[e [H1 X]]|[[H1 X]|[H1 X]]]; eexists; (split; [exact H1|]);
          (split; [discriminate|]); (split; [congruence|]); eauto; right; congruence. }
      destruct X as [ox [X [NO [NR XE]]]]. apply LH in X. destruct X as [o2 [h2 [X [_ EO]]]].
      apply PA in X. destruct X as [zs [oz [M2 [_ [M3 [M4 [_ [M4' [_ [_ [_ [M8 M9]]]]]]]]]]]].
      eapply (ps_early _ _ _ T zs oz); auto.
      - intros N EO2. rewrite (M4' N EO2) in EO. eapply NO; eauto.
      - destruct XE as [[e [X1 X2]]|X]; [|apply X]. subst. destruct o2; congruence.
      - intros e0. destruct XE as [[e [X1 X2]]|X]; [|apply X]. subst.
        intros Y. injection Y as Y. subst. destruct o2; try congruence. }
  apply LH in H1. destruct H1 as [o2 [h2 [PK [TR2 EO]]]].
  apply PA in PK. destruct PK as [zs [oz [M2 [M2r [M3 [M4 [M5 [_ [M6 [M7 [M8 _]]]]]]]]]]].
  destruct o2 as [[]|e| |]; try discriminate. apply Ok_inj in EO. subst r1. cbn [snd] in H.
  specialize (M5 eq_refl). subst oz. clear PA LH.
  (* the length *)
  assert (FL : forall o3 a3, map_err (fun _ => PkFinishArchive) (on_sys (file_len (EFile h2))) a2 = (o3, a3) ->
    made T (fst a3) /\ snd a3 = snd a2 /\ s_rng (fst a3) = s_rng (fst a2)
    /\ s_data (fst a3) = s_data (fst a2)
    /\ (no_faults s -> exists c, o3 = Ok c)
    /\ (forall e, o3 = Err e -> e = PkFinishArchive)
    /\ forall c, o3 = Ok c -> c = List.length (s_data (fst a3) (s_next s))).
  { intros o3 a3 F. unfold map_err in F.
    destruct (on_sys (file_len (EFile h2)) a2) as [o4 a4] eqn:F4.
    assert (a4 = a3) by (destruct o4; congruence). subst a4.
    apply zoom_inv in F4. destruct F4 as [s3 [F4 EA]]. subst a3. cbn [fst snd].
    unfold file_len in F4. apply call_or_inv in F4.
    destruct F4 as [s4 [SD [RG4 [PL4 [NF [[X1 [X XF]]|X]]]]]].
    - subst. split.
      { eapply temp_made_disk; eauto. intros [N1 N2]. rewrite (NF N1). split; assumption. }
      split; [reflexivity|]. split; [exact RG4|]. split; [apply SD|].
      split; [|split; [intros e Ee; congruence|intros c Ec; congruence]].
      intros N. exfalso. apply XF. apply (tm_calm _ _ _ _ M2), N.
    - injection X as X1 X2. subst. split.
      { eapply temp_made_disk; eauto. intros [N1 N2]. rewrite (NF N1). split; assumption. }
      split; [reflexivity|]. split; [exact RG4|]. split; [apply SD|].
      injection F as F. subst o3. rewrite M6.
      split; [eauto|]. split; [discriminate|]. intros c Ec. congruence. }
  apply bind_inv in H.
  destruct H as [[cap [a3 [H1 H]]]|H].
  2:{ assert (X : exists o3, map_err (fun _ => PkFinishArchive) (on_sys (file_len (EFile h2))) a2 = (o3, a') /\
        r <> Ok tt /\ (forall v, o3 <> Ok v) /\ ((exists e, o3 = Err e /\ r = Err e) \/ (forall e, r <> Err e))).
      { destruct H as [[e [H1 X]]|[[H1 X]|[H1 X]]]; eexists; (split; [exact H1|]);
          (split; [congruence|]); (split; [discriminate|]); eauto; right; congruence. }
      destruct X as [o3 [X [NR [NO XE]]]]. apply FL in X.
      destruct X as [M3' [_ [_ [DE [NF [ER _]]]]]].
      eapply (ps_early _ _ _ T zs (Ok tt)); auto.
      - intros N. rewrite DE. auto.
      - intros N. destruct (NF N) as [c Ec]. exfalso. eapply NO; eauto.
      - destruct XE as [[e [X1 X2]]|X]; [|apply X]. rewrite X2, (ER e X1). discriminate.
      - intros e0. destruct XE as [[e [X1 X2]]|X]; [|apply X]. rewrite X2, (ER e X1). discriminate. }
  apply FL in H1. destruct H1 as [TM3 [TR3 [RG3 [DE [_ [_ CAP]]]]]]. specialize (CAP cap eq_refl). clear FL.
  (* encryption *)
  fold encreq in H.
  destruct (run_world (encrypt_execute_bs E bs encreq) h2 (pr_out req) (pr_hdr req) a3)
    as [[oe [h3 hx]] a4] eqn:RW.
  pose proof RW as EW. apply encrypt_world in EW; [|exact BS|rewrite M6; lia|
    intros x Hx; rewrite M6; pose proof (HH x Hx); lia].
  destruct EW as [W1 [W2 [W3 [W4 [W5 W6]]]]].
  assert (SL : sealed (fst a3) (fst a4)).
  { constructor; [exact W1| |exact W6]. intros j [J1 J2]. apply W5; assumption. }
  assert (CASES : oe = Panic \/ oe = Diverge \/ (oe <> Panic /\ oe <> Diverge
     /\ (on_sys (map_err (fun _ => PkFinishArchive) (wipe_temp h3 cap 2));; map_err PkEncrypt (lift oe)) a4 = (r, a'))).
  { destruct oe; auto; right; right; (split; [discriminate|split; [discriminate|exact H]]). }
  assert (CRASH : oe = Panic \/ oe = Diverge -> exists w oe w', encrypt_execute_bs E bs encreq w = (oe, w')
     /\ (oe = Panic \/ oe = Diverge)).
  { intros X. unfold run_world in RW.
    match type of RW with context [encrypt_execute_bs E bs encreq ?w] => exists w end.
    destruct (encrypt_execute_bs E bs encreq _) as [ox wx]. exists ox, wx. split; [reflexivity|].
    injection RW as R1 _ _ _. congruence. }
  destruct CASES as [X|[X|[N1 [N2 H']]]].
  - subst oe. injection H as H1 H2. subst a'. eapply ps_encrypt; eauto.
  - subst oe. injection H as H1 H2. subst a'. eapply ps_encrypt; eauto.
  - clear H. rename H' into H. apply bind_inv in H.
    assert (WZ : forall o5 a5, @on_sys pack_error unit (map_err (fun _ => PkFinishArchive) (wipe_temp h3 cap 2)) a4 = (o5, a5) ->
       exists o6, wipe_temp h3 cap 2 (fst a4) = (o6, fst a5)
         /\ o5 = match o6 with Ok a => Ok a | Err _ => Err PkFinishArchive | Panic => Panic | Diverge => Diverge end).
    { intros o5 a5 X. apply zoom_inv in X. destruct X as [s5 [X EA]]. subst a5. cbn [fst].
      unfold map_err in X. destruct (wipe_temp h3 cap 2 (fst a4)) as [o6 s6]. exists o6.
      destruct o6; injection X as X1 X2; subst; auto. }
    assert (FIN : forall o6, wipe_temp h3 cap 2 (fst a4) = (o6, fst a') ->
      r = (match o6 with
         | Ok _ => match oe with Ok a => Ok a | Err e => Err (PkEncrypt e) | Panic => Panic | Diverge => Diverge end
         | Err e => Err PkFinishArchive | Panic => Panic | Diverge => Diverge end) ->
      pstages tr r (fst a')).
    { intros o6 WT RE. eapply (ps_wipe tr r (fst a') T zs h2 a3 h3 hx a4 cap oe o6); eauto.
      - intros N. rewrite DE. auto.
      - rewrite TR3, TR2. exact ETR.
      - rewrite RG3, M2r. exact RG.
      - congruence.
      - congruence. }
    destruct H as [[u [a5 [H1 H]]]|[[e [H1 H]]|[[H1 H]|[H1 H]]]]; apply WZ in H1;
      destruct H1 as [o6 [WT EO]].
    + unfold map_err, lift in H. destruct o6 as [[]|e| |]; try discriminate.
      assert (a5 = a') by (destruct oe; congruence). subst a5.
      eapply FIN; [exact WT|]. destruct oe as [[]|e| |]; congruence.
    + eapply FIN; [exact WT|]. destruct o6; congruence.
    + eapply FIN; [exact WT|]. destruct o6; congruence.
    + eapply FIN; [exact WT|]. destruct o6; congruence.
Qed.

(** When the archive was handed to the encryption, nothing of it is left. *)
Lemma pack_temp_gone : forall tr r a',
  pack_execute_bs E Z pick bs req (s, tr) = (r, a') -> no_faults s ->
  r = Ok tt \/ (exists e, r = Err (PkEncrypt e)) ->
  temp_wiped s (fst a') (temp_path pick s).
Proof.
  intros tr r a' H NF RE. apply pack_stages in H.
  destruct H as [SD X _|T zs oz RT LT TM _ _ _ X1 X2 X3|T s1 RT LT TM SL X
                |T zs h1 a1 h hx a2 cap oe o6 RT LT TM ZE CO TR RG HI1 HP1 RW NP ND SL HI HP HPL CAP W X].
  - destruct RE as [RE|[e RE]]; congruence.
  - destruct RE as [RE|[e RE]]; [congruence|]. exfalso. eapply X3; eauto.
  - destruct RE as [RE|[e RE]]; destruct X; congruence.
  - destruct SL as [[T1 [T2 [T3 [T4 [T5 T6]]]]] SD [es [SL FS]]].
    assert (N2 : no_faults (fst a2)).
    { destruct (tm_calm _ _ _ _ TM NF). split; congruence. }
    assert (R2 : resolve false (fst a2) (h_path h) = Some T).
    { rewrite HP. eapply (resolve_grown false s (fst a2)); [| |exact RT|].
      - rewrite T1, (tm_nodes _ _ _ _ TM). apply grown_add, LT.
      - rewrite T2. apply (tm_cwd _ _ _ _ TM).
      - discriminate. }
    assert (L2 : lookup (s_nodes (fst a2)) T = Some (NFile (s_next s))).
    { rewrite T1, (tm_nodes _ _ _ _ TM), lookup_add, cpath_eqb_refl by exact LT. reflexivity. }
    destruct (wipe_calm h cap 2 (fst a2) T (s_next s) N2 (HPL NF) R2 L2) as [s' [cs [W' [WN [WD [WC WL]]]]]].
    rewrite W in W'. injection W' as _ W'. subst s'. rewrite HI in *.
    destruct (tm_log _ _ _ _ TM) as [ws [L1 FT]].
    exists T, cap, (map (fun w => FWrite (s_next s) (fst w) (snd w)) ws ++ es), cs.
    split; [exact RT|]. split.
    { unfold at_place. rewrite WN, lookup_remove, cpath_eqb_refl; [reflexivity|]. intros Y. subst. discriminate. }
    split; [exact WD|]. split.
    { unfold added. rewrite WL, SL, L1, <- !app_assoc. reflexivity. }
    split; [|exact WC].
    intros off l IN. apply in_app_or in IN. destruct IN as [IN|IN].
    + apply in_map_iff in IN. destruct IN as [w [Ew IN]]. injection Ew as E1 E2. subst.
      exact (proj1 (Forall_forall _ _) (FT Logic.I) w IN).
    + exfalso. pose proof (proj1 (Forall_forall _ _) FS _ IN) as OK. cbn in OK.
      destruct OK as [OK|[x [Hx OK]]]; [lia|]. pose proof (HH x Hx). lia.
Qed.

(** Otherwise it is left as it was. *)
Lemma pack_temp_left : forall tr e a',
  pack_execute_bs E Z pick bs req (s, tr) = (Err e, a') -> no_faults s ->
  (forall h, In (EFile h) (pr_files req) -> h_ino h < s_next s) ->
  (forall x, e <> PkEncrypt x) ->
  (e = PkCreateArchive /\ same_disk s (fst a'))
  \/ exists T zs oz, resolve false s (temp_path pick s) = Some T
       /\ fst (pack_add bs (pr_files req) [] s) = (oz, zs)
       /\ at_place (fst a') T = Some (SFile (s_next s) (z_encode Z (pr_compression req) zs)).
Proof.
  intros tr r a' H NF FO RE. apply pack_stages in H.
  destruct H as [SD X _|T zs oz RT LT TM ZD CO _ X1 X2 X3|T s1 RT LT TM SL X
                |T zs h1 a1 h hx a2 cap oe o6 RT LT TM ZE CO TR RG HI1 HP1 RW NP ND SL HI HP HPL CAP W X].
  - left. split; [congruence|exact SD].
  - right. exists T, zs, oz. split; [exact RT|]. split; [apply CO, FO|].
    unfold at_place. rewrite (tm_nodes _ _ _ _ TM), lookup_add, cpath_eqb_refl by exact LT.
    rewrite ZD by exact NF. reflexivity.
  - destruct X; discriminate.
  - exfalso. destruct SL as [[T1 [T2 [T3 [T4 [T5 T6]]]]] SD _].
    assert (N2 : no_faults (fst a2)).
    { destruct (tm_calm _ _ _ _ TM NF). split; congruence. }
    assert (R2 : resolve false (fst a2) (h_path h) = Some T).
    { rewrite HP. eapply (resolve_grown false s (fst a2)); [| |exact RT|].
      - rewrite T1, (tm_nodes _ _ _ _ TM). apply grown_add, LT.
      - rewrite T2. apply (tm_cwd _ _ _ _ TM).
      - discriminate. }
    assert (L2 : lookup (s_nodes (fst a2)) T = Some (NFile (s_next s))).
    { rewrite T1, (tm_nodes _ _ _ _ TM), lookup_add, cpath_eqb_refl by exact LT. reflexivity. }
    destruct (wipe_calm h cap 2 (fst a2) T (s_next s) N2 (HPL NF) R2 L2) as [s' [cs [W' _]]].
    rewrite W in W'. injection W' as W1 _. subst o6.
    destruct oe as [u|x| |]; try congruence.
Qed.

(** Packing changes nothing but the output, the header file and its temporary file,
    whatever happens. *)
Lemma pack_changes : forall tr r a',
  pack_execute_bs E Z pick bs req (s, tr) = (r, a') -> inodes_ok s ->
  forall p, at_place (fst a') p <> at_place s p ->
    (resolve false s (temp_path pick s) = Some p /\ at_place s p = None)
    \/ exists i, lookup (s_nodes s) p = Some (NFile i)
         /\ (i = h_ino (pr_out req) \/ exists x, pr_hdr req = Some x /\ i = h_ino x).
Proof.
  intros tr r a' H IO p CH. apply pack_stages in H.
  assert (SAME : same_disk s (fst a') -> False).
  { intros [D1 [D2 _]]. apply CH. unfold at_place. rewrite D1, D2. reflexivity. }
  assert (GEN : forall T, resolve false s (temp_path pick s) = Some T -> lookup (s_nodes s) T = None ->
    (forall q, q <> T -> lookup (s_nodes (fst a')) q = lookup (s_nodes s) q) ->
    (forall j, j <> s_next s -> other req j -> s_data (fst a') j = s_data s j) ->
    (resolve false s (temp_path pick s) = Some p /\ at_place s p = None)
    \/ exists i, lookup (s_nodes s) p = Some (NFile i)
         /\ (i = h_ino (pr_out req) \/ exists x, pr_hdr req = Some x /\ i = h_ino x)).
  { intros T RT LT LK DA. destruct (cpath_eq_dec p T) as [EP|NP].
    - left. subst. split; [exact RT|]. unfold at_place. rewrite LT. reflexivity.
    - right. unfold at_place in CH. rewrite (LK p NP) in CH.
      destruct (lookup (s_nodes s) p) as [[|i|t]|] eqn:LP; try congruence.
      exists i. split; [reflexivity|]. apply IO in LP.
      destruct (Nat.eq_dec i (h_ino (pr_out req))) as [|NO]; [auto|]. right.
      destruct (pr_hdr req) as [x|] eqn:HX.
      + exists x. split; [reflexivity|]. destruct (Nat.eq_dec i (h_ino x)) as [|NX]; [auto|].
        exfalso. apply CH. rewrite DA; [reflexivity|lia|]. split; [exact NO|]. congruence.
      + exfalso. apply CH. rewrite DA; [reflexivity|lia|]. split; [exact NO|]. congruence. }
  destruct H as [SD X _|T zs oz RT LT TM _ _ _ X1 X2 X3|T s1 RT LT TM SL X
                |T zs h1 a1 h hx a2 cap oe o6 RT LT TM ZE CO TR RG HI1 HP1 RW NP ND SL HI HP HPL CAP W X].
  - contradiction.
  - apply (GEN T RT LT).
    + intros q Q. rewrite (tm_nodes _ _ _ _ TM), lookup_add by exact LT.
      apply cpath_eqb_neq in Q. rewrite Q. reflexivity.
    + intros j J _. apply (tm_data _ _ _ _ TM), J.
  - destruct SL as [[T1 _] SD _]. apply (GEN T RT LT).
    + intros q Q. rewrite T1, (tm_nodes _ _ _ _ TM), lookup_add by exact LT.
      apply cpath_eqb_neq in Q. rewrite Q. reflexivity.
    + intros j J O. rewrite SD by exact O. apply (tm_data _ _ _ _ TM), J.
  - destruct SL as [[T1 [T2 _]] SD _]. apply wipe_any in W. rewrite HI, HP in W.
    destruct W as [DW [NW _]]. apply (GEN T RT LT).
    + intros q Q.
      assert (LA : lookup (s_nodes (fst a2)) q = lookup (s_nodes s) q).
      { rewrite T1, (tm_nodes _ _ _ _ TM), lookup_add by exact LT.
        apply cpath_eqb_neq in Q. rewrite Q. reflexivity. }
      destruct NW as [NW|[x [RX NW]]]; rewrite NW; [exact LA|].
      assert (x = T).
      { assert (resolve false (fst a2) (temp_path pick s) = Some T).
        { eapply (resolve_grown false s (fst a2)); [| |exact RT|].
          - rewrite T1, (tm_nodes _ _ _ _ TM). apply grown_add, LT.
          - rewrite T2. apply (tm_cwd _ _ _ _ TM).
          - discriminate. }
        congruence. }
      subst x. rewrite lookup_remove by (intros Y; subst; discriminate).
      apply cpath_eqb_neq in Q. rewrite Q. exact LA.
    + intros j J O. rewrite DW by exact J. rewrite SD by exact O. apply (tm_data _ _ _ _ TM), J.
Qed.

End Pack.
