(** What encrypting leaves in a file that is open twice. *)
From Coq Require Import List Arith NArith ZArith Lia Bool.
From Verif Require Import Bytes Outcome IO Primitives Crypto Header Stream KeyModel EncDec.
From Verif Require Import FS Archive Shared SharedSpec HeaderSpec BytesFacts IOSpec IOFacts HeaderFacts FileFacts.
From Verif Require Import StreamSpec StreamFacts WorldFrames DecSim SharedSim SharedProofs SharedDecrypt SharedEncrypt.
Import ListNotations.
Local Open Scope nat_scope.

Definition set_in (d : dev) (w : world) : world := mkWorld d (w_out w) (w_hdr w) (w_rng w) (w_tr w).

Lemma step_bind : forall {S1 S2 E A B} (R : S1 -> S2 -> Prop) (m1 : M S1 E A) (m2 : M S2 E A)
  (k1 : A -> M S1 E B) (k2 : A -> M S2 E B) x w,
  fst (m1 x) = fst (m2 w) /\ R (snd (m1 x)) (snd (m2 w)) -> (forall a, sim R (k1 a) (k2 a)) ->
  fst (bind m1 k1 x) = fst (bind m2 k2 w) /\ R (snd (bind m1 k1 x)) (snd (bind m2 k2 w)).
Proof.
  intros S1 S2 E A B R m1 m2 k1 k2 x w (F & G) K. unfold bind.
  destruct (m1 x) as [o1 t1], (m2 w) as [o2 t2]; cbn [fst snd] in *. subst o2.
  destruct o1; cbn; auto. now apply K.
Qed.
Lemma step_map : forall {S1 S2 E E' A} (R : S1 -> S2 -> Prop) (f : E -> E') (m1 : M S1 E A) (m2 : M S2 E A) x w,
  fst (m1 x) = fst (m2 w) /\ R (snd (m1 x)) (snd (m2 w)) ->
  fst (map_err f m1 x) = fst (map_err f m2 w) /\ R (snd (map_err f m1 x)) (snd (map_err f m2 w)).
Proof.
  intros S1 S2 E E' A R f m1 m2 x w (F & G). unfold map_err.
  destruct (m1 x) as [o1 t1], (m2 w) as [o2 t2]; cbn [fst snd] in *. subst o2.
  destruct o1; cbn; auto.
Qed.

Section Exact.
Context (hi ho : handle) (hh : option handle) (s0 : sys) (h : bool).
Notation rel1 := (rel hi ho hh s0 false true h).

Lemma tied_same : forall s s' g d, disk_kept s' s -> tied s0 s g d -> tied s0 s' g d.
Proof.
  intros s s' g d (_ & D & _ & _ & _ & _ & _ & _ & L) (A & B & C & F). unfold tied. rewrite D, L. auto.
Qed.

Lemma rel_idle : forall {E A} (m : M dev E A) x w o d d2, always still m -> rel1 x w ->
  m (handle_dev (sh_sys x) (sh_in x)) = (o, d) -> m (w_in w) = (o, d2) ->
  exists x', p_in shared_ports m x = (o, x') /\ p_in world_ports m w = (o, set_in d2 w)
    /\ rel1 x' (set_in d2 w)
    /\ sh_in x' = move_handle d (sh_in x) /\ disk_kept (sh_sys x') (sh_sys x).
Proof.
  intros E A m x w o d d2 ST R M1 M2. cbn [p_in shared_ports world_ports]. unfold at_in, on_in, zoom.
  rewrite M1, M2. eexists. split; [reflexivity|]. split; [reflexivity|].
  destruct (ST _ _ _ M1) as (D & L & _). cbn [handle_dev d_data d_log] in D, L.
  pose proof (put_still _ _ _ D L) as SD.
  split; [|split; [reflexivity|exact SD]].
  destruct R. constructor; cbn [sh_in sh_out sh_hdr sh_sys sh_tr w_in w_out w_hdr w_rng w_tr set_in]; auto.
  - discriminate.
  - intros X. eapply tied_same; [exact SD|auto].
  - intros X y Y. eapply tied_same; [exact SD|auto].
  - intros j N. destruct (r_rest j N) as (A1 & A2). destruct SD as (_ & D' & _ & _ & _ & _ & _ & _ & L').
    split; [rewrite D'; exact A1|]. rewrite L'. exact A2.
Qed.

Lemma still_read : forall n, always still (dev_read n).
Proof.
  intros n d o d' R. apply dev_read_spec in R as (P & A & B & _). split; [exact A|split; [exact B|]].
  intros Z. eapply plan_step_nil; eauto.
Qed.

Context (SEP : separate hi ho hh false true h).

Lemma short_file : forall E bs s aad D x w, rel1 x w ->
  handle_dev (sh_sys x) (sh_in x) = dev_of D -> w_in w = dev_of D -> length D < bs ->
  fst (encrypt_file_p shared_ports E bs s aad x) = fst (encrypt_file_p world_ports E bs s aad w)
  /\ rel1 (snd (encrypt_file_p shared_ports E bs s aad x)) (snd (encrypt_file_p world_ports E bs s aad w)).
Proof.
  intros E bs s aad D x w R HD WD LD.
  assert (RD : dev_read bs (dev_of D) = (Ok D, mkDev D (length D) [] [])).
  { unfold dev_read, next_ev, dev_of, take_at. cbn [d_plan d_data d_pos d_log skipn].
    rewrite firstn_all2 by lia. reflexivity. }
  assert (RX : dev_read bs (handle_dev (sh_sys x) (sh_in x)) = (Ok D, mkDev D (length D) [] [])) by (rewrite HD; exact RD).
  assert (RW : dev_read bs (w_in w) = (Ok D, mkDev D (length D) [] [])) by (rewrite WD; exact RD).
  destruct (rel_idle _ _ _ _ _ _ (still_read bs) R RX RW) as (x1 & A1 & A2 & R1 & _).
  assert (LX : encrypt_loop_p shared_ports E bs (S (p_size shared_ports x)) s aad x
    = (ct <- map_err (fun _ => SCrypt) (p_tr shared_ports (encrypt_last E s aad D)) ;;
       map_err (fun _ => SWrite) (p_out shared_ports (dev_write_all ct))) x1).
  { cbn [encrypt_loop_p]. erewrite bind_ok by (apply map_err_ok; exact A1).
    replace (length D =? bs) with false by (symmetry; apply Nat.eqb_neq; lia). reflexivity. }
  assert (LW : encrypt_loop_p world_ports E bs (S (p_size world_ports w)) s aad w
    = (ct <- map_err (fun _ => SCrypt) (p_tr world_ports (encrypt_last E s aad D)) ;;
       map_err (fun _ => SWrite) (p_out world_ports (dev_write_all ct))) (set_in (mkDev D (length D) [] []) w)).
  { cbn [encrypt_loop_p]. erewrite bind_ok by (apply map_err_ok; exact A2).
    replace (length D =? bs) with false by (symmetry; apply Nat.eqb_neq; lia). reflexivity. }
  assert (SM : sim rel1
    (ct <- map_err (fun _ => SCrypt) (p_tr shared_ports (encrypt_last E s aad D)) ;;
     map_err (fun _ => SWrite) (p_out shared_ports (dev_write_all ct)))
    (ct <- map_err (fun _ => SCrypt) (p_tr world_ports (encrypt_last E s aad D)) ;;
     map_err (fun _ => SWrite) (p_out world_ports (dev_write_all ct)))).
  { apply sim_bind; [apply sim_map_err, rel_tr|intros ct].
    apply sim_map_err, rel_out; auto. apply blind_write_all. }
  apply (step_bind rel1).
  - rewrite LX, LW. apply SM. exact R1.
  - intros _. apply sim_map_err, rel_out; auto. apply blind_flush.
Qed.
End Exact.

(** ** The header on well-behaved devices *)

Lemma rewind_clean : forall l d, d = dev_of l -> dev_rewind d = (Ok tt, dev_of l).
Proof. intros l d ->. reflexivity. Qed.
Lemma header_clean : forall hd b, serialize hd = Ok b -> b <> [] ->
  write_header_to hd (dev_of []) = (Ok tt, mkDev b (length b) [] [(0, b)]).
Proof.
  intros hd b S N. unfold write_header_to. rewrite S. destruct b as [|y b]; [congruence|].
  cbn. unfold ret, put_at, write_at. cbn. rewrite ?skipn_nil, ?app_nil_r. reflexivity.
Qed.

Definition set_out (d : dev) (w : world) : world := mkWorld (w_in w) d (w_hdr w) (w_rng w) (w_tr w).
Definition set_hdr (d : dev) (w : world) : world := mkWorld (w_in w) (w_out w) d (w_rng w) (w_tr w).

Lemma put_clean : forall hd b detached w, serialize hd = Ok b -> b <> [] ->
  w_out w = dev_of [] -> w_hdr w = dev_of [] ->
  put_header_p world_ports detached hd w
  = (Ok tt, if detached then set_hdr (mkDev b (length b) [] [(0, b)]) w
            else set_out (mkDev b (length b) [] [(0, b)]) w).
Proof.
  intros hd b detached w S N O H. unfold put_header_p.
  assert (A : map_err (fun _ => EncResetCursorPosition) (p_out world_ports dev_rewind) w = (Ok tt, w)).
  { unfold map_err. cbn [p_out world_ports]. unfold on_out, zoom. rewrite O, (rewind_clean [] _ eq_refl), <- O. destruct w. reflexivity. }
  erewrite bind_ok by exact A. destruct detached.
  - assert (B : map_err (fun _ => EncResetCursorPosition) (p_hdr world_ports dev_rewind) w = (Ok tt, w)).
    { unfold map_err. cbn [p_hdr world_ports]. unfold on_hdr, zoom. rewrite H, (rewind_clean [] _ eq_refl), <- H. destruct w. reflexivity. }
    erewrite bind_ok by exact B. cbn [p_hdr world_ports]. unfold on_hdr, zoom.
    rewrite H, (header_clean _ _ S N). reflexivity.
  - cbn [p_out world_ports]. unfold on_out, zoom. rewrite O, (header_clean _ _ S N). reflexivity.
Qed.

(** Drawing keys leaves the devices alone. *)
Definition devices_kept (w w' : world) : Prop :=
  w_in w' = w_in w /\ w_out w' = w_out w /\ w_hdr w' = w_hdr w.
Lemma keys_devices : forall E req, always devices_kept (encrypt_keys_p world_ports E req).
Proof.
  intros E req.
  assert (RR : forall w, devices_kept w w) by (intros w; repeat split).
  assert (RT : forall u v w, devices_kept u v -> devices_kept v w -> devices_kept u w).
  { intros u v w (A & B & C) (D & F & G). repeat split; congruence. }
  assert (KG : forall E A (m : M rng E A), always devices_kept (p_rng world_ports m)).
  { intros E' A m w o w' H. cbn [p_rng world_ports] in H. unfold zoom in H. destruct (m _). inversion H; subst. repeat split. }
  assert (KT : forall E A (m : M trace E A), always devices_kept (p_tr world_ports m)).
  { intros E' A m w o w' H. cbn [p_tr world_ports] in H. unfold on_tr, zoom in H. destruct (m _). inversion H; subst. repeat split. }
  unfold encrypt_keys_p. cbv zeta.
  repeat (apply (always_bind _ RT);
          [first [apply KG|apply always_map_err, (always_lift _ RR)|apply always_map_err, KT]|intros ?]).
  apply (always_ret _ RR).
Qed.

(** ** The input is the file the header goes to *)

Lemma step_bind_dep : forall {S1 S2 E A B} (R : S1 -> S2 -> Prop) (m1 : M S1 E A) (m2 : M S2 E A)
  (k1 : A -> M S1 E B) (k2 : A -> M S2 E B) x w,
  fst (m1 x) = fst (m2 w) /\ R (snd (m1 x)) (snd (m2 w)) ->
  (forall a x' w', m1 x = (Ok a, x') -> m2 w = (Ok a, w') -> R x' w' ->
     fst (k1 a x') = fst (k2 a w') /\ R (snd (k1 a x')) (snd (k2 a w'))) ->
  fst (bind m1 k1 x) = fst (bind m2 k2 w) /\ R (snd (bind m1 k1 x)) (snd (bind m2 k2 w)).
Proof.
  intros S1 S2 E A B R m1 m2 k1 k2 x w (F & G) K. unfold bind.
  destruct (m1 x) as [o1 t1] eqn:M1, (m2 w) as [o2 t2] eqn:M2; cbn [fst snd] in *. subst o2.
  destruct o1; cbn; auto.
Qed.

Lemma put_keeps_in : forall detached hd x o x', put_header_p shared_ports detached hd x = (o, x') ->
  sh_in x' = sh_in x.
Proof.
  intros detached hd.
  enough (A : always (fun x x' => sh_in x' = sh_in x) (put_header_p shared_ports detached hd)) by exact A.
  set (R := fun x x' : shared => sh_in x' = sh_in x).
  assert (RT : forall x y z, R x y -> R y z -> R x z) by (unfold R; intros; congruence).
  assert (RO : forall E A (m : M dev E A), always R (p_out shared_ports m)).
  { intros E A m x o x' H. cbn [p_out shared_ports] in H. unfold at_out in H. destruct (m _).
    inversion H; subst. reflexivity. }
  assert (RH : forall E A (m : M dev E A), always R (p_hdr shared_ports m)).
  { intros E A m x o x' H. cbn [p_hdr shared_ports] in H. unfold at_hdr in H. destruct (sh_hdr x).
    - destruct (m _). inversion H; subst. reflexivity.
    - inversion H; subst. reflexivity. }
  unfold put_header_p. apply (always_bind _ RT); [apply always_map_err, RO|intros _].
  destruct detached; [|apply RO]. apply (always_bind _ RT); [apply always_map_err, RH|intros _]. apply RH.
Qed.

Lemma onto_header_bs : forall E bs req hi ho hh (a : asys), 416 < bs -> v5_request req ->
  er_detached req = match hh with Some _ => true | None => false end ->
  fresh hi -> fresh ho -> (forall g, hh = Some g -> fresh g /\ h_ino g <> h_ino ho) ->
  s_data (fst a) (h_ino ho) = [] -> (forall g, hh = Some g -> s_data (fst a) (h_ino g) = []) ->
  target req ho hh = Some (h_ino hi) ->
  exists D, let r := encrypt_execute_p shared_ports E bs req (mkShared hi ho hh (fst a) (snd a)) in
    let w := encrypt_execute_p world_ports E bs req
               (mkWorld (dev_of D) (dev_of []) (dev_of []) (s_rng (fst a)) (snd a)) in
    fst r = fst w
    /\ s_data (sh_sys (snd r)) (h_ino ho) = d_data (w_out (snd w))
    /\ (forall g, hh = Some g -> s_data (sh_sys (snd r)) (h_ino g) = d_data (w_hdr (snd w)))
    /\ (forall j, j <> h_ino ho -> (forall g, hh = Some g -> j <> h_ino g) ->
         s_data (sh_sys (snd r)) j = s_data (fst a) j)
    /\ length D <= 416
    /\ (fst w = Ok tt -> length D = 416 /\ firstn 416 (s_data (sh_sys (snd r)) (h_ino hi)) = D
                     /\ (er_detached req = true -> s_data (sh_sys (snd r)) (h_ino hi) = D)).
Proof.
  intros E bs req hi ho hh a HB HV DT (FI1 & FI2) (FO1 & FO2) FG DO DH TG.
  set (x0 := mkShared hi ho hh (fst a) (snd a)).
  set (w0 := fun D => mkWorld (dev_of D) (dev_of []) (dev_of []) (s_rng (fst a)) (snd a)).
  set (hb := match hh with Some _ => true | None => false end).
  assert (SEP : separate hi ho hh false true hb).
  { split; [discriminate|]. split; [discriminate|]. intros _ _ y Y. apply FG. exact Y. }
  assert (HO : handle_dev (fst a) ho = dev_of []).
  { unfold handle_dev. rewrite DO, FO1, FO2. reflexivity. }
  assert (R0 : forall D, rel hi ho hh (fst a) false true hb x0 (w0 D)).
  { intros D. pose proof (rel_start hi ho hh false true hb a) as R. destruct R.
    constructor; cbn [sh_in sh_out sh_hdr sh_sys sh_tr w_in w_out w_hdr w_rng w_tr x0 w0] in *; auto.
    - discriminate.
    - intros X. rewrite <- HO. auto.
    - intros X y Y. specialize (r_hdr X y Y). rewrite Y in r_hdr. cbn [opt_dev] in r_hdr.
      destruct (FG y Y) as ((Y1 & Y2) & _). unfold handle_dev in r_hdr. rewrite (DH y Y), Y1, Y2 in r_hdr.
      exact r_hdr. }
  assert (DET : er_detached req = true -> hb = true /\ hh <> None).
  { unfold hb. rewrite DT. destruct hh; split; congruence. }
  assert (MAIN : exists D,
    (fst (encrypt_execute_p shared_ports E bs req x0) = fst (encrypt_execute_p world_ports E bs req (w0 D))
     /\ rel hi ho hh (fst a) false true hb (snd (encrypt_execute_p shared_ports E bs req x0))
           (snd (encrypt_execute_p world_ports E bs req (w0 D))))
    /\ length D <= 416
    /\ (fst (encrypt_execute_p world_ports E bs req (w0 D)) = Ok tt ->
        length D = 416
        /\ firstn 416 (d_data ((if er_detached req then w_hdr else w_out)
              (snd (encrypt_execute_p world_ports E bs req (w0 D))))) = D
        /\ (er_detached req = true ->
            d_data (w_hdr (snd (encrypt_execute_p world_ports E bs req (w0 D)))) = D))).
  { pose proof (keys_spec E req x0 HV) as K. unfold keyed in K.
    destruct (encrypt_keys_p shared_ports E req x0) as [ok x1] eqn:K1. cbn [fst] in K.
    destruct ok as [[st hd]|e| |]; try contradiction.
    2:{ exists []. assert (KW : exists w1, encrypt_keys_p world_ports E req (w0 []) = (Err e, w1)
          /\ rel hi ho hh (fst a) false true hb x1 w1).
        { destruct (rel_keys hi ho hh (fst a) false true hb E req _ _ (R0 [])) as (F & G). rewrite K1 in F, G.
          cbn [fst snd] in F, G. destruct (encrypt_keys_p world_ports E req (w0 [])) as [o2 w1].
          cbn [fst snd] in *. subst o2. eauto. }
        destruct KW as (w1 & KW & RW). unfold encrypt_execute_p.
        rewrite (bind_err _ _ _ _ _ K1), (bind_err _ _ _ _ _ KW). cbn [fst snd]. split; [auto|]. split; [cbn; lia|]. discriminate. }
    destruct K as ((b & SB & LB) & aad & SA). exists b.
    assert (BN : b <> []) by (intros ->; discriminate LB).
    assert (KW : exists w1, encrypt_keys_p world_ports E req (w0 b) = (Ok (st, hd), w1)
          /\ rel hi ho hh (fst a) false true hb x1 w1).
    { destruct (rel_keys hi ho hh (fst a) false true hb E req _ _ (R0 b)) as (F & G). rewrite K1 in F, G.
      cbn [fst snd] in F, G. destruct (encrypt_keys_p world_ports E req (w0 b)) as [o2 w1].
      cbn [fst snd] in *. subst o2. eauto. }
    destruct KW as (w1 & KW & RW).
    destruct (keys_devices E req _ _ _ KW) as (WI & WO & WH). cbn [w0 w_in w_out w_hdr] in WI, WO, WH.
    pose proof (put_clean hd b (er_detached req) w1 SB BN WO WH) as PW.
    destruct (rel_put hi ho hh (fst a) false true hb SEP (er_detached req) hd eq_refl DET _ _ RW) as (PF & PR).
    destruct (put_header_p shared_ports (er_detached req) hd x1) as [o2 x2] eqn:PX.
    rewrite PW in PF, PR. cbn [fst snd] in PF, PR. subst o2.
    set (w2 := if er_detached req then _ else _) in *.
    assert (SI : sh_in x2 = hi).
    { rewrite (put_keeps_in _ _ _ _ _ PX). destruct (drawn_keys E req _ _ _ K1) as (g & t & ->). reflexivity. }
    assert (D2 : s_data (sh_sys x2) (h_ino hi) = b).
    { unfold target in TG. destruct (er_detached req) eqn:DD.
      - destruct hh as [g|] eqn:HH; [|discriminate]. cbn in TG. injection TG as TG. rewrite <- TG.
        destruct PR as [_ _ MH _ _ RH _ _ _ _]. destruct (sh_hdr x2) as [y|] eqn:Y; [|contradiction].
        cbn [moved_opt] in MH. rewrite (proj2 MH). destruct (RH eq_refl y eq_refl) as (X & _).
        rewrite X. reflexivity.
      - injection TG as TG. rewrite <- TG. destruct PR as [_ MO _ _ RO _ _ _ _ _].
        rewrite (proj2 MO). destruct (RO eq_refl) as (X & _). rewrite X. reflexivity. }
    assert (WI2 : w_in w2 = dev_of b) by (unfold w2; destruct (er_detached req); exact WI).
    assert (HX : handle_dev (sh_sys x2) (sh_in x2) = dev_of b).
    { unfold handle_dev. rewrite SI, D2, FI1, FI2. reflexivity. }
    assert (RWD : dev_rewind (handle_dev (sh_sys x2) (sh_in x2)) = (Ok tt, dev_of b)) by (rewrite HX; reflexivity).
    assert (RWW : dev_rewind (w_in w2) = (Ok tt, dev_of b)) by (rewrite WI2; reflexivity).
    destruct (rel_idle hi ho hh (fst a) hb _ _ _ _ _ _ still_rewind PR RWD RWW) as (x3 & A1 & A2 & R3 & SI3 & SD3).
    assert (HX3 : handle_dev (sh_sys x3) (sh_in x3) = dev_of b).
    { unfold handle_dev. rewrite SI3. destruct SD3 as (_ & D3 & _). cbn [move_handle h_ino h_pos h_plan dev_of d_pos d_plan].
      rewrite D3, SI, D2. reflexivity. }
    assert (WI3 : w_in (set_in (dev_of b) w2) = dev_of b) by reflexivity.
    assert (LS : length b < bs) by (rewrite LB; exact HB).
    pose proof (short_file hi ho hh (fst a) hb SEP E bs st aad b x3 _ R3 HX3 WI3 LS) as SF.
    assert (EX : encrypt_execute_p shared_ports E bs req x0
      = map_err (fun _ => EncEncryptFile) (encrypt_file_p shared_ports E bs st aad) x3).
    { unfold encrypt_execute_p. erewrite bind_ok by exact K1. cbn [fst snd].
      erewrite bind_ok by exact PX. rewrite SA. erewrite bind_ok by reflexivity.
      erewrite bind_ok by (apply map_err_ok; exact A1). reflexivity. }
    assert (EW : encrypt_execute_p world_ports E bs req (w0 b)
      = map_err (fun _ => EncEncryptFile) (encrypt_file_p world_ports E bs st aad) (set_in (dev_of b) w2)).
    { unfold encrypt_execute_p. erewrite bind_ok by exact KW. cbn [fst snd].
      erewrite bind_ok by exact PW. rewrite SA. erewrite bind_ok by reflexivity.
      erewrite bind_ok by (apply map_err_ok; exact A2). reflexivity. }
    rewrite EX, EW. split; [apply (step_map (rel hi ho hh (fst a) false true hb)); exact SF|].
    split; [lia|]. intros OK. split; [exact LB|].
    assert (FILE : exists wf, encrypt_file_bs E bs st aad (set_in (dev_of b) w2) = (Ok tt, wf)
      /\ snd (map_err (fun _ : stream_error => EncEncryptFile) (encrypt_file_p world_ports E bs st aad)
               (set_in (dev_of b) w2)) = wf).
    { unfold map_err in OK |- *. rewrite same_enc_file in OK |- *.
      destruct (encrypt_file_bs E bs st aad (set_in (dev_of b) w2)) as [[[]|e| |] wf]; cbn in OK; try discriminate.
      exists wf. split; reflexivity. }
    destruct FILE as (wf & FW & ->). apply encrypt_file_spec in FW; [|lia].
    destruct FW as ((_ & _ & FH & _) & bl & la & cs & wr & n & _ & _ & _ & _ & (WR & _) & _).
    cbn [set_in w_out w_hdr] in WR, FH.
    unfold w2 in *. destruct (er_detached req).
    - rewrite FH. cbn [set_hdr w_hdr d_data]. split; [apply firstn_all2; lia|reflexivity].
    - split; [|discriminate]. rewrite WR. cbn [set_out w_out d_data d_pos]. unfold write_at.
      destruct wr as [|y wr]; [apply firstn_all2; lia|].
      rewrite firstn_all, <- LB, firstn_app, Nat.sub_diag, firstn_all, firstn_O, app_nil_r. reflexivity. }
  destruct MAIN as (D & (F & R) & DL & OKD). exists D. cbv zeta. fold (w0 D). fold x0.
  destruct (encrypt_execute_p world_ports E bs req (w0 D)) as [o wf].
  destruct (encrypt_execute_p shared_ports E bs req x0) as [o' xf]. cbn [fst snd] in *. subst o'. destruct R.
  split; [reflexivity|].
  assert (OUT : s_data (sh_sys xf) (h_ino ho) = d_data (w_out wf)).
  { rewrite (proj2 r_mo). apply (r_out eq_refl). }
  assert (HDR : forall g, hh = Some g -> s_data (sh_sys xf) (h_ino g) = d_data (w_hdr wf)).
  { intros g G. rewrite G in r_mh. destruct (sh_hdr xf) as [y|] eqn:Y; [|contradiction]. cbn [moved_opt] in r_mh.
    rewrite (proj2 r_mh). apply r_hdr; [|reflexivity]. unfold hb. rewrite G. reflexivity. }
  split; [exact OUT|]. split; [exact HDR|]. split.
  - intros j J1 J2. apply r_rest. intros [(X & _)|[(_ & ->)|(_ & z & Z & ->)]]; [discriminate|congruence|].
    exact (J2 z Z eq_refl).
  - split; [exact DL|]. intros OK. destruct (OKD OK) as (L & P & Q). split; [exact L|]. unfold target in TG.
    destruct (er_detached req).
    + destruct hh as [g|] eqn:HH; [|discriminate]. cbn in TG. injection TG as TG. rewrite <- TG, (HDR g eq_refl).
      split; [exact P|exact Q].
    + injection TG as TG. rewrite <- TG, OUT. split; [exact P|discriminate].
Qed.

Lemma onto_header : forall E req hi ho hh a, v5_request req ->
  er_detached req = match hh with Some _ => true | None => false end ->
  fresh hi -> fresh ho -> (forall g, hh = Some g -> fresh g /\ h_ino g <> h_ino ho) ->
  s_data (fst a) (h_ino ho) = [] -> (forall g, hh = Some g -> s_data (fst a) (h_ino g) = []) ->
  target req ho hh = Some (h_ino hi) ->
  exists D, let '(o, (out, hdr)) := encrypted E req (s_rng (fst a)) (snd a) D in
    let r := run_shared (encrypt_shared E req) hi ho hh a in
    fst (fst r) = o
    /\ s_data (fst (snd r)) (h_ino ho) = out
    /\ (forall g, hh = Some g -> s_data (fst (snd r)) (h_ino g) = hdr)
    /\ (forall j, j <> h_ino ho -> (forall g, hh = Some g -> j <> h_ino g) ->
         s_data (fst (snd r)) j = s_data (fst a) j)
    /\ length D <= 416
    /\ (o = Ok tt -> length D = 416 /\ firstn 416 (s_data (fst (snd r)) (h_ino hi)) = D
                     /\ (er_detached req = true -> s_data (fst (snd r)) (h_ino hi) = D)).
Proof.
  intros E req hi ho hh a HV DT FI FO FG DO DH TG.
  destruct (onto_header_bs E BLOCK_SIZE req hi ho hh a block_large HV DT FI FO FG DO DH TG) as (D & H).
  exists D. cbv zeta in H. unfold encrypted, encrypt_execute. rewrite <- same_encrypt.
  unfold run_shared, encrypt_shared.
  destruct (encrypt_execute_p world_ports E BLOCK_SIZE req _) as [o wf].
  destruct (encrypt_execute_p shared_ports E BLOCK_SIZE req _) as [o' xf]. cbn [fst snd] in *. subst.
  exact H.
Qed.
