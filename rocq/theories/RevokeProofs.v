(** Proofs for PropertiesRevoke.v: a header kept from before a key was removed or
    changed, put back onto the file. *)
From Coq Require Import List Arith NArith ZArith Lia Bool.
From Verif Require Import Bytes Outcome IO Primitives Crypto Header Stream KeyModel EncDec KeyOps HeaderOps.
From Verif Require Import BytesFacts IOSpec IOFacts HeaderSpec.
From Verif Require Import StreamSpec FileSpec KeySpec KeyHistory HeaderOpsProofs.
From Verif Require Import ToyEnv Fixtures FileCases KeyCases.
Local Open Scope nat_scope.

Lemma run_all_app : forall E a b data,
  snd (run_all E (a ++ b) data) = snd (run_all E b (snd (run_all E a data))).
Proof.
  intros E a. induction a as [|x a IH]; intros b data; cbn [app run_all snd]; [reflexivity|]. apply IH.
Qed.

Lemma old_header_holds : forall E req w w' before later pw out r tr, env_ok E ->
  ht_version (er_header_type req) = V5 -> er_detached req = false ->
  d_plan (w_out w) = [] -> d_data (w_out w) = [] ->
  encrypt_execute E req w = (Ok tt, w') ->
  let old := snd (run_all E before (d_data (w_out w'))) in
  let new := snd (run_all E later old) in
  exists w1 w2 w3,
    header_dump (two_files old []) = (Ok tt, w1)
    /\ header_strip (two_files new []) = (Ok tt, w2)
    /\ header_restore (two_files (d_data (w_out w1)) (d_data (w_in w2))) = (Ok tt, w3)
    /\ d_data (w_out w3) = old
    /\ let r1 := decrypt_execute E false pw (mkWorld (dev_of old) out (dev_of []) r tr) in
       let r2 := decrypt_execute E true pw
                   (mkWorld (dev_of (d_data (w_in w2))) out (dev_of (d_data (w_out w1))) r tr) in
       fst r1 = fst r2 /\ w_out (snd r1) = w_out (snd r2).
Proof.
  intros E req w w' before later pw out r tr HE Hv Hdt Ho Hnil H old new.
  destruct (encrypt_wff E req w w' HE Hv Hdt Ho Hnil H) as (h & hdr & body & Vh & W).
  destruct (run_all_wff E before h hdr body _ HE Vh W) as (h1 & hdr1 & Vh1 & W1). fold old in W1.
  destruct (run_all_wff E later h1 hdr1 body _ HE Vh1 W1) as (h2 & hdr2 & Vh2 & W2). fold new in W2.
  destruct (dump_strip_restore_holds E req w w' before HE Hv Hdt Ho Hnil H)
    as (w1 & wx & w3 & A1 & A2 & A3 & A4 & A5 & A6). fold old in A1, A2, A3, A4, A6.
  destruct (dump_strip_restore_holds E req w w' (before ++ later) HE Hv Hdt Ho Hnil H)
    as (wy & w2 & wz & B1 & B2 & B3 & B4 & B5 & B6).
  rewrite run_all_app in B3, B4. fold old in B3, B4. fold new in B3, B4.
  assert (S : skipn 416 new = skipn 416 old).
  { pose proof (wff_size _ _ _ _ W1) as L1. rewrite Vh1 in L1. cbn [get_size] in L1.
    pose proof (wff_size _ _ _ _ W2) as L2. rewrite Vh2 in L2. cbn [get_size] in L2.
    destruct W1 as (_ & _ & D1). destruct W2 as (_ & _ & D2). rewrite D1, D2.
    rewrite skipn_app_exact by now symmetry. now rewrite skipn_app_exact by now symmetry. }
  rewrite S, <- A4 in B4.
  exists w1, w2, w3. split; [exact A1|]. split; [exact B3|].
  split; [rewrite B4; exact A5|]. split; [exact A6|].
  destruct (stripped_holds E req w w' before pw out r tr HE Hv Hdt Ho Hnil H) as (u1 & u2 & C1 & C2 & C3).
  fold old in C1, C2, C3. rewrite A1 in C1. rewrite A3 in C2.
  inversion C1; subst u1. inversion C2; subst u2.
  rewrite B4. exact C3.
Qed.

(** Without the old header: a password which the list of passwords no longer holds
    opens nothing, in front of the file or from a separate header. *)
Lemma file_alone_holds : forall E req w w' ops pw l, env_ok E ->
  ht_version (er_header_type req) = V5 -> er_detached req = false ->
  d_plan (w_in w) = [] -> d_plan (w_out w) = [] -> d_data (w_out w) = [] ->
  encrypt_execute E req w = (Ok tt, w') ->
  let data0 := d_data (w_out w') in
  let data := snd (run_all E ops data0) in
  follow ops (fst (run_all E ops data0)) [er_raw_key req] = Some l -> ~ In pw l ->
  (exists n, n <= length ops
     /\ crossed E (pw :: er_raw_key req :: passwords ops) (snd (run_all E (firstn n ops) data0)))
  \/ (forall v, w_in v = dev_at data 0 -> d_plan (w_out v) = [] ->
        exists e v', decrypt_execute E false pw v = (Err e, v') /\ w_out v' = w_out v)
     /\ exists w1 w2,
          header_dump (two_files data []) = (Ok tt, w1)
          /\ header_strip (two_files data []) = (Ok tt, w2)
          /\ forall out r tr, d_plan out = [] ->
               exists e, fst (decrypt_execute E true pw
                   (mkWorld (dev_of (d_data (w_in w2))) out (dev_of (d_data (w_out w1))) r tr)) = Err e
               /\ w_out (snd (decrypt_execute E true pw
                   (mkWorld (dev_of (d_data (w_in w2))) out (dev_of (d_data (w_out w1))) r tr))) = out.
Proof.
  intros E req w w' ops pw l HE Hv Hdt Hi Ho Hnil H data0 data F NI.
  destruct (history_follow_holds E req w w' ops pw HE Hv Hdt Hi Ho Hnil H) as [C|(l' & F' & _ & _ & _ & D)];
    [left; exact C|right].
  fold data0 in F'. rewrite F in F'. inversion F'; subst l'.
  fold data0 in D. fold data in D.
  assert (N : existsb (bytes_eqb pw) l = false).
  { destruct (existsb (bytes_eqb pw) l) eqn:X; [|reflexivity]. exfalso. apply NI.
    apply existsb_exists in X as (q & Q1 & Q2). apply bytes_eqb_eq in Q2. now subst q. }
  rewrite N in D. split; [exact D|].
  destruct (dump_strip_restore_holds E req w w' ops HE Hv Hdt Ho Hnil H) as (w1 & w2 & w3 & A1 & _ & A3 & _).
  fold data0 in A1, A3. fold data in A1, A3.
  exists w1, w2. split; [exact A1|]. split; [exact A3|].
  intros out r tr Po.
  destruct (stripped_holds E req w w' ops pw out r tr HE Hv Hdt Ho Hnil H) as (u1 & u2 & C1 & C2 & C3 & C4).
  fold data0 in C1, C2, C3, C4. fold data in C1, C2, C3, C4. rewrite A1 in C1. rewrite A3 in C2.
  inversion C1; subst u1. inversion C2; subst u2.
  destruct (D (mkWorld (dev_of data) out (dev_of []) r tr) eq_refl Po) as (e & v' & D1 & D2).
  exists e. rewrite <- C3, <- C4, D1. split; [reflexivity|exact D2].
Qed.

(** The file, [pw2] added, the header kept, [pw2] deleted; then the kept header on the
    stripped file. *)
Definition with_pw2 : bytes := after (OpAdd ex_pw pw2 (Argon2id 3)) kfile.
Definition kept : bytes := d_data (w_out (snd (header_dump (two_files with_pw2 [])))).
Definition without_pw2 : bytes := after (OpDelete pw2) with_pw2.
Definition bare : bytes := d_data (w_in (snd (header_strip (two_files without_pw2 [])))).
Definition again : bytes := d_data (w_out (snd (header_restore (two_files kept bare)))).

Lemma comes_back :
  dec_with pw2 with_pw2 = Some ex_text
  /\ fst (run_op toy (OpDelete pw2) (handle with_pw2 0)) = Ok tt
  /\ dec_with pw2 without_pw2 = None
  /\ fst (header_strip (two_files without_pw2 [])) = Ok tt
  /\ fst (header_restore (two_files kept bare)) = Ok tt
  /\ dec_with pw2 again = Some ex_text.
Proof. vm_compute. repeat split. Qed.
