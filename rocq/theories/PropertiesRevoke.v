(** Property C104: whether deleting or changing a key takes its access away
    (crates/volaris-tools/src/key/{delete,change}.rs, crates/volaris-tools/src/header/).
    Vocabulary: KeySpec.v. *)
From Coq Require Import List Arith NArith ZArith Bool.
From Verif Require Import Bytes Outcome IO Primitives Crypto Header Stream KeyModel EncDec KeyOps HeaderOps.
From Verif Require Import HeaderSpec StreamSpec FileSpec KeySpec.
From Verif Require Import ToyEnv Fixtures FileCases KeyCases RevokeProofs.
Import ListNotations.
Local Open Scope nat_scope.

(** REFUTED: a password that was deleted opens the file again as soon as a header
    dumped before the deletion is put back. *)
Theorem C104_revoked_refuted :
  dec_with pw2 with_pw2 = Some ex_text
  /\ fst (run_op toy (OpDelete pw2) (handle with_pw2 0)) = Ok tt
  /\ dec_with pw2 without_pw2 = None
  /\ fst (header_strip (two_files without_pw2 [])) = Ok tt
  /\ fst (header_restore (two_files kept bare)) = Ok tt
  /\ dec_with pw2 again = Some ex_text.
Proof. exact comes_back. Qed.
Print Assumptions C104_revoked_refuted.

(** And this is so for every file and every history: whatever key operations come after
    the dump, stripping the file and restoring the dumped header gives back the file as it
    was at the time of the dump, byte for byte. The stripped file with the dumped header
    beside it decrypts, for every password, as the file did at that time. *)
Theorem C104_old_header : forall E req w w' before later pw out r tr, env_ok E ->
  ht_version (er_header_type req) = V5 -> er_detached req = false ->
  d_plan (w_out w) = [] -> d_data (w_out w) = [] ->
  encrypt_execute E req w = (Ok tt, w') ->
  let old := snd (run_all E before (d_data (w_out w'))) in
  let new := snd (run_all E later old) in
  exists w1 w2 w3,
    header_dump (two_files old []) = (Ok tt, w1)
    /\ header_strip (two_files new []) = (Ok tt, w2)
    /\ header_restore (two_files (d_data (w_out w1)) (d_data (w_in w2))) = (Ok tt, w3)
    /\ d_data (w_out w3) = old
    /\ let r1 := decrypt_execute E false pw (mkWorld (dev_of old) out (dev_of []) r tr) in
       let r2 := decrypt_execute E true pw
                   (mkWorld (dev_of (d_data (w_in w2))) out (dev_of (d_data (w_out w1))) r tr) in
       fst r1 = fst r2 /\ w_out (snd r1) = w_out (snd r2).
Proof. exact old_header_holds. Qed.
Print Assumptions C104_old_header.

(** What is true: with nothing but the file as it is after the operations, whole or
    split into its header and the rest, a password that the operations have removed
    opens nothing and writes nothing. The exception is that one password opens the
    keyslot of another ([crossed]). *)
Theorem C104_file_alone_partial : forall E req w w' ops pw l, env_ok E ->
  ht_version (er_header_type req) = V5 -> er_detached req = false ->
  d_plan (w_in w) = [] -> d_plan (w_out w) = [] -> d_data (w_out w) = [] ->
  encrypt_execute E req w = (Ok tt, w') ->
  let data0 := d_data (w_out w') in
  let data := snd (run_all E ops data0) in
  follow ops (fst (run_all E ops data0)) [er_raw_key req] = Some l -> ~ In pw l ->
  (exists n, n <= length ops
     /\ crossed E (pw :: er_raw_key req :: passwords ops) (snd (run_all E (firstn n ops) data0)))
  \/ (forall v, w_in v = dev_at data 0 -> d_plan (w_out v) = [] ->
        exists e v', decrypt_execute E false pw v = (Err e, v') /\ w_out v' = w_out v)
     /\ exists w1 w2,
          header_dump (two_files data []) = (Ok tt, w1)
          /\ header_strip (two_files data []) = (Ok tt, w2)
          /\ forall out r tr, d_plan out = [] ->
               exists e, fst (decrypt_execute E true pw
                   (mkWorld (dev_of (d_data (w_in w2))) out (dev_of (d_data (w_out w1))) r tr)) = Err e
               /\ w_out (snd (decrypt_execute E true pw
                   (mkWorld (dev_of (d_data (w_in w2))) out (dev_of (d_data (w_out w1))) r tr))) = out.
Proof. exact file_alone_holds. Qed.
Print Assumptions C104_file_alone_partial.

(** A changed password, the header kept from before the change, beside the stripped file. *)
Example C104_changed :
  let now := after (OpChange ex_pw pw3 (Blake3Balloon 5)) kfile in
  let kept0 := d_data (w_out (snd (header_dump (two_files kfile [])))) in
  let kept1 := d_data (w_out (snd (header_dump (two_files now [])))) in
  let bare := d_data (w_in (snd (header_strip (two_files now [])))) in
  let dec pw h := ok_out (decrypt_execute toy true pw (mkWorld (dev_of bare) (dev_of []) (dev_of h) no_rng [])) in
  dec_with ex_pw now = None /\ dec_with pw3 now = Some ex_text
  /\ dec ex_pw kept0 = Some ex_text /\ dec pw3 kept0 = None
  /\ dec ex_pw kept1 = None /\ dec pw3 kept1 = Some ex_text.
Proof. vm_compute. repeat split. Qed.
