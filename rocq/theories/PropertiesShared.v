(** Theorems for C106. *)
From Coq Require Import List Arith NArith ZArith Bool String.
From Verif Require Import Bytes Outcome IO Primitives Crypto Header Stream EncDec FS Archive Cli Shared.
From Verif Require Import IOSpec FileSpec CliSpec SharedSpec ToyEnv Fixtures CliCases EraseCases SharedCases.
From Verif Require Import SharedSim SharedProofs SharedDecrypt SharedEncrypt SharedExact SharedOver SharedOracle SharedCalls.
From Verif Require SharedResults.
Import ListNotations.
Local Open Scope nat_scope.

(** The programs over open files are those of EncDec.v. *)
Theorem C106_same_programs : forall E bs w,
  (forall req, encrypt_execute_p world_ports E bs req w = encrypt_execute_bs E bs req w)
  /\ (forall detached raw,
        decrypt_execute_p world_ports E bs detached raw w = decrypt_execute_bs E bs detached raw w).
Proof. exact SharedResults.same_programs. Qed.
Print Assumptions C106_same_programs.

(** On different files they do what Cli.v takes them to do, whatever fails. *)
Theorem C106_different_files : forall E hi ho hh a, apart hi ho hh ->
  (forall req, er_detached req = is_some hh ->
     fst (run_shared (encrypt_shared E req) hi ho hh a) = fst (run_world (encrypt_execute E req) hi ho hh a)
     /\ same_state (snd (run_shared (encrypt_shared E req) hi ho hh a))
                   (snd (run_world (encrypt_execute E req) hi ho hh a)))
  /\ (forall raw,
     fst (run_shared (decrypt_shared E (is_some hh) raw) hi ho hh a)
     = fst (run_world (decrypt_execute E (is_some hh) raw) hi ho hh a)
     /\ same_state (snd (run_shared (decrypt_shared E (is_some hh) raw) hi ho hh a))
                   (snd (run_world (decrypt_execute E (is_some hh) raw) hi ho hh a))).
Proof. exact SharedResults.different_files. Qed.
Print Assumptions C106_different_files.

Example C106_different_case :
  let r := run_shared (encrypt_shared toy (ex_req V5 (Blake3Balloon 5))) (at_file 0) (at_file 1) None three in
  apart (at_file 0) (at_file 1) None
  /\ fst (fst r) = Ok tt /\ List.length (s_data (fst (snd r)) 1) = 416 + 9 + 16 /\ s_data (fst (snd r)) 0 = ex_text.
Proof. split; [split; discriminate|]. vm_compute. repeat split. Qed.

(** The commands call the library at the start of their files, and with empty files
    to write: two ways of running it that agree there give the same commands. *)
Theorem C106_calls : forall V,
  (forall lib1 lib2,
     (forall req hi ho hh a, v5_request req -> er_detached req = is_some hh ->
        h_pos hi = 0 -> h_pos ho = 0 -> (forall g, hh = Some g -> h_pos g = 0) -> emptied (fst a) ho hh ->
        lib1 req hi ho hh a = lib2 req hi ho hh a) ->
     forall input output p al c,
     encrypt_stream_by lib1 V input output p al c = encrypt_stream_by lib2 V input output p al c)
  /\ (forall lib1 lib2,
     (forall raw hi ho hh a, h_pos hi = 0 -> h_pos ho = 0 -> (forall g, hh = Some g -> h_pos g = 0) ->
        s_data (fst a) (h_ino ho) = [] -> lib1 raw hi ho hh a = lib2 raw hi ho hh a) ->
     forall input output p c,
     decrypt_stream_by lib1 V input output p c = decrypt_stream_by lib2 V input output p c)
  /\ (forall input output p al c,
        encrypt_stream V input output p al c = encrypt_stream_by (encrypt_files V) V input output p al c)
  /\ (forall input output p c,
        decrypt_stream V input output p c = decrypt_stream_by (decrypt_files V) V input output p c).
Proof. exact SharedResults.calls. Qed.
Print Assumptions C106_calls.

(** On one file, for such calls, they end (no panic, no endless loop), and what they do
    is one of the results Cli.v leaves open. *)
Theorem C106_left_open : forall E hi ho hh (a : asys), env_ok E ->
  (forall req, v5_request req -> emptied (fst a) ho hh ->
     (same_file ho hi || same_opt ho hh || same_opt hi hh)%bool = true ->
     exists r, al_outcome r <> Panic /\ al_outcome r <> Diverge
     /\ forall V, ce_E V = E -> ce_alias V a = r ->
        fst (encrypt_files V req hi ho hh a) = as_alias (fst (fst (run_shared (encrypt_shared E req) hi ho hh a)))
        /\ same_state (snd (encrypt_files V req hi ho hh a))
                      (snd (run_shared (encrypt_shared E req) hi ho hh a)))
  /\ (forall raw, s_data (fst a) (h_ino ho) = [] ->
     (same_file ho hi || same_opt ho hh)%bool = true ->
     exists r, al_outcome r <> Panic /\ al_outcome r <> Diverge
     /\ forall V, ce_E V = E -> ce_alias V a = r ->
        fst (decrypt_files V raw hi ho hh a)
        = as_alias (fst (fst (run_shared (decrypt_shared E (is_some hh) raw) hi ho hh a)))
        /\ same_state (snd (decrypt_files V raw hi ho hh a))
                      (snd (run_shared (decrypt_shared E (is_some hh) raw) hi ho hh a))).
Proof. exact SharedResults.left_open. Qed.
Print Assumptions C106_left_open.

(** Decrypting onto the input or onto the header file always fails, and writes nothing
    into the file just emptied. *)
Theorem C106_decrypt_onto_itself : forall E raw hi ho hh (a : asys), env_ok E ->
  s_data (fst a) (h_ino ho) = [] -> (same_file ho hi || same_opt ho hh)%bool = true ->
  let r := run_shared (decrypt_shared E (is_some hh) raw) hi ho hh a in
  (exists e, fst (fst r) = Err e) /\ disk_kept (fst (snd r)) (fst a).
Proof. exact SharedResults.decrypt_onto_itself. Qed.
Print Assumptions C106_decrypt_onto_itself.

Example C106_decrypt_case :
  fst decrypted_onto_itself = Err (CDecrypt DecDeserializeHeader)
  /\ s_data (disk (start [] [])) 0 = B "secret"
  /\ s_data (disk (snd decrypted_onto_itself)) 0 = [].
Proof. vm_compute. repeat split. Qed.

(** Encrypting when the header goes into the input (as the output, or as the header
    file): the run is that on a text [D] of its own, which is the header written. *)
Theorem C106_onto_input : forall E req hi ho hh (a : asys), v5_request req ->
  er_detached req = is_some hh ->
  fresh hi -> fresh ho -> (forall g, hh = Some g -> fresh g /\ h_ino g <> h_ino ho) ->
  emptied (fst a) ho hh -> target req ho hh = Some (h_ino hi) ->
  exists D, let '(o, (out, hdr)) := encrypted E req (s_rng (fst a)) (snd a) D in
    let r := run_shared (encrypt_shared E req) hi ho hh a in
    fst (fst r) = o
    /\ s_data (fst (snd r)) (h_ino ho) = out
    /\ (forall g, hh = Some g -> s_data (fst (snd r)) (h_ino g) = hdr)
    /\ (forall j, j <> h_ino ho -> (forall g, hh = Some g -> j <> h_ino g) ->
         s_data (fst (snd r)) j = s_data (fst a) j)
    /\ List.length D <= 416
    /\ (o = Ok tt -> List.length D = 416 /\ firstn 416 (s_data (fst (snd r)) (h_ino hi)) = D
                     /\ (er_detached req = true -> s_data (fst (snd r)) (h_ino hi) = D)).
Proof. exact SharedResults.onto_input. Qed.
Print Assumptions C106_onto_input.

(** So encrypting a file onto itself succeeds, and decrypting gives the header back in
    place of the content. *)
Theorem C106_comes_back : forall E req hi ho (a : asys) key, env_ok E -> v5_request req ->
  ht_mode (er_header_type req) = StreamMode -> er_detached req = false ->
  fresh hi -> fresh ho -> h_ino hi = h_ino ho -> s_data (fst a) (h_ino ho) = [] ->
  hash E (er_hashing_algorithm req) (er_raw_key req) (FileSpec.draw (s_rng (fst a)) 0 16) = Ok key ->
  let r := run_shared (encrypt_shared E req) hi ho None a in
  fst (fst r) = Ok tt
  /\ let file := s_data (fst (snd r)) (h_ino ho) in
     forall v, d_plan (w_in v) = [] -> d_plan (w_out v) = [] -> rest (w_in v) = file ->
          exists v', decrypt_execute E false (er_raw_key req) v = (Ok tt, v')
            /\ wrote (w_out v) (w_out v') (firstn 416 file).
Proof. exact comes_back. Qed.
Print Assumptions C106_comes_back.

(** "encrypt -f -k k a ./a": accepted, since the names differ; "secret" is lost. *)
Example C106_onto_case :
  s_data (disk (start [] [])) 0 = B "secret"
  /\ fst onto_itself = Ok tt /\ List.length (s_data (disk (snd onto_itself)) 0) = 416 + (416 + 16)
  /\ fst and_back = Ok tt
  /\ s_data (disk (snd and_back)) 2 = firstn 416 (s_data (disk (snd onto_itself)) 0)
  /\ fst header_there = Ok tt /\ List.length (s_data (disk (snd header_there)) 0) = 416
  /\ List.length (s_data (disk (snd header_there)) 10) = 416 + 16.
Proof. vm_compute. repeat split. Qed.

(** Encrypting when the output is the header file: the body is written over the header. *)
Theorem C106_over_header : forall E req hi ho hh (a : asys), v5_request req -> er_detached req = true ->
  fresh hi -> fresh ho -> fresh hh -> h_ino hi <> h_ino ho -> h_ino hh = h_ino ho ->
  s_data (fst a) (h_ino ho) = [] ->
  let '(o, (out, hdr)) := encrypted E req (s_rng (fst a)) (snd a) (s_data (fst a) (h_ino hi)) in
  let r := run_shared (encrypt_shared E req) hi ho (Some hh) a in
  fst (fst r) = o
  /\ s_data (fst (snd r)) (h_ino ho) = out ++ skipn (List.length out) hdr
  /\ (forall j, j <> h_ino ho -> s_data (fst (snd r)) j = s_data (fst a) j).
Proof. exact body_over_header. Qed.
Print Assumptions C106_over_header.

(** 22 bytes of the header are lost with a text of 6. *)
Example C106_over_case :
  let '(o, (out, hdr)) := encrypted (ce_E V0)
      (mkEncReq true (B "key") (mkHT V5 Aes256Gcm StreamMode) (Blake3Balloon 5)) noise [] (B "secret") in
  o = Ok tt /\ List.length out = 22 /\ List.length hdr = 416
  /\ fst header_below = Ok tt /\ s_data (disk (snd header_below)) 10 = out ++ skipn 22 hdr
  /\ fst (decrypt_execute (ce_E V0) false (B "key")
       (mkWorld (dev_of (s_data (disk (snd header_below)) 10)) (dev_of []) (dev_of []) noise [])) <> Ok tt.
Proof. vm_compute. repeat split. discriminate. Qed.
