(** The theorems of C106, put together. *)
From Coq Require Import List Arith NArith ZArith Bool String.
From Verif Require Import Bytes Outcome IO Primitives Crypto Header Stream EncDec FS Archive Cli Shared.
From Verif Require Import SharedSpec SharedSim SharedProofs SharedDecrypt SharedEncrypt SharedExact SharedOver SharedOracle SharedCalls.
Import ListNotations.
Local Open Scope nat_scope.

Lemma same_programs : forall E bs w,
  (forall req, encrypt_execute_p world_ports E bs req w = encrypt_execute_bs E bs req w)
  /\ (forall detached raw,
        decrypt_execute_p world_ports E bs detached raw w = decrypt_execute_bs E bs detached raw w).
Proof. intros. split; intros; [apply same_encrypt|apply same_decrypt]. Qed.

Lemma different_files : forall E hi ho hh a, apart hi ho hh ->
  (forall req, er_detached req = is_some hh ->
     fst (run_shared (encrypt_shared E req) hi ho hh a) = fst (run_world (encrypt_execute E req) hi ho hh a)
     /\ same_state (snd (run_shared (encrypt_shared E req) hi ho hh a))
                   (snd (run_world (encrypt_execute E req) hi ho hh a)))
  /\ (forall raw,
     fst (run_shared (decrypt_shared E (is_some hh) raw) hi ho hh a)
     = fst (run_world (decrypt_execute E (is_some hh) raw) hi ho hh a)
     /\ same_state (snd (run_shared (decrypt_shared E (is_some hh) raw) hi ho hh a))
                   (snd (run_world (decrypt_execute E (is_some hh) raw) hi ho hh a))).
Proof.
  intros E hi ho hh a AP. split.
  - intros req D. apply distinct_encrypt; [exact AP|]. destruct hh; exact D.
  - intros raw. pose proof (distinct_decrypt E raw hi ho hh a AP) as H. cbv zeta in H. destruct hh; exact H.
Qed.

Lemma calls : forall V,
  (forall lib1 lib2,
     (forall req hi ho hh a, v5_request req -> er_detached req = is_some hh ->
        h_pos hi = 0 -> h_pos ho = 0 -> (forall g, hh = Some g -> h_pos g = 0) -> emptied (fst a) ho hh ->
        lib1 req hi ho hh a = lib2 req hi ho hh a) ->
     forall input output p al c,
     encrypt_stream_by lib1 V input output p al c = encrypt_stream_by lib2 V input output p al c)
  /\ (forall lib1 lib2,
     (forall raw hi ho hh a, h_pos hi = 0 -> h_pos ho = 0 -> (forall g, hh = Some g -> h_pos g = 0) ->
        s_data (fst a) (h_ino ho) = [] -> lib1 raw hi ho hh a = lib2 raw hi ho hh a) ->
     forall input output p c,
     decrypt_stream_by lib1 V input output p c = decrypt_stream_by lib2 V input output p c)
  /\ (forall input output p al c,
        encrypt_stream V input output p al c = encrypt_stream_by (encrypt_files V) V input output p al c)
  /\ (forall input output p c,
        decrypt_stream V input output p c = decrypt_stream_by (decrypt_files V) V input output p c).
Proof.
  intros V. split; [intros; apply encrypt_calls; assumption|].
  split; [intros; apply decrypt_calls; assumption|]. split; intros; reflexivity.
Qed.

Lemma left_open : forall E hi ho hh (a : asys), env_ok E ->
  (forall req, v5_request req -> emptied (fst a) ho hh ->
     (same_file ho hi || same_opt ho hh || same_opt hi hh)%bool = true ->
     exists r, al_outcome r <> Panic /\ al_outcome r <> Diverge
     /\ forall V, ce_E V = E -> ce_alias V a = r ->
        fst (encrypt_files V req hi ho hh a) = as_alias (fst (fst (run_shared (encrypt_shared E req) hi ho hh a)))
        /\ same_state (snd (encrypt_files V req hi ho hh a))
                      (snd (run_shared (encrypt_shared E req) hi ho hh a)))
  /\ (forall raw, s_data (fst a) (h_ino ho) = [] ->
     (same_file ho hi || same_opt ho hh)%bool = true ->
     exists r, al_outcome r <> Panic /\ al_outcome r <> Diverge
     /\ forall V, ce_E V = E -> ce_alias V a = r ->
        fst (decrypt_files V raw hi ho hh a)
        = as_alias (fst (fst (run_shared (decrypt_shared E (is_some hh) raw) hi ho hh a)))
        /\ same_state (snd (decrypt_files V raw hi ho hh a))
                      (snd (run_shared (decrypt_shared E (is_some hh) raw) hi ho hh a))).
Proof.
  intros E hi ho hh a HE. split.
  - intros req HV EM AL. apply encrypt_oracle; assumption.
  - intros raw EM AL. apply decrypt_oracle; assumption.
Qed.

Lemma decrypt_onto_itself : forall E raw hi ho hh (a : asys), env_ok E ->
  s_data (fst a) (h_ino ho) = [] -> (same_file ho hi || same_opt ho hh)%bool = true ->
  let r := run_shared (decrypt_shared E (is_some hh) raw) hi ho hh a in
  (exists e, fst (fst r) = Err e) /\ disk_kept (fst (snd r)) (fst a).
Proof.
  intros E raw hi ho hh a HE EO AL. cbv zeta.
  assert (B : bad (decrypt_shared E (is_some hh) raw) (mkShared hi ho hh (fst a) (snd a))).
  { apply decrypt_nothing; auto.
    - cbn [sh_hdr]. destruct hh; [eauto|discriminate].
    - cbn [sh_in sh_out sh_hdr]. apply orb_true_iff in AL as [AL|AL].
      + left. unfold same_file in AL. apply Nat.eqb_eq in AL. auto.
      + right. unfold same_opt in AL. destruct hh as [g|]; [|discriminate]. split; [reflexivity|].
        exists g. unfold same_file in AL. apply Nat.eqb_eq in AL. auto. }
  destruct B as (e & x & R & K & _). unfold run_shared. rewrite R. cbn [fst snd]. eauto.
Qed.

Lemma onto_input : forall E req hi ho hh (a : asys), v5_request req ->
  er_detached req = is_some hh ->
  fresh hi -> fresh ho -> (forall g, hh = Some g -> fresh g /\ h_ino g <> h_ino ho) ->
  emptied (fst a) ho hh -> target req ho hh = Some (h_ino hi) ->
  exists D, let '(o, (out, hdr)) := encrypted E req (s_rng (fst a)) (snd a) D in
    let r := run_shared (encrypt_shared E req) hi ho hh a in
    fst (fst r) = o
    /\ s_data (fst (snd r)) (h_ino ho) = out
    /\ (forall g, hh = Some g -> s_data (fst (snd r)) (h_ino g) = hdr)
    /\ (forall j, j <> h_ino ho -> (forall g, hh = Some g -> j <> h_ino g) ->
         s_data (fst (snd r)) j = s_data (fst a) j)
    /\ List.length D <= 416
    /\ (o = Ok tt -> List.length D = 416 /\ firstn 416 (s_data (fst (snd r)) (h_ino hi)) = D
                     /\ (er_detached req = true -> s_data (fst (snd r)) (h_ino hi) = D)).
Proof.
  intros E req hi ho hh a HV DT FI FO FG (EO & EH) TG. apply onto_header; auto.
Qed.
