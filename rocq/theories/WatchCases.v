(** Witnesses and samples for C102 and C103. *)
From Coq Require Import List Arith NArith ZArith Ascii String Bool Lia.
From Verif Require Import Bytes Outcome IO Primitives Crypto Header Stream KeyModel EncDec KeyOps Overwrite FS Archive.
From Verif Require Import IOSpec ToyEnv Fixtures FileCases FSSpec FSFacts EraseCases ArchiveSpec ArchiveCases KeyCases.
From Verif Require Import Watch WatchSpec.
Import ListNotations.
Local Open Scope nat_scope.
Local Open Scope list_scope.

Definition original : bytes := enc_file toy 4 (ex_req V5 (Argon2id 3)) ex_text.
(** The identifier of the algorithm changed *)
Definition altered : bytes := firstn 3 original ++ x01 :: skipn 4 original.

Lemma altered_told : exists E bs req content f i b t,
  env_ok E /\ fst (encrypt_execute_bs E bs req (file_world content [])) = Ok tt
  /\ f = enc_file E bs req content
  /\ fst (decrypt_execute_bs E bs false (er_raw_key req) (io_world f)) = Ok tt
  /\ let f' := firstn i f ++ b :: skipn (S i) f in
     In (HeaderTold t) (events (decrypt_execute_w E bs false (er_raw_key req)) (io_world f'))
     /\ t <> er_header_type req
     /\ w_tr (snd (decrypt_execute_bs E bs false (er_raw_key req) (io_world f'))) = [].
Proof.
  exists toy, 4, (ex_req V5 (Argon2id 3)), ex_text, original, 3, x01, (mkHT V5 XChaCha20Poly1305 StreamMode).
  split; [exact toy_ok|]. split; [vm_compute; reflexivity|]. split; [reflexivity|].
  split; [vm_compute; reflexivity|]. cbv zeta. split; [vm_compute; left; reflexivity|].
  split; [discriminate|]. vm_compute. reflexivity.
Qed.

(** An archive of two directories and one file *)
Definition two_dirs : sys :=
  afs [(["tmp"], NDir); (["home"], NDir); (["home"; "in"], NFile 0); (["home"; "out"], NDir)]%string
      [archive [("d/", ""); ("d/a", "text"); ("e/", "")]]%string.

Lemma count_of_directories : exists s req sched a' ps n,
  tree_ok s /\ no_faults s /\ inodes_ok s
  /\ unpack_execute toy toy_zip pick sched req (s, []) = (Ok tt, a')
  /\ (forall l, ur_ask req l = Some (map (fun _ => true) l))
  /\ filter is_told (events (unpack_execute_w toy toy_zip pick BLOCK_SIZE sched req) (s, []))
     = HeaderTold (mkHT V5 XChaCha20Poly1305 StreamMode) :: map PathAsked ps ++ [CountTold n]
  /\ n = 3 /\ List.length (filter (fun p => match stat (fst a') p with Some (NFile _) => true | _ => false end) ps) = 1.
Proof.
  exists two_dirs, (unpack_req out yes), (turns 3). eexists (snd (_)), [rel ["out"; "d"]; rel ["out"; "d"; "a"]; rel ["out"; "e"]]%string, 3.
  split; [apply tree_okb_spec; vm_compute; reflexivity|].
  split; [split; reflexivity|].
  split; [apply inodes_okb_spec; vm_compute; reflexivity|].
  split; [apply pair_ok; vm_compute; reflexivity|]. split; [reflexivity|].
  split; [vm_compute; reflexivity|].
  split; [reflexivity|]. vm_compute. reflexivity.
Qed.
