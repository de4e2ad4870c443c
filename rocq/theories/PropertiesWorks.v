(** Property C87: encrypt and decrypt finish without an error when nothing is in the
    way.  Vocabulary: WorksSpec.v; the concrete file system is in CliCases.v. *)
From Coq Require Import List Arith NArith ZArith Ascii String Bool.
From Verif Require Import Bytes Outcome IO Primitives Crypto Header Stream KeyModel EncDec.
From Verif Require Import Overwrite Hash FS Erase Archive Cli.
From Verif Require Import ToyEnv Fixtures EraseCases IOSpec FileSpec FSSpec ArchiveSpec CliSpec CliCases ChoiceSpec.
From Verif Require Import DecryptSpec DecryptCases WorksSpec WorksProofs WorksCases.
Import ListNotations.
Local Open Scope nat_scope.
Local Open Scope list_scope.

(** Encrypting a file: of no more blocks than the counter counts, into places that are
    not the file itself and can be written, with a key that can be had. *)
Theorem C87_encrypt_works : forall V g c input output i k raw t,
  env_ok (ce_E V) -> no_faults (disk c) -> inodes_ok (disk c) ->
  given g "input" input -> given g "output" output ->
  stat (disk c) (os_path input) = Some (NFile i) ->
  (N.of_nat (List.length (s_data (disk c) i) / BLOCK_SIZE) <= counter_max (ce_E V))%N ->
  (forall x, In x (write_targets g output) -> stat (disk c) x <> Some (NFile i)) ->
  can_write g (disk c) (os_path output) ->
  (forall h, given g "header" h ->
     can_write g (disk c) (os_path h) /\ different (disk c) (os_path output) (os_path h)) ->
  key_source V CmdEncrypt g k -> yields V c k Validate raw t -> hashes (ce_E V) (kdf_asked g) raw ->
  exists c', run_command V CmdEncrypt g c = (Ok tt, c').
Proof. exact encrypt_works. Qed.
Print Assumptions C87_encrypt_works.

(** Decrypting a file of any version, with the header in the file ... *)
Theorem C87_decrypt_works : forall V g c input output i h aad d mk pt k raw t,
  env_ok (ce_E V) -> ce_debug V = false -> no_faults (disk c) -> inodes_ok (disk c) ->
  given g "input" input -> given g "output" output -> not_given g "header" ->
  stat (disk c) (os_path input) = Some (NFile i) ->
  deserialize (mkDev (s_data (disk c) i) 0 [] []) = (Ok (h, aad), d) ->
  unlocks (ce_E V) raw h mk -> body_opens (ce_E V) h aad mk (rest d) pt ->
  free_name (disk c) (os_path output) ->
  key_source V CmdDecrypt g k -> yields V c k Direct raw t ->
  exists c' q j, run_command V CmdDecrypt g c = (Ok tt, c')
    /\ resolve false (disk c) (os_path output) = Some q /\ at_place (disk c') q = Some (SFile j pt).
Proof. exact decrypt_works. Qed.
Print Assumptions C87_decrypt_works.

(** ... or in a file of its own. *)
Theorem C87_detached_works : forall V g c input output header i ih h aad d mk body pt k raw t,
  env_ok (ce_E V) -> ce_debug V = false -> no_faults (disk c) -> inodes_ok (disk c) ->
  given g "input" input -> given g "output" output -> given g "header" header ->
  stat (disk c) (os_path input) = Some (NFile i) -> stat (disk c) (os_path header) = Some (NFile ih) ->
  deserialize (mkDev (s_data (disk c) ih) 0 [] []) = (Ok (h, aad), d) ->
  s_data (disk c) i = zeros (get_size (ht_version (h_type h))) ++ body ->
  unlocks (ce_E V) raw h mk -> body_opens (ce_E V) h aad mk body pt ->
  free_name (disk c) (os_path output) ->
  key_source V CmdDecrypt g k -> yields V c k Direct raw t ->
  exists c' q j, run_command V CmdDecrypt g c = (Ok tt, c')
    /\ resolve false (disk c) (os_path output) = Some q /\ at_place (disk c') q = Some (SFile j pt).
Proof. exact decrypt_works_detached. Qed.
Print Assumptions C87_detached_works.

(** The files of versions 1 to 3, described byte by byte. *)
Theorem C87_old_files_by_path : forall V g c input output i v a m salt nonce u1 u2 hdr body key pt k raw t,
  env_ok (ce_E V) -> ce_debug V = false -> no_faults (disk c) -> inodes_ok (disk c) ->
  given g "input" input -> given g "output" output -> not_given g "header" ->
  stat (disk c) (os_path input) = Some (NFile i) -> s_data (disk c) i = hdr ++ body ->
  old_header v a m salt nonce u1 u2 hdr -> old_key (ce_E V) v raw salt = Some key ->
  opens (ce_E V) a m key nonce (old_aad v hdr) body pt ->
  free_name (disk c) (os_path output) ->
  key_source V CmdDecrypt g k -> yields V c k Direct raw t ->
  exists c' q j, run_command V CmdDecrypt g c = (Ok tt, c')
    /\ resolve false (disk c) (os_path output) = Some q /\ at_place (disk c') q = Some (SFile j pt).
Proof. exact old_files_by_path. Qed.
Print Assumptions C87_old_files_by_path.

(** A file encrypted with a header file that overwrites another, and decrypted; a file
    of version 1, decrypted. *)
Example C87_case :
  let c := after V0 CmdEncrypt with_header (start [] []) in
  let content o := match o with Some (SFile _ l) => l | _ => [] end in
  (outcome_of V0 CmdEncrypt with_header (start [] []),
   outcome_of V0 CmdDecrypt back_with_header c,
   content (at_place (disk (after V0 CmdDecrypt back_with_header c)) ["home"; "b"]%string),
   outcome_of V0 CmdDecrypt from_a old_home,
   content (at_place (disk (after V0 CmdDecrypt from_a old_home)) ["home"; "new"]%string))
  = (Ok tt, Ok tt, B "secret", Ok tt, ex_text).
Proof. vm_compute. reflexivity. Qed.
