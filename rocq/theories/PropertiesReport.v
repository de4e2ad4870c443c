(** The properties of the size of encrypted files and of the hashes shown. *)
From Coq Require Import List Arith NArith String.
From Verif Require Import Bytes Outcome Hash FS Archive Cli Crypto.
From Verif Require Import EraseCases FSSpec ArchiveSpec CliSpec CliCases PrintSpec ReportSpec ReportProofs ReportCases.
Import ListNotations.
Local Open Scope list_scope.

(** C101: the file that a successful encrypt leaves has the size that follows from the
    size of the input; a header file has 416 bytes. *)
Theorem C101_size : forall V g c c' input output i,
  env_ok (ce_E V) -> no_faults (disk c) -> inodes_ok (disk c) ->
  given g "input" input -> given g "output" output ->
  stat (disk c) (os_path input) = Some (NFile i) ->
  (forall t, In t (write_targets g output) -> stat (disk c) t <> Some (NFile i)) ->
  (forall h, given g "header" h -> different (disk c) (os_path output) (os_path h)) ->
  run_command V CmdEncrypt g c = (Ok tt, c') ->
  (exists q j ct, resolve true (disk c) (os_path output) = Some q /\ at_place (disk c') q = Some (SFile j ct)
     /\ N.of_nat (List.length ct)
        = encrypted_size (match g "header"%string with [] => false | _ => true end)
            (N.of_nat (List.length (s_data (disk c) i))))
  /\ (forall h, given g "header" h -> exists q j hdr,
        resolve true (disk c) (os_path h) = Some q /\ at_place (disk c') q = Some (SFile j hdr)
        /\ List.length hdr = 416).
Proof. exact encrypt_size. Qed.
Print Assumptions C101_size.

(** C101: encrypt shows a hash exactly if asked, and it is that of the file it leaves. *)
Theorem C101_encrypt_hash : forall V g c c' input output i ns,
  no_faults (disk c) -> inodes_ok (disk c) ->
  given g "input" input -> given g "output" output ->
  stat (disk c) (os_path input) = Some (NFile i) ->
  (forall t, In t (write_targets g output) -> stat (disk c) t <> Some (NFile i)) ->
  run_command V CmdEncrypt g c = (Ok tt, c') -> printed_between c c' ns ->
  exists q j ct, resolve true (disk c) (os_path output) = Some q /\ at_place (disk c') q = Some (SFile j ct)
    /\ hashes_in ns = match g "hash"%string with
                      | [] => [] | _ => [(output, hex_encode (ce_blake3 V ct))] end.
Proof. exact encrypt_hash. Qed.
Print Assumptions C101_encrypt_hash.

(** C101: decrypt shows the hash of the encrypted file that it has been given. *)
Theorem C101_decrypt_hash : forall V g c c' input output i ns,
  ce_debug V = false -> no_faults (disk c) -> inodes_ok (disk c) ->
  given g "input" input -> given g "output" output ->
  stat (disk c) (os_path input) = Some (NFile i) -> stat (disk c) (os_path output) <> Some (NFile i) ->
  run_command V CmdDecrypt g c = (Ok tt, c') -> printed_between c c' ns ->
  hashes_in ns = match g "hash"%string with
                 | [] => [] | _ => [(input, hex_encode (ce_blake3 V (s_data (disk c) i)))] end.
Proof. exact decrypt_hash. Qed.
Print Assumptions C101_decrypt_hash.

(** [one]: after encrypting [a] (six bytes) to [new] with a header file and the hash;
    [two]: after decrypting it again.  The hash here is the first four bytes. *)
Example C101_case :
  (option_map (@List.length byte) (content_at one "new"), option_map (@List.length byte) (content_at one "hn"))
  = (Some 22, Some 416)
  /\ option_map (fun l => [("new"%string, hex_encode (firstn 4 l))]) (content_at one "new") = Some (hashes_in (c_out one))
  /\ (hashes_in (c_out two) = hashes_in (c_out one) ++ hashes_in (c_out one))
  /\ content_at two "a2" = Some (B "secret") /\ content_at two "new" = None.
Proof. exact sizes_and_hashes. Qed.
Example C101_sizes :
  map (encrypted_size false) [0; 1048575; 1048576; 1048577]%N = [432; 1049007; 1049024; 1049025]%N.
Proof. exact some_sizes. Qed.
