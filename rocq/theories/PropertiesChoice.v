(** Properties C82 and C83: the algorithms that protect a file
    (crates/volaris-crypto/src/key.rs, crates/volaris-cli/src/global/parameters.rs).
    Vocabulary: ChoiceSpec.v. *)
From Coq Require Import List Arith NArith ZArith Ascii String Bool.
From Verif Require Import Bytes Outcome IO Primitives Crypto Header Stream KeyModel EncDec.
From Verif Require Import Overwrite Hash FS Erase Archive Cli CliTools.
From Verif Require Import ToyEnv Fixtures FileCases EraseCases FileSpec FSSpec FSFacts ArchiveSpec CliSpec CliCases CliToolsSpec CliToolsCases.
From Verif Require Import ChoiceSpec ChoiceProofs.
Import ListNotations.
Local Open Scope nat_scope.
Local Open Scope list_scope.

(** C82: each hashing algorithm is one evaluation of the function in the table, and
    there are no others. *)
Theorem C82_hash_parameters : forall E h pw salt,
  (forall k, In (h, k) kdf_table ->
     hash E h pw salt = match kdf_run E k pw salt with Some key => Ok key | None => Err tt end)
  /\ ((forall k, ~ In (h, k) kdf_table) -> hash E h pw salt = Err tt).
Proof. exact hash_table. Qed.
Print Assumptions C82_hash_parameters.

(** The toy functions make the parameters part of their results. *)
Example C82_case :
  map (fun h => match hash toy h (B "pw") (B "salt") with Ok k => Some k | _ => None end)
      [Argon2id 1; Argon2id 2; Argon2id 3; Blake3Balloon 4; Blake3Balloon 5]
  = map (fun k => kdf_run toy k (B "pw") (B "salt"))
      [KArgon2id 8192 8 4; KArgon2id 262144 8 4; KArgon2id 262144 10 4; KBalloon 262144 1 1; KBalloon 278528 1 1]
  /\ map (fun h => hash toy h (B "pw") (B "salt")) [Argon2id 0; Argon2id 4; Blake3Balloon 3; Blake3Balloon 6]
  = [Err tt; Err tt; Err tt; Err tt]
  /\ hash toy (Argon2id 3) (B "pw") (B "salt") <> hash toy (Argon2id 2) (B "pw") (B "salt").
Proof. vm_compute. repeat split. discriminate. Qed.

(** C83: encrypt protects the file with the algorithms that its arguments ask for: each
    guess at the password costs one evaluation of that function. *)
Theorem C83_encrypt_as_asked : forall V g c c' input output i,
  env_ok (ce_E V) -> no_faults (disk c) -> inodes_ok (disk c) ->
  given g "input" input -> given g "output" output ->
  stat (disk c) (os_path input) = Some (NFile i) ->
  (forall t, In t (write_targets g output) -> stat (disk c) t <> Some (NFile i)) ->
  (forall h, given g "header" h -> different (disk c) (os_path output) (os_path h)) ->
  run_command V CmdEncrypt g c = (Ok tt, c') ->
  exists raw q j data, key_taken V CmdEncrypt g Validate c output raw
    /\ resolve true (disk c) (os_path (match g "header"%string with [] => output | h :: _ => h end)) = Some q
    /\ at_place (disk c') q = Some (SFile j data)
    /\ protected_by (ce_E V) (algorithm_asked g) (hashing_asked g) (kdf_asked g) raw data.
Proof. exact encrypt_as_asked. Qed.
Print Assumptions C83_encrypt_as_asked.

(** Key add and key change likewise (the keyslots they make: C26, C27, C75). *)
Theorem C83_key_commands_as_asked : forall V m c old new ha c',
  key_manipulation_params V m c = (Ok (old, new, ha), c') ->
  ha = match value_of m "argon" with Some _ => Argon2id 3 | None => Blake3Balloon 5 end.
Proof. exact manipulation_hashing. Qed.
Print Assumptions C83_key_commands_as_asked.

(** The headers written with and without [aes] and [argon]. *)
Example C83_case :
  map (fun l => let '(o, c) := run_command V0 CmdEncrypt
                    (args (app [("input", ["a"]); ("output", ["new"]); ("keyfile", ["k"])]%string l)) (start [] []) in
                match o, at_place (disk c) ["home"; "new"]%string with
                | Ok _, Some (SFile _ d) =>
                    match deserialize (mkDev d 0 [] []) with
                    | (Ok (h, _), _) => Some (ht_algorithm (h_type h), option_map (map ks_hash) (h_keyslots h))
                    | _ => None
                    end
                | _, _ => None
                end)
      [[]; [("argon", [""])]; [("aes", [""])]; [("aes", [""]); ("argon", [""])]]%string
  = [Some (XChaCha20Poly1305, Some [Blake3Balloon 5]); Some (XChaCha20Poly1305, Some [Argon2id 3]);
     Some (Aes256Gcm, Some [Blake3Balloon 5]); Some (Aes256Gcm, Some [Argon2id 3])].
Proof. vm_compute. reflexivity. Qed.
