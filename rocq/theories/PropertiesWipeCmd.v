(** C99: what whole commands leave in memory. *)
From Coq Require Import List Arith NArith ZArith String.
From Verif Require Import Bytes Outcome IO Primitives Crypto FS FSSpec Erase Archive Cli CliSpec ToyEnv EraseCases CliCases.
From Verif Require Import Wipe WipeSpec WipeCli WipeCliSpec WipeCases WipeCmd WipeCmdSpec.
From Verif Require Import WipeCmdProofs WipeCmdRest WipeCmdResults WipeCmdCases.
Import ListNotations.
Local Open Scope nat_scope.
Local Open Scope list_scope.

(** The commands with their buffers are the commands. *)
Theorem C99_same_programs : forall V cmd g,
  same_run (run_command_m V BLOCK_SIZE cmd g) (run_command V cmd g).
Proof. exact same_commands. Qed.
Print Assumptions C99_same_programs.
Example C99_same_programs_case :
  fst (run_command_m V0 BLOCK_SIZE CmdEncrypt (args keyed_header) (start (B "n") [], [])) = Err CExit
  /\ fst (run_command V0 CmdEncrypt (args keyed_header) (start (B "n") [])) = Err CExit
  /\ fst (cmd_m CmdEncrypt keyed (start [] [])) = fst (run_command V0 CmdEncrypt (args keyed) (start [] [])).
Proof. vm_compute. repeat split. Qed.

(** However a command ends, every buffer that held a key is wiped, unless the program
    stopped itself at the question about the header, or the key file could not be
    read. *)
Theorem C99_keys_partial : forall V bs cmd g c o c' m,
  run_command_m V bs cmd g (c, []) = (o, (c', m)) ->
  keys_wiped m
  \/ (o = Err CExit /\ In cmd [CmdEncrypt; CmdPack] /\ (exists h, given g "header" h)
      /\ exists i s, handed_on_alone m i s)
  \/ (o = Err CKeyfile /\ exists f, given g "keyfile" f /\ read_of (disk c') (os_path f) m).
Proof. exact command_keys. Qed.
Print Assumptions C99_keys_partial.
Example C99_keys_partial_case :
  fst (cmd_m CmdEncrypt keyed (start [] [])) = Ok tt
  /\ left_over (snd (snd (cmd_m CmdEncrypt keyed (start [] []))))
     = [(Key, true); (Public, false); (Plain, true); (Public, false)].
Proof. vm_compute. split; reflexivity. Qed.

(** Encrypting: nothing of the content either; if it fails, one block at most. *)
Theorem C99_encrypt_partial : forall V bs g c o c' m,
  run_command_m V bs CmdEncrypt g (c, []) = (o, (c', m)) ->
  o <> Err CExit -> o <> Err CKeyfile ->
  all_wiped m \/ (o <> Ok tt /\ all_but_one_wiped bs m).
Proof. exact encrypt_command_content. Qed.
Print Assumptions C99_encrypt_partial.
Example C99_encrypt_partial_case :
  fst (cmd_m CmdEncrypt keyed_header (start (B "y") [])) = Ok tt
  /\ left_over (snd (snd (cmd_m CmdEncrypt keyed_header (start (B "y") []))))
     = [(Key, true); (Public, false); (Plain, true); (Public, false)].
Proof. vm_compute. split; reflexivity. Qed.

(** Decrypting likewise, if no file on the disk is of one piece. *)
Theorem C99_decrypt_partial : forall V bs g c o c' m, env_ok (ce_E V) -> in_blocks (disk c) ->
  run_command_m V bs CmdDecrypt g (c, []) = (o, (c', m)) ->
  o <> Err CKeyfile ->
  all_wiped m \/ (o <> Ok tt /\ all_but_one_wiped bs m).
Proof. exact decrypt_command_content. Qed.
Print Assumptions C99_decrypt_partial.
Example C99_decrypt_partial_case :
  in_blocks (disk sealed_home)
  /\ fst (cmd_m CmdDecrypt backwards sealed_home) = Ok tt
  /\ left_over (snd (snd (cmd_m CmdDecrypt backwards sealed_home)))
     = [(Key, true); (Key, true); (Key, true); (Public, false); (Plain, true)].
Proof. split; [exact sealed_blocks|]. vm_compute. split; reflexivity. Qed.

(** Packing leaves pieces of content, and nothing else. *)
Theorem C99_pack_partial : forall V bs g c o c' m,
  run_command_m V bs CmdPack g (c, []) = (o, (c', m)) ->
  o <> Err CExit -> o <> Err CKeyfile -> only_blocks bs m.
Proof. exact pack_command_content. Qed.
Print Assumptions C99_pack_partial.
Example C99_pack_partial_case :
  fst (cmd_m CmdPack packed (start [] [])) = Ok tt
  /\ left_over (snd (snd (cmd_m CmdPack packed (start [] []))))
     = [(Key, true); (Plain, false); (Public, false); (Plain, true);
        (Public, false); (Public, false)].
Proof. vm_compute. split; reflexivity. Qed.

(** The key is in memory when the program stops at that question. *)
Theorem C99_exit_refuted : forall bs, exists V g c c' m i secret,
  matches_ok (mkMatches (args_of CmdEncrypt) g) /\ no_faults (disk c)
  /\ run_command_m V bs CmdEncrypt g (c, []) = (Err CExit, (c', m))
  /\ secret <> [] /\ handed_on_alone m i secret.
Proof. exact exit_leaves_key. Qed.
Print Assumptions C99_exit_refuted.

(** Packing leaves the end of each file: of a small one all. *)
Theorem C99_pack_refuted :
  (forall bs es acc s k zs s' k',
     (forall h, In (EFile h) es -> h_plan h = [] /\ h_pos h = 0) ->
     pack_add_m bs es acc s k = (((Ok tt, zs), s'), k') ->
     (exists new, k' = k ++ new)
     /\ forall h, In (EFile h) es ->
          exists b, In (mkCell Plain b false) k' /\ rest_of bs (s_data s (h_ino h)) b)
  /\ exists V bs g c c' m z,
       matches_ok (mkMatches (args_of CmdPack) g) /\ no_faults (disk c)
       /\ run_command_m V bs CmdPack g (c, []) = (Ok tt, (c', m))
       /\ at_place (disk c) ["home"; "d"; "x"]%string = Some (SFile 4 (B "inner"))
       /\ In (mkCell Plain (B "inner" ++ z) false) m.
Proof. exact (conj pack_add_rest pack_leaves_content). Qed.
Print Assumptions C99_pack_refuted.

(** And so does hashing. *)
Theorem C99_hash_refuted : forall V bs g c c' m, no_faults (disk c) ->
  run_command_m V bs CmdHash g (c, []) = (Ok tt, (c', m)) ->
  forall f, In f (g "input"%string) ->
  exists i b, stat (disk c) (os_path f) = Some (NFile i)
    /\ rest_of bs (s_data (disk c) i) b /\ In (mkCell Plain b false) m.
Proof. exact hash_command_rest. Qed.
Print Assumptions C99_hash_refuted.
Example C99_hash_refuted_case :
  no_faults (disk (start [] []))
  /\ fst (cmd_m CmdHash hashed (start [] [])) = Ok tt
  /\ snd (snd (cmd_m CmdHash hashed (start [] [])))
     = [mkCell Plain (B "secret" ++ zeros 10) false; mkCell Plain (B "key" ++ zeros 13) false].
Proof. split; [apply home_calm|]. vm_compute. split; reflexivity. Qed.
