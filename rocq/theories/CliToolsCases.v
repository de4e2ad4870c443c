(** The concrete runs of PropertiesCliTools. *)
From Coq Require Import List Arith NArith ZArith Ascii String Bool Lia.
From Verif Require Import Bytes Outcome IO Primitives Crypto Header Stream KeyModel EncDec KeyOps HeaderOps.
From Verif Require Import Overwrite Hash FS Erase Archive Cli CliTools.
From Verif Require Import IOSpec ToyEnv Fixtures FileCases FSSpec FSFacts EraseCases ArchiveSpec ArchiveCases.
From Verif Require Import CliSpec CliCases CliToolsSpec.
Import ListNotations.
Local Open Scope nat_scope.
Local Open Scope list_scope.

(** The file "new" is encrypted with the key in "k"; "h" and "out" are other files. *)
Definition enc_home : cli := encrypted_home.
Lemma enc_calm : no_faults (disk enc_home).
Proof. split; vm_compute; reflexivity. Qed.
Lemma enc_inodes : inodes_ok (disk enc_home).
Proof. apply inodes_okb_spec. vm_compute. reflexivity. Qed.

(** ** Dumping a header to the file that it is in *)
Lemma dump_destroys : exists input output c c' e i h aad, no_faults (disk c) /\ inodes_ok (disk c)
  /\ input <> output
  /\ stat (disk c) (os_path input) = Some (NFile i) /\ header_is (s_data (disk c) i) h aad
  /\ 416 < List.length (s_data (disk c) i)
  /\ dump input output Force c = (Err e, c') /\ s_data (disk c') i = [].
Proof.
  exists "new"%string, "./new"%string, enc_home, (snd (dump "new" "./new" Force enc_home)).
  eexists. exists 10. eexists. eexists.
  split; [exact enc_calm|]. split; [exact enc_inodes|]. split; [discriminate|].
  split; [vm_compute; reflexivity|].
  split; [eexists; vm_compute; reflexivity|].
  split; [apply Nat.ltb_lt; vm_compute; reflexivity|].
  split; [apply pair_ok; vm_compute; reflexivity|]. vm_compute. reflexivity.
Qed.

(** ** Key commands *)
Definition ha : hashing_algorithm := Blake3Balloon 5.
(** The same machine with other input. *)
Definition again (c : cli) (stdin : bytes) (tty : list (option bytes)) : cli := mkCli (c_a c) stdin tty [].
(** Whether the file "new" decrypts with a key file, and to what. *)
Definition opens (k : string) (c : cli) : outcome cli_error unit * option stored :=
  let '(o, c') := run_command V0 CmdDecrypt (args (from_new k "back")) (again c [] []) in
  (o, at_place (disk c') ["home"; "back"]%string).

(** "new" starts with a header of the third version of the format. *)
Definition old_home : cli :=
  mkCli (with_data 10 ([xde; x03; x0e; x01; x0c; x01] ++ repeat x11 58 ++ B "text") [] (disk enc_home), [])
        [] [Some (B "key"); Some (B "n"); Some (B "n")] [].

(** ** Unpacking *)
Definition zhome (entries : list (string * string)) (stdin : bytes) : cli :=
  mkCli (afs [(["tmp"], NDir); (["home"], NDir); (["home"; "in"], NFile 0); (["home"; "k"], NFile 1);
              (["home"; "out"], NDir); (["home"; "out"; "a"], NFile 2); (["home"; "out"; "b"], NFile 3)]%string
             [archive entries; pw; B "precious"; B "old b"], []) stdin [] [].
Definition params (k : string) (f : force_mode) : crypto_params := mkCryptoParams false f None (Keyfile k) None ha.
Definition unpack_run (p : crypto_params) (c : cli) := unpack_cli V0 "in" "out" false p c.

Lemma zhome_calm : forall l i, no_faults (disk (zhome l i)).
Proof. split; reflexivity. Qed.
Lemma zhome_tree : forall l i, tree_ok (disk (zhome l i)).
Proof. intros. apply tree_okb_spec. vm_compute. reflexivity. Qed.
Lemma zhome_inodes : forall l i, inodes_ok (disk (zhome l i)).
Proof. intros. apply inodes_okb_spec. vm_compute. reflexivity. Qed.
Lemma zhome_output : forall l i, output_at (disk (zhome l i)) (parse_path "out") ["home"; "out"]%string [].
Proof.
  intros l i. constructor.
  - exists [Nm "out"%string]. split; [reflexivity|vm_compute; reflexivity].
  - reflexivity.
  - intros a b t X Y. destruct a; [congruence|discriminate].
  - intros r t _ L. destruct r as [|n r]; [discriminate|]. revert L. unfold lookup.
    unfold disk, zhome. cbn [c_a fst afs s_nodes find_node].
    repeat match goal with |- (if ?b then _ else _) = _ -> _ => destruct b; [discriminate|] end.
    discriminate.
Qed.

(** A name that goes through a directory the archive brings with it: standard input
    is empty, so a question would have ended the program. *)
Lemma overwritten_unasked : exists V p c c', no_faults (disk c) /\ tree_ok (disk c) /\ inodes_ok (disk c)
  /\ output_at (disk c) (parse_path "out") ["home"; "out"]%string []
  /\ cp_force p = Prompt /\ c_stdin c = []
  /\ at_place (disk c) ["home"; "out"; "a"]%string = Some (SFile 2 (B "precious"))
  /\ unpack_cli V "in" "out" false p c = (Ok tt, c')
  /\ at_place (disk c') ["home"; "out"; "a"]%string = Some (SFile 2 (B "attack")).
Proof.
  set (c := zhome [("new/", ""); ("new/../a", "attack")]%string []).
  exists V0, (params "k" Prompt), c, (snd (unpack_run (params "k" Prompt) c)).
  split; [apply zhome_calm|]. split; [apply zhome_tree|]. split; [apply zhome_inodes|].
  split; [apply zhome_output|]. split; [reflexivity|]. split; [reflexivity|]. split; [vm_compute; reflexivity|].
  split; [apply pair_ok; vm_compute; reflexivity|]. vm_compute. reflexivity.
Qed.

(** The key is all of standard input, so that the question finds it at its end. *)
Lemma unpack_panics_stdin : exists V p c c' i l, env_ok (ce_E V) /\ no_faults (disk c)
  /\ cp_key p = Keyfile "-" /\ cp_force p = Prompt
  /\ unpack_cli V "in" "out" false p c = (Panic, c')
  /\ at_place (disk c) ["tmp"; "tmpname"]%string = None
  /\ at_place (disk c') ["tmp"; "tmpname"]%string = Some (SFile i l)
  /\ z_decode toy_zip l = Some [mkZread "a"%string true (B "secret") true].
Proof.
  set (c := zhome [("a", "secret")]%string pw).
  exists V0, (params "-" Prompt), c, (snd (unpack_run (params "-" Prompt) c)). eexists. eexists.
  split; [exact toy_ok|]. split; [apply zhome_calm|]. split; [reflexivity|]. split; [reflexivity|].
  split; [apply pair_ok; vm_compute; reflexivity|]. split; [vm_compute; reflexivity|].
  split; [vm_compute; reflexivity|]. vm_compute. reflexivity.
Qed.
(** A name that ends in [..] *)
Lemma unpack_panics_name : exists V p c c' i l, env_ok (ce_E V) /\ no_faults (disk c) /\ cp_force p = Force
  /\ unpack_cli V "in" "out" false p c = (Panic, c')
  /\ at_place (disk c) ["tmp"; "tmpname"]%string = None
  /\ at_place (disk c') ["tmp"; "tmpname"]%string = Some (SFile i l)
  /\ z_decode toy_zip l = Some [mkZread "x"%string true (B "secret") true; mkZread "d/.."%string true [] true].
Proof.
  set (c := zhome [("x", "secret"); ("d/..", "")]%string []).
  exists V0, (params "k" Force), c, (snd (unpack_run (params "k" Force) c)). eexists. eexists.
  split; [exact toy_ok|]. split; [apply zhome_calm|]. split; [reflexivity|].
  split; [apply pair_ok; vm_compute; reflexivity|]. split; [vm_compute; reflexivity|].
  split; [vm_compute; reflexivity|]. vm_compute. reflexivity.
Qed.
