(** Witnesses for PropertiesWipeCli.v. *)
From Coq Require Import List Arith NArith ZArith String.
From Verif Require Import Bytes Outcome IO Primitives KeyModel FS Archive Cli CliSpec EraseCases CliCases.
From Verif Require Import Wipe WipeSpec WipeCli.
Import ListNotations.
Local Open Scope nat_scope.
Local Open Scope list_scope.

(** The right password, a slip at the confirmation, then twice right *)
Definition slip : cli := start [] [Some (B "pw"); Some (B "px"); Some (B "pw"); Some (B "pw")].
(** A disk that gives two bytes of the key file and fails *)
Definition bad_disk : cli :=
  mkCli (mkSys (s_nodes home) (s_data home) (s_next home) (s_cwd home) (s_tmp home) []
               [[EvShort 1; EvFail]] (s_rng home) [], []) [] [] [].
Definition phrase1 : bytes :=
  match generate_passphrase (ce_words V0) (ce_draw V0) 1%Z with
  | Ok s => list_byte_of_string s | _ => [] end.

Lemma secrets_stay :
  (exists V c s i c' m, get_secret_m V User Validate (c, []) = (Ok (s, i), (c', m))
     /\ In (mkCell Key s false) m)
  /\ (exists V p c c' m l, get_secret_m V (Keyfile p) Direct (c, []) = (Err CKeyfile, (c', m))
     /\ l <> [] /\ In (mkCell Key l false) m).
Proof.
  split.
  - exists V0, slip, (B "pw"), 2. eexists. eexists.
    split; [vm_compute; reflexivity|]. left. reflexivity.
  - exists V0, "k"%string, bad_disk. eexists. eexists. exists (B "ke").
    split; [vm_compute; reflexivity|]. split; [discriminate|]. left. reflexivity.
Qed.
