(** C93: the buffers a secret passes through before it is used. *)
From Coq Require Import List Arith NArith ZArith String.
From Verif Require Import Bytes Outcome IO Primitives KeyModel FS Archive Cli CliSpec EraseCases CliCases.
From Verif Require Import Wipe WipeSpec WipeCli WipeCliSpec WipeCliProofs WipeCliCases.
Import ListNotations.
Local Open Scope nat_scope.
Local Open Scope list_scope.

(** [get_secret_m] is [get_secret], and says where the secret is. *)
Theorem C93_same_program : forall V k st,
  same_run (x <- get_secret_m V k st ;; ret (fst x)) (get_secret V k st).
Proof. exact same_secret. Qed.
Print Assumptions C93_same_program.
Example C93_same_program_case :
  fst (get_secret_m V0 (Keyfile "k") Direct (start [] [], [])) = Ok (B "key", 0)
  /\ fst (get_secret V0 (Keyfile "k") Direct (start [] [])) = Ok (B "key").
Proof. vm_compute. split; reflexivity. Qed.

(** On success the secret is in one live buffer and nothing else is live. *)
Theorem C93_handed_on : forall V k st c s i c' m,
  get_secret_m V k st (c, []) = (Ok (s, i), (c', m)) -> handed_on m i s.
Proof. exact secret_handed_on. Qed.
Print Assumptions C93_handed_on.

(** Everything else is wiped, unless the password was typed twice for confirmation;
    then all that was typed and not accepted stays, and nothing more. *)
Theorem C93_success_partial : forall V k st c s i c' m,
  get_secret_m V k st (c, []) = (Ok (s, i), (c', m)) ->
  (k = User /\ st = Validate
   /\ exists ps, c_tty c = map Some ps ++ Some s :: Some s :: c_tty c' /\ rejected (map Some ps)
        /\ i = List.length ps
        /\ m = map forgotten ps ++ [mkCell Key s true; mkCell Key (zeros (List.length s)) false])
  \/ (~ (k = User /\ st = Validate) /\ handed_on_alone m i s).
Proof. exact secret_ok. Qed.
Print Assumptions C93_success_partial.
Example C93_success_partial_case :
  memory_after (get_secret_m V0 User Validate) (start [] [Some (B "pw"); Some (B "pw")])
  = [mkCell Key (B "pw") true; mkCell Key (zeros 2) false]
  /\ memory_after (get_secret_m V0 (Generate 1%Z) Validate) (start [] [])
     = [mkCell Key (zeros (List.length phrase1)) false; mkCell Key phrase1 true].
Proof. vm_compute. split; reflexivity. Qed.

(** On failure: at most what was typed, or the part of the key file that was read. *)
Theorem C93_failure_partial : forall V k st c o c' m, (forall x, o <> Ok x) ->
  get_secret_m V k st (c, []) = (o, (c', m)) ->
  match k with
  | User => typed (c_tty c) m
  | Keyfile p => if String.eqb p "-" then all_wiped m else read_of (disk c') (os_path p) m
  | Env | Generate _ => all_wiped m
  end.
Proof. exact secret_bad. Qed.
Print Assumptions C93_failure_partial.
Example C93_failure_partial_case :
  fst (get_secret_m V0 User Validate (start [] [Some (B "pw"); None], [])) = Err CPassword
  /\ memory_after (get_secret_m V0 User Validate) (start [] [Some (B "pw"); None])
     = [mkCell Key (B "pw") false].
Proof. vm_compute. split; reflexivity. Qed.

(** False without these exceptions: a password mistyped at its confirmation stays in
    memory although the second attempt succeeds; so does the part of a key file read
    before an error. *)
Theorem C93_wiped_refuted :
  (exists V c s i c' m, get_secret_m V User Validate (c, []) = (Ok (s, i), (c', m))
     /\ In (mkCell Key s false) m)
  /\ (exists V p c c' m l, get_secret_m V (Keyfile p) Direct (c, []) = (Err CKeyfile, (c', m))
     /\ l <> [] /\ In (mkCell Key l false) m).
Proof. exact secrets_stay. Qed.
Print Assumptions C93_wiped_refuted.
