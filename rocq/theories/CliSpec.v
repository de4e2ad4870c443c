(** Vocabulary for the properties of the command line program. *)
From Coq Require Import List Arith NArith ZArith String Bool.
From Verif Require Import Bytes Outcome IO Primitives Crypto Header KeyModel EncDec FS FSSpec FSFacts ArchiveSpec Cli.
Import ListNotations.
Local Open Scope list_scope.

(** The file system. *)
Definition disk (c : cli) : sys := fst (c_a c).

(** ** Passwords *)

(** Pairs of inputs that are not accepted: they differ or are empty. *)
Inductive rejected : list (option bytes) -> Prop :=
| rejected_none : rejected []
| rejected_pair : forall a b l, a <> b \/ a = [] -> rejected l ->
    rejected (Some a :: Some b :: l).

(** A key source yields a key, and what is left of the terminal's input. *)
Inductive yields (V : cenv) (c : cli) : key -> password_state -> bytes
  -> list (option bytes) -> Prop :=
| y_stdin : forall st, c_stdin c <> [] ->
    yields V c (Keyfile "-") st (c_stdin c) (c_tty c)
| y_keyfile : forall st p i, p <> "-"%string -> stat (disk c) (os_path p) = Some (NFile i) ->
    s_data (disk c) i <> [] ->
    yields V c (Keyfile p) st (s_data (disk c) i) (c_tty c)
| y_env : forall st k, ce_key V = Some k -> k <> [] -> yields V c Env st k (c_tty c)
| y_direct : forall k rest, c_tty c = Some k :: rest -> k <> [] ->
    yields V c User Direct k rest
| y_validate : forall k before rest, c_tty c = before ++ Some k :: Some k :: rest ->
    rejected before -> k <> [] -> yields V c User Validate k rest
| y_generate : forall st n s, generate_passphrase (ce_words V) (ce_draw V) n = Ok s ->
    s <> EmptyString ->
    yields V c (Generate n) st (list_byte_of_string s) (c_tty c).

(** ** Answers *)

(** The lines of an input, each with its newline; the last may have none. *)
Inductive lines : bytes -> list bytes -> Prop :=
| lines_end : lines [] []
| lines_last : forall l, l <> [] -> ~ In x0a l -> lines l [l]
| lines_more : forall l r ls, ~ In x0a l -> lines r ls ->
    lines (l ++ x0a :: r) ((l ++ [x0a]) :: ls).

(** What an answer says. *)
Definition means (default : bool) (l : bytes) (b : bool) : Prop :=
  exists x r, l = x :: r /\
    ((x = x0a \/ x = x0d) /\ b = default
     \/ (x = x79 \/ x = x59) /\ b = true
     \/ (x = x6e \/ x = x4e) /\ b = false).

(** Texts in UTF-8: characters (all code points but the surrogates) and how they
    are written. *)
Definition scalar_value (c : N) : Prop := (c < 55296 \/ 57344 <= c < 1114112)%N.
Definition encoded_char (c : N) : bytes :=
  map byte_of_N
    (if c <? 128 then [c]
     else if c <? 2048 then [192 + c / 64; 128 + c mod 64]
     else if c <? 65536 then [224 + c / 4096; 128 + c / 64 mod 64; 128 + c mod 64]
     else [240 + c / 262144; 128 + c / 4096 mod 64; 128 + c / 64 mod 64; 128 + c mod 64])%N.
Definition is_text (l : bytes) : Prop :=
  exists cs, Forall scalar_value cs /\ l = flat_map encoded_char cs.

(** The dialogue on given lines: the answer, if there is one, how often the
    question is asked, and the lines left. *)
Inductive dialogue (default : bool) : list bytes -> option bool -> nat -> list bytes -> Prop :=
| dl_end : dialogue default [] None 1 []
| dl_no_text : forall l r, ~ is_text l -> dialogue default (l :: r) None 1 r
| dl_answer : forall l r b, is_text l -> means default l b ->
    dialogue default (l :: r) (Some b) 1 r
| dl_again : forall l r o n r', is_text l -> (forall b, ~ means default l b) ->
    dialogue default r o n r' -> dialogue default (l :: r) o (S n) r'.

Definition count_asked (l : list note) : nat :=
  List.length (filter (fun n => match n with NAsk _ => true | _ => false end) l).

(** ** Command lines *)

Definition given (g : string -> list string) (id v : string) : Prop := exists r, g id = v :: r.
Definition not_given (g : string -> list string) (id : string) : Prop := g id = [].

(** ** Effects on files *)

(** The file systems differ only in new files and in the content of the files
    that the paths [ts] denote; the events between show nothing else. *)
Definition may_write (s : sys) (ts : list path) (j : nat) : Prop :=
  s_next s <= j \/ exists t, In t ts /\ stat s t = Some (NFile j).
Definition write_event (s : sys) (ts : list path) (e : fsev) : Prop :=
  match e with
  | FCreate _ j => s_next s <= j
  | FTrunc j | FWrite j _ _ => may_write s ts j
  | _ => False
  end.
Record only_writes (s : sys) (ts : list path) (s' : sys) : Prop := {
  ow_cwd : s_cwd s' = s_cwd s;
  ow_tmp : s_tmp s' = s_tmp s;
  ow_next : s_next s <= s_next s';
  ow_nodes : forall r, lookup (s_nodes s') r = lookup (s_nodes s) r
    \/ (lookup (s_nodes s) r = None
        /\ exists j, lookup (s_nodes s') r = Some (NFile j) /\ s_next s <= j < s_next s');
  ow_data : forall j, ~ may_write s ts j -> s_data s' j = s_data s j;
  ow_events : exists es, added s s' es /\ Forall (write_event s ts) es
}.

(** Where the key comes from, for the commands that take one. *)
Inductive key_source (V : cenv) (cmd : command) (g : string -> list string) : key -> Prop :=
| ks_keyfile : forall v, given g "keyfile" v -> key_source V cmd g (Keyfile v)
| ks_env : not_given g "keyfile" -> ce_key V <> None -> key_source V cmd g Env
| ks_number : forall v n, not_given g "keyfile" -> ce_key V = None ->
    In cmd [CmdEncrypt; CmdPack] -> given g "autogenerate" v -> parse_i32 v = Some n ->
    key_source V cmd g (Generate n)
| ks_no_number : forall v, not_given g "keyfile" -> ce_key V = None ->
    In cmd [CmdEncrypt; CmdPack] -> given g "autogenerate" v -> parse_i32 v = None ->
    key_source V cmd g (Generate 7)
| ks_unasked : not_given g "keyfile" -> ce_key V = None ->
    In cmd [CmdEncrypt; CmdPack] -> not_given g "autogenerate" ->
    key_source V cmd g (Generate 7)
| ks_user : not_given g "keyfile" -> ce_key V = None ->
    In cmd [CmdDecrypt; CmdUnpack] -> key_source V cmd g User.

Definition passes_of (l : list string) : Z :=
  match l with
  | v :: _ => match parse_i32 v with Some n => n | None => 1%Z end
  | [] => 1%Z
  end.

(** What the command line asks for. *)
Record params_of (V : cenv) (cmd : command) (g : string -> list string) (p : crypto_params) : Prop := {
  po_key : key_source V cmd g (cp_key p);
  po_hash : cp_hash p = true <-> g "hash"%string <> [];
  po_force : cp_force p = Force <-> g "force"%string <> [];
  po_erase : cp_erase p = if match cmd with CmdPack => true | _ => false end then None
                          else Some (passes_of (g "erase"%string));
  po_header : cp_header p = hd_error (g "header"%string);
  po_hashing : cp_hashing p = match cmd, g "argon"%string with
                              | CmdEncrypt, _ :: _ | CmdPack, _ :: _ => Argon2id 3
                              | _, _ => Blake3Balloon 5
                              end
}.
Definition algorithm_asked (g : string -> list string) : algorithm :=
  match g "aes"%string with [] => XChaCha20Poly1305 | _ => Aes256Gcm end.

(** The same machine, after printing. *)
Definition printed (n : list note) (c : cli) : cli :=
  mkCli (c_a c) (c_stdin c) (c_tty c) (c_out c ++ n).

(** The paths to which encrypting writes. *)
Definition write_targets (g : string -> list string) (output : string) : list path :=
  os_path output :: match g "header"%string with h :: _ => [os_path h] | [] => [] end.

(** File [i] keeps its content, and nothing happens to it on the way. *)
Definition spares (i : nat) (e : fsev) : Prop :=
  match e with
  | FTrunc j | FWrite j _ _ => j <> i
  | FCreate _ j => j <> i
  | _ => False
  end.
Definition untouched (s s' : sys) (i : nat) : Prop :=
  s_data s' i = s_data s i /\ exists es, added s s' es /\ Forall (spares i) es.

(** The changes of erasing the file [i] called [p]: its content goes, and then
    perhaps its name. *)
Record erase_stage (s : sys) (p : path) (i : nat) (s' : sys) : Prop := {
  es_file : stat s p = Some (NFile i);
  es_others : forall j, j <> i -> s_data s' j = s_data s j;
  es_events : exists q es, resolve false s p = Some q /\ added s s' es
    /\ In es [[FTrunc i]; [FTrunc i; FTrunc i]; [FTrunc i; FTrunc i; FUnlink q]];
  es_names : s_nodes s' = s_nodes s
    \/ exists q, resolve false s p = Some q /\ s_nodes s' = remove_node (s_nodes s) q
}.

(** Two paths that denote different files, or places for different files. *)
Definition different (s : sys) (p p' : path) : Prop :=
  resolve true s p <> resolve true s p'
  /\ forall j, stat s p = Some (NFile j) -> stat s p' <> Some (NFile j).

(** With the key [raw], [ct] (and the detached header, if there is one) decrypts to
    [pt]: in a release build, without failures, decrypt finishes without an error
    and the file it makes contains [pt]. *)
Definition recovers (E : env) (raw ct : bytes) (hdr : option bytes) (pt : bytes) : Prop :=
  forall V g c input output i q k t,
  ce_E V = E -> ce_debug V = false ->
  given g "input" input -> given g "output" output ->
  no_faults (disk c) -> inodes_ok (disk c) ->
  stat (disk c) (os_path input) = Some (NFile i) -> s_data (disk c) i = ct ->
  match hdr with
  | None => not_given g "header"
  | Some h => exists p j, given g "header" p /\ stat (disk c) (os_path p) = Some (NFile j)
                /\ s_data (disk c) j = h
  end ->
  resolve false (disk c) (os_path output) = Some q -> lookup (s_nodes (disk c)) q = None ->
  key_source V CmdDecrypt g k -> yields V c k Direct raw t ->
  exists c' j, run_command V CmdDecrypt g c = (Ok tt, c')
    /\ at_place (disk c') q = Some (SFile j pt).

(** The key that a run of encrypt, started with [c], takes: everything but the
    answers on standard input is as at the start. *)
Definition key_taken (V : cenv) (cmd : command) (g : string -> list string) (st : password_state)
  (c : cli) (output : string) (raw : bytes) : Prop :=
  exists k c0 t, key_source V cmd g k /\ c_a c0 = c_a c /\ c_tty c0 = c_tty c
    /\ (exists_path (disk c) (os_path output) = false -> c_stdin c0 = c_stdin c)
    /\ yields V c0 k st raw t.

(** What encrypting leaves of the content [pt]: the output file, and the header file
    if one is named, from which [pt] can be got back with the key [raw].  With a
    header file this does not hold if the output starts with 416 zero bytes. *)
Definition kept_encrypted (V : cenv) (g : string -> list string) (output : string) (s s' : sys)
  (raw pt : bytes) : Prop :=
  exists q i ct, resolve true s (os_path output) = Some q
    /\ at_place s' q = Some (SFile i ct)
    /\ match g "header"%string with
       | [] => recovers (ce_E V) raw ct None pt
       | h :: _ => exists qh j hdr, resolve true s (os_path h) = Some qh
           /\ at_place s' qh = Some (SFile j hdr)
           /\ (firstn 416 ct <> repeat x00 (List.length (firstn 416 ct)) ->
               recovers (ce_E V) raw ct (Some hdr) pt)
       end.

(** Nothing that existed changes, except the content of the files that the paths
    [ts] denote. *)
Definition spared_except (s : sys) (ts : list path) (s' : sys) : Prop :=
  forall r, at_place s' r <> at_place s r ->
    at_place s r = None
    \/ exists t i, In t ts /\ stat s t = Some (NFile i) /\ lookup (s_nodes s) r = Some (NFile i).

(** First only the files that the paths [ts] denote are written; then, if that
    succeeded, the input file is erased. *)
Definition two_stages (s : sys) (ts : list path) (input : path) (o : outcome cli_error unit) (s' : sys) : Prop :=
  exists s1, only_writes s ts s1
    /\ ((o <> Ok tt /\ same_disk s1 s')
        \/ exists i, stat s input = Some (NFile i) /\ stat s1 input = Some (NFile i)
             /\ erase_stage s1 input i s' /\ s_data s' i = []
             /\ ((o = Ok tt /\ stat s' input = None) \/ exists e, o = Err (CErase e))).

(** The oracle for files open twice does not panic. *)
Definition alias_calm (V : cenv) : Prop :=
  forall a, al_outcome (ce_alias V a) <> Panic /\ al_outcome (ce_alias V a) <> Diverge.
