(** Vocabulary for the properties of the functions behind the subcommands
    [header], [key] and [unpack]. *)
From Coq Require Import List Arith NArith ZArith String Bool.
From Verif Require Import Bytes Outcome IO Primitives Crypto Header KeyModel EncDec KeyOps HeaderOps HeaderSpec KeySpec ToolSpec.
From Verif Require Import FS FSSpec Archive ArchiveSpec Cli CliSpec CliTools.
Import ListNotations.
Local Open Scope list_scope.

(** Nothing on the disk changes, not even for a moment. *)
Definition unchanged (s s' : sys) : Prop :=
  s_nodes s' = s_nodes s /\ (forall j, s_data s' j = s_data s j) /\ s_next s' = s_next s
  /\ s_cwd s' = s_cwd s /\ s_tmp s' = s_tmp s /\ s_log s' = s_log s.

(** Only the file [i] is written, and only the first [n] bytes of it. *)
Definition only_file (i n : nat) (s s' : sys) : Prop :=
  s_nodes s' = s_nodes s /\ (forall j, j <> i -> s_data s' j = s_data s j) /\ s_next s' = s_next s
  /\ s_cwd s' = s_cwd s /\ s_tmp s' = s_tmp s
  /\ exists es, added s s' es
       /\ Forall (fun e => match e with
                           | FWrite j off l => j = i /\ off + List.length l <= n
                           | _ => False
                           end) es.
(** ... and its length stays. *)
Definition only_header (i n : nat) (s s' : sys) : Prop :=
  only_file i n s s' /\ same_outside 0 n (s_data s i) (s_data s' i).

(** The terminal and standard input are not used. *)
Definition asks_nothing (c c' : cli) : Prop := c_stdin c' = c_stdin c /\ c_tty c' = c_tty c.

(** The result is a value or an error. *)
Definition regular {E A} (o : outcome E A) : Prop := o <> Panic /\ o <> Diverge.

Definition version_of (h : header) : header_version := ht_version (h_type h).
(** The file starts with this header; [aad] is what it authenticates. *)
Definition header_is (data : bytes) (h : header) (aad : bytes) : Prop :=
  exists d', deserialize (dev_at data 0) = (Ok (h, aad), d').

(** A file of this name can be written, and whether the user agrees does not
    matter: the name is free, or denotes a file and is to be overwritten. *)
Definition writable (s : sys) (p : path) (force : force_mode) : Prop :=
  (exists q, resolve false s p = Some q /\ lookup (s_nodes s) q = None)
  \/ (force = Force /\ exists j, stat s p = Some (NFile j)).

(** ** What [header details] prints *)

(** [s] is [l] in hexadecimal. *)
Definition in_hex (l : bytes) (s : string) : Prop := hex_decode s = Some l.
Definition version_names : list (header_version * string) :=
  [(V1, "V1"); (V2, "V2"); (V3, "V3"); (V4, "V4"); (V5, "V5")]%string.
Definition algorithm_names : list (algorithm * string) :=
  [(XChaCha20Poly1305, "XChaCha20-Poly1305"); (Aes256Gcm, "AES-256-GCM"); (DeoxysII256, "Deoxys-II-256")]%string.
Definition mode_names : list (mode * string) :=
  [(MemoryMode, "Memory Mode"); (StreamMode, "Stream Mode")]%string.
Definition hashing_names : list (hashing_algorithm * string) :=
  [(Argon2id 1, "Argon2id (param v1)"); (Argon2id 2, "Argon2id (param v2)");
   (Argon2id 3, "Argon2id (param v3)"); (Blake3Balloon 4, "BLAKE3-Balloon (param v4)");
   (Blake3Balloon 5, "BLAKE3-Balloon (param v5)")]%string.
(** The hashing algorithm of the versions without keyslots. *)
Definition old_hashing : list (header_version * hashing_algorithm) :=
  [(V1, Argon2id 1); (V2, Argon2id 2); (V3, Argon2id 3)].

(** The lines for the keyslot with the number [i]. *)
Definition told_slot (i : string) (k : keyslot) (ls : list string) : Prop :=
  exists hash salt enc nonce, In (ks_hash k, hash) hashing_names
    /\ in_hex (ks_salt k) salt /\ in_hex (ks_enc k) enc /\ in_hex (ks_nonce k) nonce
    /\ ls = ["Keyslot " ++ i ++ ":"; "  Hashing Algorithm: " ++ hash; "  Salt: " ++ salt ++ " (hex)";
             "  Master Key: " ++ enc ++ " (hex, encrypted)"; "  Master Key Nonce: " ++ nonce ++ " (hex)"]%string.
(** The lines for the way to the key: a salt, or up to four keyslots. *)
Definition told_keys (h : header) (ls : list string) : Prop :=
  match h_keyslots h with
  | None => exists ha hash salt b, In (version_of h, ha) old_hashing /\ In (ha, hash) hashing_names
      /\ h_salt h = Some b /\ in_hex b salt
      /\ ls = ["Salt: " ++ salt ++ " (hex)"; "Hashing Algorithm: " ++ hash]%string
  | Some slots => (version_of h = V4 /\ List.length slots = 1 \/ version_of h = V5)
      /\ exists parts, Forall2 (fun ik p => told_slot (fst ik) (snd ik) p)
                        (combine ["0"; "1"; "2"; "3"]%string slots) parts
          /\ List.length parts = List.length slots /\ ls = List.concat parts
  end.
(** All lines. *)
Definition told (h : header) (aad : bytes) (ls : list string) : Prop :=
  exists version alg md nonce auth keys,
    In (version_of h, version) version_names /\ In (ht_algorithm (h_type h), alg) algorithm_names
    /\ In (ht_mode (h_type h), md) mode_names /\ in_hex (h_nonce h) nonce /\ in_hex aad auth
    /\ told_keys h keys
    /\ ls = (["Header version: " ++ version; "Encryption algorithm: " ++ alg; "Encryption mode: " ++ md;
              "Encryption nonce: " ++ nonce ++ " (hex)"; "AAD: " ++ auth ++ " (hex)"]%string ++ keys)%list.

(** After dumping, the output is the header of the input (as the program would
    write it); it is shorter only if writing was cut short. *)
Definition dumped_header (s s' : sys) (input output : string) : Prop :=
  exists i j plan h aad d' b n,
    stat s (os_path input) = Some (NFile i) /\ stat s' (os_path output) = Some (NFile j) /\ i <> j
    /\ deserialize (mkDev (s_data s i) 0 plan []) = (Ok (h, aad), d') /\ serialize h = Ok b
    /\ n <= List.length b /\ s_data s' j = firstn n b
    /\ (no_faults s -> plan = [] /\ n = List.length b).

(** The header in the input can be put into the output: the space for it is free. *)
Definition may_restore (s : sys) (input output : string) : Prop :=
  exists i j h aad b, stat s (os_path input) = Some (NFile i) /\ stat s (os_path output) = Some (NFile j)
    /\ header_is (s_data s i) h aad /\ serialize h = Ok b
    /\ let z := firstn (get_size (version_of h)) (s_data s j) in z = zeros (List.length z).

(** ** The key commands *)

Inductive key_tool :=
| ToolAdd (old new : key) (ha : hashing_algorithm)
| ToolChange (old new : key) (ha : hashing_algorithm)
| ToolDelete (k : key)
| ToolVerify (k : key).

Definition run_tool (V : cenv) (input : string) (t : key_tool) : M cli tool_error unit :=
  match t with
  | ToolAdd old new ha => add V input (old, new, ha)
  | ToolChange old new ha => change V input (old, new, ha)
  | ToolDelete k => delete V input k
  | ToolVerify k => verify V input k
  end.

(** Where a command takes its keys from. *)
Definition tool_keys (t : key_tool) : list key :=
  match t with
  | ToolAdd ko kn _ | ToolChange ko kn _ => [ko; kn]
  | ToolDelete k | ToolVerify k => [k]
  end.
(** The passphrase generator panics. *)
Definition generator_panics (V : cenv) (k : key) : Prop :=
  exists n, k = Generate n /\ generate_passphrase (ce_words V) (ce_draw V) n = Panic.

(** The machine after a key was taken from [k], as far as the next key is
    concerned: standard input has been read if the key came from there. *)
Definition after_key (k : key) (t : list (option bytes)) (c : cli) : cli :=
  mkCli (c_a c)
        (match k with Keyfile p => if String.eqb p "-" then [] else c_stdin c | _ => c_stdin c end)
        t (c_out c).

(** The operation that the command makes with the keys it is given. *)
Definition two_keys (V : cenv) (c : cli) (ko kn : key) (old new : bytes) : Prop :=
  exists t1 t2, yields V c ko Direct old t1 /\ yields V (after_key ko t1 c) kn Validate new t2.
Definition supplies (V : cenv) (c : cli) (t : key_tool) (op : key_op) : Prop :=
  match t, op with
  | ToolAdd ko kn ha, OpAdd old new ha' => ha' = ha /\ two_keys V c ko kn old new
  | ToolChange ko kn ha, OpChange old new ha' => ha' = ha /\ two_keys V c ko kn old new
  | ToolDelete k, OpDelete old => exists t1, yields V c k Direct old t1
  | ToolVerify k, OpVerify old => exists t1, yields V c k Direct old t1
  | _, _ => False
  end.

Definition tool_outcome (o : outcome key_error unit) : outcome tool_error unit :=
  match o with Ok x => Ok x | Err e => Err (TKey e) | Panic => Panic | Diverge => Diverge end.

(** Key commands run one after the other on the same file; for each, what
    standard input and the terminal supply. *)
Definition session := list (key_tool * (bytes * list (option bytes))).
Fixpoint run_session (V : cenv) (input : string) (l : session) (a : asys)
  : list (outcome tool_error unit) * asys :=
  match l with
  | [] => ([], a)
  | (t, (stdin, tty)) :: r =>
      let x := run_tool V input t (mkCli a stdin tty []) in
      let y := run_session V input r (c_a (snd x)) in
      (fst x :: fst y, snd y)
  end.

(** The operations that the commands of a session make: none if the keys are not
    supplied. *)
Inductive session_ops (V : cenv) (input : string)
  : session -> asys -> list (option (key_op * rng)) -> Prop :=
| so_nil : forall a, session_ops V input [] a []
| so_op : forall t stdin tty r a op ops,
    let c := mkCli a stdin tty [] in
    supplies V c t op ->
    session_ops V input r (c_a (snd (run_tool V input t c))) ops ->
    session_ops V input ((t, (stdin, tty)) :: r) a (Some (op, s_rng (fst a)) :: ops)
| so_no_key : forall t stdin tty r a ops,
    let c := mkCli a stdin tty [] in
    (forall op, ~ supplies V c t op) ->
    session_ops V input r (c_a (snd (run_tool V input t c))) ops ->
    session_ops V input ((t, (stdin, tty)) :: r) a (None :: ops).
Fixpoint made_ops (l : list (option (key_op * rng))) : history :=
  match l with
  | [] => []
  | Some x :: r => x :: made_ops r
  | None :: r => made_ops r
  end.
(** The outcomes of the commands, given those of the operations: a command without
    operation reports an error, or panics (the passphrase generator may). *)
Inductive outcomes_of : list (option (key_op * rng)) -> list (outcome key_error unit)
  -> list (outcome tool_error unit) -> Prop :=
| oc_nil : outcomes_of [] [] []
| oc_op : forall x l o os r, outcomes_of l os r ->
    outcomes_of (Some x :: l) (o :: os) (tool_outcome o :: r)
| oc_no_key : forall l os o r, o = Panic \/ (exists e, o = Err (TCli e)) -> outcomes_of l os r ->
    outcomes_of (None :: l) os (o :: r).

(** ** Unpacking *)

(** Standard input after the key has been taken from [k]. *)
Definition stdin_left (k : key) (c : cli) : bytes := c_stdin (after_key k [] c).

(** The questions about the paths [ps], with the answers on the lines [ls], and the
    lines left: paths that exist are asked about, the others count as agreed. *)
Inductive asked (s : sys) : list bytes -> list path -> list bool -> list bytes -> Prop :=
| asked_none : forall ls, asked s ls [] [] ls
| asked_new : forall p ps ls bs r, exists_path s p = false -> asked s ls ps bs r ->
    asked s ls (p :: ps) (true :: bs) r
| asked_about : forall p ps ls b n r bs r', exists_path s p = true ->
    dialogue true ls (Some b) n r -> asked s r ps bs r' -> asked s ls (p :: ps) (b :: bs) r'.
(** A path that does not end in a name ([.] after it does not matter). *)
Definition nameless (p : path) : Prop :=
  ~ exists a n d, p_comps p = a ++ Nm n :: d /\ Forall (eq Cur) d.
(** A question is not answered, or a path does not end in a name. *)
Definition unanswered (s : sys) (ls : list bytes) (ps : list path) : Prop :=
  exists qs p rest bs r, ps = qs ++ p :: rest /\ asked s ls qs bs r
    /\ (nameless p
        \/ exists n r', exists_path s p = true /\ dialogue true r None n r').

(** The path that an entry with the components [cs] gets below [o]. *)
Definition below_path (o : path) (cs : list comp) : path := mkPath (p_abs o) (p_comps o ++ cs).
(** Leading down to a name: without [..]. *)
Definition straight (cs : list comp) : Prop := exists a n, cs = a ++ [Nm n] /\ ~ In Up a.

(** The file system with the temporary archive in it (or without, if it could not
    be created). *)
Definition with_temp (s s1 : sys) : Prop :=
  s_cwd s1 = s_cwd s
  /\ (s_nodes s1 = s_nodes s
      \/ exists T, lookup (s_nodes s) T = None /\ s_nodes s1 = s_nodes s ++ [(T, NFile (s_next s))]).

(** The paths that an archive (any one that the library can read) would be unpacked
    to, below [o]. *)
Definition offered (Z : zip_env) (o : path) (ps : list path) : Prop :=
  exists l zs, z_decode Z l = Some zs /\ ps = map fst (entities o zs).
(** Asked about the paths [ps] in turn, the user agreed to [p], which existed.
    [s]: the file system at that time. *)
Definition agreed (s : sys) (ls : list bytes) (ps : list path) (p : path) : Prop :=
  exists bs r j, asked s ls ps bs r /\ nth_error ps j = Some p /\ nth_error bs j = Some true
    /\ exists_path s p = true.

(** ** Key sources *)

(** The same environment with another value of VOLARIS_KEY ([None]: not set). *)
Definition with_key (k : option bytes) (V : cenv) : cenv :=
  mkCenv (ce_E V) (ce_Z V) (ce_blake3 V) (ce_debug V) k (ce_words V) (ce_draw V) (ce_pick V)
    (ce_sched V) (ce_alias V).
(** The value of an argument on the command line: the first given, or the default. *)
Definition value_of (m : matches) (id : string) : option string :=
  match find_arg m id with
  | Some a => match m_given m id with v :: _ => Some v | [] => a_default a end
  | None => None
  end.
