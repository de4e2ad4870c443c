(** The command line as clap (4.5.16, Cargo.lock) reads it.

    clap is not in /repo.  This is how it is documented to treat the definitions in
    crates/volaris-cli/src/cli.rs, none of which changes clap's settings except
    [required], [short], [long], [require_equals], [num_args], [default_value],
    [conflicts_with] and [short_flag].  Printing the help or the version and
    printing an error are not told apart: the program ends before main.rs line 17.
    Left out: a subcommand's short flag followed by further letters in the same
    word ([-ek]). *)
From Coq Require Import List Arith ZArith Ascii String Bool.
From Verif Require Import Bytes Outcome Cli.
Import ListNotations.
Local Open Scope nat_scope.
Local Open Scope list_scope.

(** An argument with a name: [Arg::new(o_id).long(..).short(..).require_equals(..)].
    None has an action or [num_args], so each takes one value. *)
Record opt := mkOpt { o_id : string; o_long : string; o_short : option ascii; o_equals : bool }.
Definition long (id : string) : opt := mkOpt id id None false.
Definition short (c : ascii) (id : string) : opt := mkOpt id id (Some c) false.
Definition equals (id name : string) : opt := mkOpt id name None true.

(** The arguments without a name, in order; [true]: [num_args(1..)]. *)
Definition positionals (c : command) : list (string * bool) :=
  match c with
  | CmdEncrypt | CmdDecrypt | CmdUnpack =>       (* cli.rs lines 10-21, 78-89, 256-267 *)
      [("input", false); ("output", false)]%string
  | CmdErase => [("input", false)]%string        (* cli.rs lines 135-140 *)
  | CmdHash => [("input", true)]%string          (* cli.rs lines 159-165 *)
  | CmdPack => [("input", true); ("output", false)]%string   (* cli.rs lines 171-183 *)
  end.
Definition options (c : command) : list opt :=
  match c with
  | CmdEncrypt =>     (* cli.rs lines 22-73 *)
      [short "k" "keyfile"; equals "erase" "erase"; short "H" "hash"; long "argon";
       equals "autogenerate" "auto"; long "header"; short "f" "force"; long "aes"]%string
  | CmdDecrypt =>     (* cli.rs lines 90-122 *)
      [short "k" "keyfile"; long "header"; equals "erase" "erase"; short "H" "hash";
       short "f" "force"]%string
  | CmdErase =>       (* cli.rs lines 141-154 *)
      [short "f" "force"; equals "passes" "passes"]%string
  | CmdHash => []
  | CmdPack =>        (* cli.rs lines 184-250 *)
      [long "erase"; long "argon"; short "v" "verbose"; equals "autogenerate" "auto";
       long "header"; short "z" "zstd"; short "r" "recursive"; short "k" "keyfile";
       short "H" "hash"; short "f" "force"; long "aes"]%string
  | CmdUnpack =>      (* cli.rs lines 268-306 *)
      [short "k" "keyfile"; long "header"; equals "erase" "erase"; short "v" "verbose";
       short "H" "hash"; short "f" "force"]%string
  end.

(** ** Words *)

(** What follows a prefix (clap_lex: [strip_prefix]). *)
Fixpoint after_prefix (p s : string) : option string :=
  match p, s with
  | EmptyString, _ => Some s
  | String a p', String b s' => if Ascii.eqb a b then after_prefix p' s' else None
  | String _ _, EmptyString => None
  end.
(** Split at the first [=] (clap_lex: [to_long]). *)
Fixpoint split_equals (s : string) : string * option string :=
  match s with
  | EmptyString => (EmptyString, None)
  | String a r => if Ascii.eqb a "=" then (EmptyString, Some r)
                  else let '(n, v) := split_equals r in (String a n, v)
  end.

(** clap_lex: [is_escape], [to_long], [to_short]; [-] by itself is a value. *)
Inductive word :=
| WEscape
| WLong (name : string) (value : option string)
| WShort (c : ascii) (rest : string)
| WValue.
Definition classify (s : string) : word :=
  if String.eqb s "--" then WEscape else
  match after_prefix "--" s with
  | Some r => let '(n, v) := split_equals r in WLong n v
  | None => match s with
            | String a (String c r) => if Ascii.eqb a "-" then WShort c r else WValue
            | _ => WValue
            end
  end.
(** clap: [is_new_arg] *)
Definition new_arg (s : string) : bool :=
  match classify s with WLong _ _ | WShort _ _ => true | WEscape | WValue => false end.

(** ** Reading the words of a subcommand *)

(** The values so far, as (name, value), in order. *)
Definition values := list (string * string).
Definition has (id : string) (g : values) : bool := existsb (fun x => String.eqb (fst x) id) g.
(** A value must be text ([String] is the type asked for). *)
Definition text (v : string) : bool := utf8 (list_byte_of_string v).
(** A value for an option ([ArgAction::Set]): at most one. *)
Definition set_value (o : opt) (v : string) (g : values) : option values :=
  if has (o_id o) g || negb (text v) then None else Some (g ++ [(o_id o, v)]).

Definition by_long (c : command) (n : string) : option opt :=
  find (fun o => String.eqb (o_long o) n) (options c).
Definition by_short (c : command) (a : ascii) : option opt :=
  find (fun o => match o_short o with Some b => Ascii.eqb a b | None => false end) (options c).

(** clap: [parse_opt_value]; [inl]: waiting for the value *)
Definition option_value (o : opt) (attached : option string) (has_eq : bool) (g : values)
  : option (option opt * values) :=
  if o_equals o && negb has_eq then None else
  match attached with
  | Some v => match set_value o v g with Some g' => Some (None, g') | None => None end
  | None => Some (Some o, g)
  end.

(** Which positional argument the word [s] is for, the next being the one at [pos]
    (clap: [get_matches_with], "Correct pos_counter"): where only the last one can
    still follow one with many values, the last word is the last one's. *)
Definition position (c : command) (pos : nat) (next : list string) : nat :=
  let ps := positionals c in
  if (pos + 2 =? List.length ps)
     && existsb (fun x => snd x) (removelast ps)
     && match next with [] => true | n :: _ => new_arg n end
  then S pos else pos.

(** clap: [get_matches_with].  [esc]: after [--]; [wait]: the option whose value is
    expected. *)
Fixpoint read_words (c : command) (esc : bool) (wait : option opt) (pos : nat) (g : values)
  (ws : list string) : option values :=
  match ws with
  | [] => match wait with None => Some g | Some _ => None end
  | s :: r =>
      match wait with
      | Some o => match classify s with
                  | WValue => match set_value o s g with
                              | Some g' => read_words c esc None pos g' r
                              | None => None
                              end
                  | _ => None
                  end
      | None =>
          let positional :=
            let p := position c pos r in
            match nth_error (positionals c) p with
            | Some (id, many) =>
                if text s then read_words c esc None (if many then p else S p) (g ++ [(id, s)]) r else None
            | None => None
            end in
          if esc then positional else
          match classify s with
          | WEscape => read_words c true None pos g r
          | WLong n v => match by_long c n with
                         | Some o => match option_value o v (match v with Some _ => true | None => false end) g with
                                     | Some (w, g') => read_words c esc w pos g' r
                                     | None => None
                                     end
                         | None => None
                         end
          | WShort a rest =>
              match by_short c a with
              | Some o =>
                  let '(v, eq) := match rest with
                                  | EmptyString => (None, false)
                                  | String e rest' => if Ascii.eqb e "=" then (Some rest', true)
                                                      else (Some rest, false)
                                  end in
                  match option_value o v eq g with
                  | Some (w, g') => read_words c esc w pos g' r
                  | None => None
                  end
              | None => None
              end
          | WValue => positional
          end
      end
  end.

Definition given_values (g : values) (id : string) : list string :=
  map snd (filter (fun x => String.eqb (fst x) id) g).

(** clap: [Validator::validate] *)
Definition valid (c : command) (g : values) : bool :=
  forallb (fun a => (negb (a_required a) || has (a_id a) g)
                    && forallb (fun x => negb (has (a_id a) g && has x g)) (a_conflicts a))
          (args_of c).

Definition read_args (c : command) (ws : list string) : option (string -> list string) :=
  match read_words c false None 0 [] ws with
  | Some g => if valid c g then Some (given_values g) else None
  | None => None
  end.

(** ** The whole program *)

(** cli.rs lines 7-9, 75-77, 124-308: the subcommand by name or short flag *)
Definition subcommands : list (string * command) :=
  [("encrypt", CmdEncrypt); ("-e", CmdEncrypt); ("decrypt", CmdDecrypt); ("-d", CmdDecrypt);
   ("erase", CmdErase); ("hash", CmdHash); ("pack", CmdPack); ("-p", CmdPack);
   ("unpack", CmdUnpack); ("-u", CmdUnpack)]%string.
Definition read_command (line : list string) : option (command * (string -> list string)) :=
  match line with
  | [] => None
  | s :: ws => match find (fun x => String.eqb (fst x) s) subcommands with
               | Some (_, c) => match read_args c ws with Some g => Some (c, g) | None => None end
               | None => None
               end
  end.

(** What the program leaves for its caller: clap ends the program with its message
    and status 0 (help) or 2, [exit(0)] and a successful [main] give 0, an error
    returned from [main] gives 1, a panic 101 (std). *)
Inductive finish := FClap | FStatus (n : Z) | FHang.
(** main.rs lines 14-69 *)
Definition program (V : cenv) (line : list string) (c : cli) : finish * cli :=
  match read_command line with
  | None => (FClap, c)
  | Some (cmd, g) =>
      let '(o, c') := run_command V cmd g c in
      (match o with
       | Ok _ => FStatus 0
       | Err CExit => FStatus 0
       | Err _ => FStatus 1
       | Panic => FStatus 101
       | Diverge => FHang
       end, c')
  end.
