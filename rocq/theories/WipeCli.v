(** Where the secret comes from (global/states.rs, cli/prompt.rs) with the buffers
    it passes through; as Wipe.v.  Proved to do what [get_secret] of Cli.v does
    (C93).

    Simplified: a buffer that grows while it is read is one buffer; what rpassword,
    the environment and the terminal keep is not followed; nor is a passphrase that
    is half generated when the generator panics. *)
From Coq Require Import List Arith NArith String.
From Verif Require Import Bytes Outcome IO Primitives KeyModel FS Archive Cli Wipe.
Import ListNotations.
Local Open Scope nat_scope.
Local Open Scope list_scope.

(** A scope that owns buffer [i] and hands it on when it succeeds *)
Definition handing_on {S E A} (i : nat) (m : M (S * memory) E A) : M (S * memory) E A := fun s =>
  match m s with
  | (Ok a, s') => (Ok a, s')
  | (o, (s', k)) => (o, (s', update i dead k))
  end.
(** The same for one inside [Protected] *)
Definition handing_on_protected {S E A} (i : nat) (m : M (S * memory) E A)
  : M (S * memory) E A := fun s =>
  match m s with
  | (Ok a, s') => (Ok a, s')
  | (o, (s', k)) => (o, (s', update i dead_protected k))
  end.

(** prompt.rs lines 63-82: [input] and [input_validation]; the second is wiped when
    they are equal (line 74).  The result says which buffer the secret is in. *)
Fixpoint password_loop_m (fuel : nat) (st : password_state)
  : M (cli * memory) cli_error (bytes * nat) :=
  match fuel with
  | O => diverge
  | S fuel' =>
      input <- thru prompt_password ;;
      i <- alloc Key input ;;
      match st with
      | Direct => ret (input, i)
      | Validate =>
          again <- handing_on i (thru prompt_password) ;;
          j <- alloc Key again ;;
          if (bytes_eqb input again && negb (is_nil input))%bool
          then owning j (wipe j) ;; ret (input, i)
          else owning i (owning j (thru (say NWarn))) ;; password_loop_m fuel' st
      end
  end.
Definition get_password_m (st : password_state) : M (cli * memory) cli_error (bytes * nat) :=
  fun s => password_loop_m (S (List.length (c_tty (fst s)))) st s.

(** [File::open] and [read_to_end] on a key file, with what was read before an error *)
Definition read_keyfile_b (p : path) : M sys (cli_error * bytes) bytes :=
  call_or (CKeyfile, []) (fun s =>
    match stat s p with
    | Some (NFile i) =>
        let '(plan, s1) := next_plan s in
        match dev_read_to_end (mkDev (s_data s i) 0 plan []) with
        | (Ok l, _) => (Ok l, s1)
        | (Err _, d) => (Err (CKeyfile, firstn (d_pos d) (s_data s i)), s1)
        | (Panic, _) => (Panic, s1)
        | (Diverge, _) => (Diverge, s1)
        end
    | _ => (Err (CKeyfile, []), s)
    end).

(** states.rs lines 69-75 on the file *)
Definition get_bytes_m (p : path) : M (cli * memory) cli_error (bytes * nat) := fun s =>
  match thru (on_fs (read_keyfile_b p)) s with
  | (Ok l, s') => (i <- alloc Key l ;; ret (l, i)) s'
  | (Err (e, l), s') => (i <- alloc Key l ;; owning i (err e)) s'
  | (Panic, s') => (Panic, s')
  | (Diverge, s') => (Diverge, s')
  end.

(** states.rs lines 82-121 *)
Definition get_secret_m (V : cenv) (k : key) (st : password_state)
  : M (cli * memory) cli_error (bytes * nat) :=
  secret <-
    match k with
    | Keyfile path =>
        if String.eqb path "-" then
          l <- thru read_stdin ;;
          i <- alloc Key l ;;
          handing_on_protected i (if is_nil l then err CEmptyStdin else ret (l, i))
        else
          li <- get_bytes_m (os_path path) ;;
          handing_on_protected (snd li) (if is_nil (fst li) then err CEmptyKeyfile else ret li)
    | Env =>
        l <- thru (lift_opt CEnvironment (ce_key V)) ;;
        i <- alloc Key l ;;
        ret (l, i)
    | User => get_password_m st
    | Generate n =>
        passphrase <- thru (lift (match generate_passphrase (ce_words V) (ce_draw V) n with
                                  | Ok s => Ok s | Err _ => Panic (* no errors *)
                                  | Panic => Panic | Diverge => Diverge end)) ;;
        (* lines 108-112; the passphrase itself is [Protected] too *)
        let l := list_byte_of_string passphrase in
        i <- alloc Key l ;;
        owning_protected i
        (thru (say (NPhrase passphrase)) ;;
         j <- alloc Key l ;;
         ret (l, j))
    end ;;
  handing_on_protected (snd secret)
    (if is_nil (fst secret) then err CEmptyKey else ret secret).
