(** A model of [std::io] devices ([File]).

    A device has a content, a cursor, a *plan* describing how the next calls
    behave, and a log of the writes performed.  The empty plan is a device on
    which every call transfers as much as possible and never fails (a regular
    file).  Theorems quantified over plans are quantified over all short-read,
    short-write, interruption and failure schedules the [Read]/[Write]/[Seek]
    contracts allow. *)
From Coq Require Import List Arith ZArith Lia.
From Verif Require Import Bytes Outcome.

(** [std::io::ErrorKind], as far as the code distinguishes kinds
    (crates/volaris-tools/src/decrypt.rs line 74 tests [UnexpectedEof];
    [Interrupted] and [WriteZero] are distinguished by std's own loops). *)
Inductive io_error :=
| EInterrupted | EUnexpectedEof | EWriteZero | EInvalidSeek | EOther.

(** How one call behaves: transfers everything it can, transfers less, is
    interrupted by a signal, or fails. *)
Inductive ev := EvFull | EvShort (k : nat) | EvInt | EvFail.

Record dev := mkDev {
  d_data : bytes;                (* content *)
  d_pos  : nat;                  (* cursor *)
  d_plan : list ev;              (* behaviour of the next calls *)
  d_log  : list (nat * bytes)    (* writes performed so far, oldest first *)
}.

(** A well-behaved device with the given content, cursor at the start. *)
Definition dev_of (l : bytes) : dev := mkDev l 0 [] [].

Definition next_ev (d : dev) : ev * dev :=
  match d_plan d with
  | [] => (EvFull, d)
  | e :: p => (e, mkDev (d_data d) (d_pos d) p (d_log d))
  end.

(** [Read::read] with a buffer of [n] bytes (std).  A short read returns at
    least one byte unless at end of file. *)
Definition take_at (n : nat) (d : dev) : bytes * dev :=
  let got := firstn n (skipn (d_pos d) (d_data d)) in
  (got, mkDev (d_data d) (d_pos d + length got) (d_plan d) (d_log d)).

Definition dev_read (n : nat) : M dev io_error bytes := fun d =>
  let '(e, d1) := next_ev d in
  match e with
  | EvFull => let '(got, d2) := take_at n d1 in (Ok got, d2)
  | EvShort k => let '(got, d2) := take_at (Nat.min n (S k)) d1 in (Ok got, d2)
  | EvInt => (Err EInterrupted, d1)
  | EvFail => (Err EOther, d1)
  end.

(** Content after writing [l] at offset [p]: a gap beyond the end is filled
    with zeros; writing nothing changes nothing (POSIX/[File] semantics). *)
Definition write_at (data : bytes) (p : nat) (l : bytes) : bytes :=
  match l with
  | [] => data
  | _ => firstn p data ++ zeros (p - length data) ++ l
         ++ skipn (p + length l) data
  end.

Definition put_at (l : bytes) (d : dev) : dev :=
  mkDev (write_at (d_data d) (d_pos d) l) (d_pos d + length l) (d_plan d)
        (match l with [] => d_log d | _ => d_log d ++ [(d_pos d, l)] end).

(** [Write::write] (std): returns the number of bytes accepted. *)
Definition dev_write (l : bytes) : M dev io_error nat := fun d =>
  let '(e, d1) := next_ev d in
  match e with
  | EvFull => (Ok (length l), put_at l d1)
  | EvShort k => let l' := firstn k l in (Ok (length l'), put_at l' d1)
  | EvInt => (Err EInterrupted, d1)
  | EvFail => (Err EOther, d1)
  end.

(** [Write::flush] (std). *)
Definition dev_flush : M dev io_error unit := fun d =>
  let '(e, d1) := next_ev d in
  match e with
  | EvFull | EvShort _ => (Ok tt, d1)
  | EvInt => (Err EInterrupted, d1)
  | EvFail => (Err EOther, d1)
  end.

Definition set_pos (p : nat) (d : dev) : dev :=
  mkDev (d_data d) p (d_plan d) (d_log d).

(** [Seek::seek(SeekFrom::Start(p))]; [Seek::rewind] is [seek_start 0] (std). *)
Definition dev_seek_start (p : nat) : M dev io_error unit := fun d =>
  let '(e, d1) := next_ev d in
  match e with
  | EvFull | EvShort _ => (Ok tt, set_pos p d1)
  | EvInt => (Err EInterrupted, d1)
  | EvFail => (Err EOther, d1)
  end.

Definition dev_rewind : M dev io_error unit := dev_seek_start 0.

(** [Seek::seek(SeekFrom::Current(-n))]: fails below zero (std). *)
Definition dev_seek_back (n : nat) : M dev io_error unit := fun d =>
  let '(e, d1) := next_ev d in
  match e with
  | EvFull | EvShort _ =>
      if n <=? d_pos d1 then (Ok tt, set_pos (d_pos d1 - n) d1)
      else (Err EInvalidSeek, d1)
  | EvInt => (Err EInterrupted, d1)
  | EvFail => (Err EOther, d1)
  end.

(** [Read::read_exact] (std, [default_read_exact], which [File] uses): loop on
    [read], retry on [Interrupted], [UnexpectedEof] when [read] returns 0.  The
    error carries what the buffer holds at that point (the code looks at it in
    crates/volaris-tools/src/decrypt.rs lines 68-82). *)
Fixpoint read_exact_loop (fuel n : nat) (acc : bytes)
  : M dev (io_error * bytes) bytes :=
  match n with
  | O => ret acc
  | _ =>
    match fuel with
    | O => diverge
    | S fuel' => fun d =>
        match dev_read n d with
        | (Ok [], d1) => (Err (EUnexpectedEof, acc), d1)
        | (Ok got, d1) =>
            read_exact_loop fuel' (n - length got) (acc ++ got) d1
        | (Err EInterrupted, d1) => read_exact_loop fuel' n acc d1
        | (Err e, d1) => (Err (e, acc), d1)
        | (Panic, d1) => (Panic, d1)
        | (Diverge, d1) => (Diverge, d1)
        end
    end
  end.

Definition dev_read_exact (n : nat) : M dev (io_error * bytes) bytes := fun d =>
  read_exact_loop (S (length (d_plan d) + n)) n [] d.

(** [Write::write_all] (std): loop on [write], retry on [Interrupted],
    [WriteZero] when [write] accepts nothing. *)
Fixpoint write_all_loop (fuel : nat) (l : bytes) : M dev io_error unit :=
  match l with
  | [] => ret tt
  | _ =>
    match fuel with
    | O => diverge
    | S fuel' => fun d =>
        match dev_write l d with
        | (Ok O, d1) => (Err EWriteZero, d1)
        | (Ok k, d1) => write_all_loop fuel' (skipn k l) d1
        | (Err EInterrupted, d1) => write_all_loop fuel' l d1
        | (Err e, d1) => (Err e, d1)
        | (Panic, d1) => (Panic, d1)
        | (Diverge, d1) => (Diverge, d1)
        end
    end
  end.

Definition dev_write_all (l : bytes) : M dev io_error unit := fun d =>
  write_all_loop (S (length (d_plan d) + length l)) l d.

(** [Read::read_to_end] (std): read until [read] returns 0, retry on
    [Interrupted].  std reads in chunks of its own choosing; the model asks for
    everything that is left, which a plan can cut into chunks of any size. *)
Fixpoint read_to_end_loop (fuel : nat) (acc : bytes) : M dev io_error bytes :=
  match fuel with
  | O => diverge
  | S fuel' => fun d =>
      match dev_read (S (length (d_data d))) d with
      | (Ok [], d1) => (Ok acc, d1)
      | (Ok got, d1) => read_to_end_loop fuel' (acc ++ got) d1
      | (Err EInterrupted, d1) => read_to_end_loop fuel' acc d1
      | (Err e, d1) => (Err e, d1)
      | (Panic, d1) => (Panic, d1)
      | (Diverge, d1) => (Diverge, d1)
      end
  end.

Definition dev_read_to_end : M dev io_error bytes := fun d =>
  read_to_end_loop (S (S (length (d_plan d) + length (d_data d)))) [] d.

(** Replay of a write log on a content: the basis of crash states.  A crash
    during a sequence of writes leaves the effect of some first part of it, the
    next write possibly cut short. *)
Definition replay (data : bytes) (log : list (nat * bytes)) : bytes :=
  fold_left (fun acc w => write_at acc (fst w) (snd w)) log data.
