(** Properties C39, C40, C44, C45, C50, C54: overwriting, hashing, hexadecimal
    output, passphrases (crates/volaris-tools/src/{overwrite,hash,hasher,utils}.rs,
    crates/volaris-crypto/src/key.rs).  Vocabulary: IOSpec.v, ToolSpec.v. *)
From Coq Require Import List Arith NArith ZArith Lia Bool Ascii String.
From Verif Require Import Bytes Outcome IO Primitives KeyModel Overwrite Hash.
From Verif Require Import IOSpec ToolSpec ToolProofs.
Import ListNotations.
Local Open Scope nat_scope.
Local Open Scope list_scope.

(** C39: after success the first [cap] bytes are zero and the rest is as before,
    for every number of passes; whatever the device does, the target is zeroed
    from the start up to some point and unchanged from there on; no panic; a
    well-behaved device always succeeds. *)
Theorem C39_overwrite_zeroes : forall cap passes d g o d' g',
  overwrite_execute cap passes (d, g) = (o, (d', g')) ->
  (o = Ok tt ->
     d_data d' = zeros cap ++ skipn cap (d_data d)
     /\ (forall i, i < cap -> nth_error (d_data d') i = Some x00)
     /\ (forall i, cap <= i -> nth_error (d_data d') i = nth_error (d_data d) i))
  /\ (exists k, k <= cap /\ d_data d' = zeros k ++ skipn k (d_data d))
  /\ o <> Panic /\ o <> Diverge
  /\ (d_plan d = [] -> o = Ok tt).
Proof. exact overwrite_holds. Qed.
Print Assumptions C39_overwrite_zeroes.

(** Capacities around the block of 512 bytes, targets shorter and longer than
    the capacity, negative and positive pass counts, a short write. *)
Example C39_case :
  forallb (fun '(n, cap, passes, plan) =>
    match overwrite_execute cap passes (mkDev (repeat x41 n) 3 plan [], fun _ => x55) with
    | (Ok _, (d, _)) => bytes_eqb (d_data d) (zeros cap ++ skipn cap (repeat x41 n))
    | _ => false
    end)
    [(600, 600, 2%Z, []); (700, 512, 1%Z, []); (10, 513, 0%Z, []); (5, 0, 3%Z, []);
     (1100, 1024, (-4)%Z, []);
     (600, 511, 1%Z, [EvFull; EvFull; EvFull; EvShort 7; EvInt; EvShort 100])] = true.
Proof. vm_compute. reflexivity. Qed.

(** C40 is false: with three passes over 600 bytes, every byte is written fewer
    times than the passes and the final zeroing require, and every write
    consists of zeros. *)
Theorem C40_random_passes_refuted : exists cap passes d g d' i,
  d_plan d = [] /\ d_log d = [] /\ (1 <= passes)%Z /\ i < cap
  /\ overwrite_execute cap passes (d, g) = (Ok tt, (d', g))
  /\ (Z.of_nat (times_written (d_log d') i) < passes + 1)%Z
  /\ forall w, In w (d_log d') -> Forall (fun b => b = x00) (snd w).
Proof. exact passes_write_nothing. Qed.
Print Assumptions C40_random_passes_refuted.

(** What holds instead: whatever the number of passes, each byte is written
    exactly once, with zero, and the generator is never consulted. *)
Theorem C40_single_zero_pass_partial : forall cap passes d g,
  d_plan d = [] -> d_log d = [] ->
  exists d', overwrite_execute cap passes (d, g) = (Ok tt, (d', g))
  /\ List.concat (map snd (d_log d')) = zeros cap
  /\ forall i, i < cap -> times_written (d_log d') i = 1.
Proof. exact overwrite_once. Qed.
Print Assumptions C40_single_zero_pass_partial.

Example C40_case :
  match overwrite_execute 1030 5 (dev_of (repeat x41 1030), fun _ => x55) with
  | (Ok _, (d, _)) => (List.length (d_log d), map fst (d_log d),
                       map (times_written (d_log d)) [0; 511; 512; 1029; 1030])
  | _ => (99, [], [])
  end = (1, [0], [1; 1; 1; 1; 0]).
Proof. vm_compute. reflexivity. Qed.

(** C44: the hash of the whole content, from any cursor position, for any
    length; the input is not changed. *)
Theorem C44_hash_whole_input : forall H h d, incremental H -> d_plan d = [] ->
  exists d', hash_execute H h d = (Ok (hr_finish H (hr_write H (d_data d) h)), d')
  /\ d_data d' = d_data d /\ d_log d' = d_log d.
Proof. exact hash_holds. Qed.
Print Assumptions C44_hash_whole_input.

Theorem C44_hash_blake3 : forall blake3 d, d_plan d = [] ->
  exists d', hash_execute (Blake3Hasher blake3) [] d
             = (Ok (hex_encode (blake3 (d_data d))), d')
  /\ d_data d' = d_data d /\ d_log d' = d_log d.
Proof. exact hash_blake3_holds. Qed.
Print Assumptions C44_hash_blake3.

(** The hasher of the code is incremental; lengths around a block of 4 bytes,
    cursor in the middle. *)
Example C44_case :
  incremental (Blake3Hasher (@rev byte))
  /\ map (fun n => match hash_execute_bs (Blake3Hasher (@rev byte)) 4 []
                           (mkDev (firstn n [x61; x62; x63; x64; x65; x66; x67; x68; x69])
                                  2 [] []) with
                   | (Ok s, _) => s | _ => "fail"%string end) [0; 3; 4; 5; 8; 9]
     = ["" ; "636261"; "64636261"; "6564636261"; "6867666564636261";
        "696867666564636261"]%string.
Proof. split; [apply blake3_incremental|vm_compute; reflexivity]. Qed.

(** C45 is false: a short read ends the loop early, and the hash printed is that
    of a proper prefix. *)
Theorem C45_hash_short_reads_refuted : exists d d',
  hash_execute (Blake3Hasher (fun l => l)) [] d = (Ok "616263"%string, d')
  /\ d_data d = [x61; x62; x63; x64]
  /\ hex_encode (d_data d) = "61626364"%string
  /\ ~ In EvFail (d_plan d) /\ ~ In EvInt (d_plan d).
Proof. exact hash_short_witness. Qed.
Print Assumptions C45_hash_short_reads_refuted.

(** What holds for every reader: the result is the hash of a prefix, and of
    everything if no read is short; no panic, no endless loop. *)
Theorem C45_hash_of_prefix_partial : forall H h d o d', incremental H ->
  hash_execute H h d = (o, d') ->
  d_data d' = d_data d /\ d_log d' = d_log d
  /\ o <> Panic /\ o <> Diverge
  /\ (forall s, o = Ok s -> exists k,
        s = hr_finish H (hr_write H (firstn k (d_data d)) h)
        /\ (no_short (d_plan d) -> k = List.length (d_data d))).
Proof. exact hash_short_holds. Qed.
Print Assumptions C45_hash_of_prefix_partial.

Example C45_case :
  map (fun plan => match hash_execute_bs (Blake3Hasher (fun l => l)) 2 []
                           (mkDev [x61; x62; x63; x64; x65] 0 plan []) with
                   | (Ok s, _) => s | (Err _, _) => "error"%string | _ => "?"%string end)
      [[]; [EvFull; EvFull; EvShort 0]; [EvFull; EvInt]; [EvFail]]
  = ["6162636465"; "616263"; "error"; "error"]%string.
Proof. vm_compute. reflexivity. Qed.

(** C50 is false: for every word list and every positive number of words there
    are random draws on which the function panics. *)
Theorem C50_passphrase_panics_refuted : forall words n, (0 < n)%Z ->
  exists draw, generate_passphrase words draw n = Panic.
Proof. exact passphrase_panics. Qed.
Print Assumptions C50_passphrase_panics_refuted.

(** What holds: the result is [n] words of the list joined by hyphens (empty for
    [n <= 0]), unless some draw hits the value one past the end of the list,
    which is the only way to panic. *)
Theorem C50_passphrase_shape_partial : forall words draw n,
  match generate_passphrase words draw n with
  | Ok s => exists ws, List.length ws = Z.to_nat n /\ s = hyphenated ws
              /\ (forall j w, nth_error ws j = Some w -> In w words)
  | Panic => exists j, j < Z.to_nat n
               /\ (draw j mod (N.of_nat (List.length words) + 1)
                   = N.of_nat (List.length words))%N
  | _ => False
  end.
Proof. exact passphrase_holds. Qed.
Print Assumptions C50_passphrase_shape_partial.

(** Every sequence of words can come out. *)
Theorem C50_passphrase_reaches_all_partial : forall words ws,
  (forall w, In w ws -> In w words) -> ws <> [] ->
  exists draw, generate_passphrase words draw (Z.of_nat (List.length ws)) = Ok (hyphenated ws).
Proof. exact passphrase_reaches. Qed.
Print Assumptions C50_passphrase_reaches_all_partial.

Example C50_case :
  map (fun n => generate_passphrase ["abacus"; "zoom"; "kiwi"]%string
                  (fun i => nth i [2; 0; 5; 1]%N 0%N) n) [(-1)%Z; 0%Z; 1%Z; 4%Z]
  = [Ok ""; Ok ""; Ok "kiwi"; Ok "kiwi-abacus-zoom-zoom"]%string
  /\ generate_passphrase ["abacus"; "zoom"; "kiwi"]%string
       (fun i => nth i [2; 7]%N 0%N) 3 = Panic.
Proof. split; vm_compute; reflexivity. Qed.

(** C54: two lowercase hexadecimal digits per byte, decodable, injective. *)
Theorem C54_hex_encode_faithful : forall l,
  String.length (hex_encode l) = 2 * List.length l
  /\ all_digits (hex_encode l)
  /\ hex_decode (hex_encode l) = Some l
  /\ forall l', hex_encode l' = hex_encode l -> l' = l.
Proof. exact hex_holds. Qed.
Print Assumptions C54_hex_encode_faithful.

Example C54_case : hex_encode [x00; x0a; x10; xff; x9c] = "000a10ff9c"%string.
Proof. reflexivity. Qed.
