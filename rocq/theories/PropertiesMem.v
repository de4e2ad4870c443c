(** Property C91: the in-memory storage that the unit tests run on behaves like the
    file storage.  Vocabulary: MemSpec.v; the test data is in MemCases.v. *)
From Coq Require Import List Arith ZArith Bool String Permutation.
From Verif Require Import Bytes Outcome IO Primitives Overwrite FS Erase FSSpec.
From Verif Require Import EraseCases MemStore MemSpec MemProofs MemCases.
Import ListNotations.
Local Open Scope nat_scope.
Local Open Scope list_scope.

(** False: a file opened for writing is emptied on disk but not in memory, so after
    writing something shorter the two hold different contents. *)
Theorem C91_write_refuted : exists m s n l a b,
  same_store m s
  /\ fst (perform_all InMemoryStorage [Update n l; Get n] m) = [Ok ADone; Ok (AContent a)]
  /\ fst (perform_all FileStorage [Update n l; Get n] s) = [Ok ADone; Ok (AContent b)] /\ a <> b.
Proof. exact shorter_update. Qed.
Print Assumptions C91_write_refuted.

(** What erase.rs lines 40-41 find: in memory the length of the content, on disk
    always nothing, so no test can notice that nothing is overwritten (C41). *)
Theorem C91_erase_length_refuted : forall m s n l,
  same_store m s -> n <> [] -> on_disk s n = KFile l ->
  fst (perform InMemoryStorage (WLen n) m) = Ok (ALen (List.length l))
  /\ fst (perform FileStorage (WLen n) s) = Ok (ALen 0).
Proof. exact erase_capacity. Qed.
Print Assumptions C91_erase_length_refuted.

(** The calls on which they agree (same answer, and the same is stored afterwards)
    are exactly the permitted ones. *)
Theorem C91_boundary_partial : forall m s c a m' b s', same_store m s -> target c <> [] ->
  perform InMemoryStorage c m = (a, m') -> perform FileStorage c s = (b, s') ->
  (agree a b /\ same_store m' s' <-> permitted (on_disk s) c).
Proof. exact boundary. Qed.
Print Assumptions C91_boundary_partial.

(** Any number of permitted calls. *)
Theorem C91_sequences_partial : forall cs m s xs m' ys s', same_store m s -> all_permitted cs s ->
  perform_all InMemoryStorage cs m = (xs, m') -> perform_all FileStorage cs s = (ys, s') ->
  Forall2 agree xs ys /\ same_store m' s'.
Proof. exact sequences_agree. Qed.
Print Assumptions C91_sequences_partial.

(** The program text that both run is the [erase::execute] of the other properties. *)
Theorem C91_same_erase : forall p passes s,
  erase_on FileStorage p passes s = run (erase_execute p passes) s.
Proof. exact MemDisk.erase_on_file. Qed.
Print Assumptions C91_same_erase.

(** The test data of storage.rs is in both. *)
Example C91_case_applies : same_store test_mem test_disk.
Proof. exact test_same. Qed.

(** Calls with the same answers. *)
Example C91_case :
  both [Get ["bar"; "hello.txt"]; Put ["bar"; "new"] (B "n"); Update ["bar"; "new"] (B "newer");
        Get ["bar"; "new"]; Erase ["hello.txt"] 2; Get ["hello.txt"]; EraseDir ["bar"] 2;
        Len ["bar"; "foo"; "world.txt"]; RmDir ["bar"]]%string
  = ([Ok (AContent (B "hello")); Ok ADone; Ok ADone; Ok (AContent (B "newer")); Ok ADone;
      Err (CeStore StOpenRead); Ok ADone; Err (CeStore StOpenRead); Err (CeStore StOpenRead)],
     [Ok (AContent (B "hello")); Ok ADone; Ok ADone; Ok (AContent (B "newer")); Ok ADone;
      Err (CeStore StOpenRead); Ok ADone; Err (CeStore StOpenRead); Err (CeStore StOpenRead)]).
Proof. vm_compute. reflexivity. Qed.

(** Listings come in different orders. *)
Example C91_case_entries : both [Entries ["bar"]]%string
  = ([Ok (AEntries [(rel ["bar"], true); (rel ["bar"; "hello.txt"], false);
        (rel ["bar"; "world.txt"], false); (rel ["bar"; "foo"], true);
        (rel ["bar"; "foo"; "hello.txt"], false); (rel ["bar"; "foo"; "world.txt"], false)])],
     [Ok (AEntries [(rel ["bar"], true); (rel ["bar"; "world.txt"], false);
        (rel ["bar"; "hello.txt"], false); (rel ["bar"; "foo"], true);
        (rel ["bar"; "foo"; "hello.txt"], false); (rel ["bar"; "foo"; "world.txt"], false)])])%string.
Proof. vm_compute. reflexivity. Qed.

(** A file in a directory that does not exist: only the memory takes it. *)
Example C91_case_no_parent : both [Put ["nowhere"; "f"] (B "x")]%string
  = ([Ok ADone], [Err (CeStore StCreateFile)]).
Proof. vm_compute. reflexivity. Qed.

(** A directory removed as a file: only the memory does so, and keeps what was in it. *)
Example C91_case_orphans : both [Del ["bar"]; Get ["bar"]; Get ["bar"; "hello.txt"]]%string
  = ([Ok ADone; Err (CeStore StOpenRead); Ok (AContent (B "hello"))],
     [Err (CeStore StRemoveFile); Err (CeStore StFileAccess); Ok (AContent (B "hello"))]).
Proof. vm_compute. reflexivity. Qed.

(** The length erase.rs works with. *)
Example C91_case_length : both [WLen ["hello.txt"]]%string = ([Ok (ALen 11)], [Ok (ALen 0)]).
Proof. vm_compute. reflexivity. Qed.
