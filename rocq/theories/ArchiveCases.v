(** A container format with the law assumed of zip, and the concrete file systems of
    PropertiesArchive. *)
From Coq Require Import List Arith NArith ZArith Ascii String Bool Lia.
From Verif Require Import Bytes Outcome IO Primitives Crypto Header Stream KeyModel EncDec Overwrite FS Archive.
From Verif Require Import IOSpec ToyEnv Fixtures FileCases FSSpec FSFacts EraseCases ArchiveSpec.
Import ListNotations.
Local Open Scope nat_scope.
Local Open Scope list_scope.

(** ** A toy container *)

Fixpoint put_str (l : bytes) : bytes :=
  match l with [] => [x00] | b :: r => x01 :: b :: put_str r end.
Fixpoint get_str (l : bytes) : option (bytes * bytes) :=
  match l with
  | x00 :: r => Some ([], r)
  | x01 :: b :: r => match get_str r with Some (x, y) => Some (b :: x, y) | None => None end
  | _ => None
  end.
Fixpoint put_zip (es : list zent) : bytes :=
  match es with
  | [] => [x00]
  | e :: r => x01 :: put_str (list_byte_of_string (ze_name e)) ++ put_str (ze_data e) ++ put_zip r
  end.
Fixpoint get_zip (fuel : nat) (l : bytes) : option (list zread) :=
  match fuel, l with
  | S fuel', x01 :: r =>
      match get_str r with
      | Some (n, r1) =>
          match get_str r1 with
          | Some (d, r2) =>
              match get_zip fuel' r2 with
              | Some zs => Some (mkZread (string_of_list_byte n) true d true :: zs)
              | None => None
              end
          | None => None
          end
      | None => None
      end
  | S _, [x00] => Some []
  | _, _ => None
  end.
Definition toy_zip : zip_env := mkZipEnv (fun _ es => put_zip es) (fun l => get_zip (List.length l) l).

Lemma get_put_str : forall l r, get_str (put_str l ++ r) = Some (l, r).
Proof. induction l as [|b l IH]; intros r; cbn; [reflexivity|]. rewrite IH. reflexivity. Qed.

Lemma get_put_zip : forall es fuel, List.length es < fuel ->
  get_zip fuel (put_zip es)
  = Some (map (fun e => mkZread (ze_name e) true (ze_data e) true) es).
Proof.
  induction es as [|e es IH]; intros [|fuel] H; cbn [List.length] in H; try lia; [reflexivity|].
  cbn [put_zip get_zip]. rewrite get_put_str, get_put_str, IH by lia.
  cbn [map]. rewrite string_of_list_byte_of_string. reflexivity.
Qed.

Lemma toy_zip_ok : zip_ok toy_zip.
Proof.
  intros m es _. cbn [z_decode z_encode toy_zip]. apply get_put_zip.
  induction es as [|e es IH]; cbn [put_zip List.length]; [lia|].
  rewrite !app_length. lia.
Qed.

(** ** Checking [inodes_ok] *)

Definition inodes_okb (s : sys) : bool :=
  forallb (fun e => match snd e with NFile i => i <? s_next s | _ => true end) (s_nodes s).

Lemma inodes_okb_spec : forall s, inodes_okb s = true -> inodes_ok s.
Proof.
  intros s H r i L. unfold inodes_okb in H. rewrite forallb_forall in H.
  assert (X : In (r, NFile i) (s_nodes s)).
  { destruct r as [|n r]; [discriminate|]. revert L. clear H. unfold lookup.
    induction (s_nodes s) as [|[p x] t IH]; cbn [find_node]; [discriminate|].
    destruct (cpath_eqb (n :: r) p) eqn:E.
    - intros L. apply cpath_eqb_eq in E. left. congruence.
    - intros L. right. apply IH, L. }
  apply H in X. cbn [snd] in X. apply Nat.ltb_lt, X.
Qed.

(** ** Samples *)

Definition afs (t : nodes) (l : list bytes) : sys :=
  mkSys t (fun i => nth i l []) 10 ["home"%string] (abs ["tmp"%string]) [] [] noise [].
Definition pick : rng -> string * rng := fun g => ("tmpname"%string, g).
Definition pw : bytes := B "password".

(** An encrypted archive. *)
Definition enc : enc_request := mkEncReq false pw (mkHT V5 XChaCha20Poly1305 StreamMode) (Blake3Balloon 5).
Definition archive (l : list (string * string)) : bytes :=
  enc_file toy BLOCK_SIZE enc (put_zip (map (fun e => mkZent (fst e) (B (snd e))) l)).

Definition inp (p : list string) (i : nat) : handle := mkHandle (rel p) i 0 [].
Definition unpack_req (o : path) (ask : list path -> option (list bool)) : unpack_request :=
  mkUnpackReq (inp ["in"%string] 0) None pw o ask.
Definition yes (l : list path) : option (list bool) := Some (map (fun _ => true) l).
Definition out : path := rel ["out"%string].

(** Enough turns for [n] threads. *)
Definition turns (n : nat) : list nat := List.concat (repeat (seq 0 n) 20).

(** A directory "out" which contains a link to a directory elsewhere. *)
Definition with_link : sys :=
  afs [(["tmp"], NDir); (["home"], NDir); (["home"; "in"], NFile 0); (["home"; "out"], NDir);
       (["home"; "private"], NDir); (["home"; "private"; "x"], NFile 1);
       (["home"; "out"; "l"], NLink (mkPath false [Up; Nm "private"%string]))]%string
      [archive [("l/x", "attack"); ("l/y", "new")]; B "precious"]%string.

Lemma link_escapes : exists s req sched s',
  tree_ok s /\ no_faults s /\ inodes_ok s
  /\ lookup (s_nodes s) ["home"; "out"]%string = Some NDir /\ resolve true s (ur_out req) = Some ["home"; "out"]%string
  /\ unpack_execute toy toy_zip pick sched req (s, []) = (Ok tt, s')
  /\ at_place s ["home"; "private"; "x"]%string = Some (SFile 1 (B "precious"))
  /\ at_place (fst s') ["home"; "private"; "x"]%string = Some (SFile 1 (B "attack"))
  /\ at_place s ["home"; "private"; "y"]%string = None
  /\ exists i, at_place (fst s') ["home"; "private"; "y"]%string = Some (SFile i (B "new")).
Proof.
  exists with_link, (unpack_req out yes), (turns 1). eexists (snd (_)).
  split; [apply tree_okb_spec; vm_compute; reflexivity|].
  split; [split; reflexivity|].
  split; [apply inodes_okb_spec; vm_compute; reflexivity|].
  split; [reflexivity|]. split; [vm_compute; reflexivity|].
  split; [apply pair_ok; vm_compute; reflexivity|].
  split; [vm_compute; reflexivity|]. split; [vm_compute; reflexivity|].
  split; [vm_compute; reflexivity|]. eexists. vm_compute. reflexivity.
Qed.

(** Names leading out of the directory, and names that do not. *)
Definition hostile : sys :=
  afs [(["tmp"], NDir); (["home"], NDir); (["home"; "in"], NFile 0); (["home"; "out"], NDir);
       (["home"; "private"], NFile 1); (["home"; "out"; "a"], NFile 2)]%string
      [archive [("../private", "attack"); ("/home/private", "attack"); ("d/../../private", "attack");
                ("a", "new a"); ("d/", ""); ("d/b", "in d"); ("d/../c", "beside d")]; B "precious"; B "old a"]%string.

(** The declined path "out/a" is reached by the accepted path "out/d/../a". *)
Definition two_names : sys :=
  afs [(["tmp"], NDir); (["home"], NDir); (["home"; "in"], NFile 0); (["home"; "out"], NDir);
       (["home"; "out"; "a"], NFile 1)]%string
      [archive [("d/", ""); ("d/../a", "by another name"); ("a", "declined"); ("b", "accepted")];
       B "precious"]%string.
(** Declines exactly the path "out/a". *)
Definition not_a (l : list path) : option (list bool) :=
  Some (map (fun p => negb (String.eqb (render p) "out/a")) l).

Lemma declined_written : exists s req sched s' paths answers,
  tree_ok s /\ no_faults s /\ inodes_ok s /\ output_at s (ur_out req) ["home"; "out"]%string []
  /\ unpack_execute toy toy_zip pick sched req (s, []) = (Ok tt, s')
  /\ ur_ask req paths = Some answers
  /\ In (rel ["out"; "a"]%string, false) (combine paths answers)
  /\ ~ In (rel ["out"; "a"]%string, true) (combine paths answers)
  /\ at_place s ["home"; "out"; "a"]%string = Some (SFile 1 (B "precious"))
  /\ at_place (fst s') ["home"; "out"; "a"]%string = Some (SFile 1 (B "by another name")).
Proof.
  exists two_names, (unpack_req out not_a), (turns 2). eexists (snd (_)).
  exists (map (fun cs => mkPath false (Nm "out"%string :: cs))
            [[Nm "d"]; [Nm "d"; Up; Nm "a"]; [Nm "a"]; [Nm "b"]]%string), [true; true; false; true].
  split; [apply tree_okb_spec; vm_compute; reflexivity|].
  split; [split; reflexivity|].
  split; [apply inodes_okb_spec; vm_compute; reflexivity|].
  split.
  { constructor.
    - exists [Nm "out"%string]. split; [reflexivity|vm_compute; reflexivity].
    - reflexivity.
    - intros a b t X Y. destruct a; [congruence|discriminate].
    - intros r t _ L. destruct r as [|n r]; [discriminate|]. revert L. unfold lookup.
      cbn [two_names afs s_nodes find_node].
      repeat match goal with |- (if ?b then _ else _) = _ -> _ => destruct b; [discriminate|] end.
      discriminate. }
  split; [apply pair_ok; vm_compute; reflexivity|].
  split; [reflexivity|]. split; [cbn; tauto|].
  split; [cbn; intros X; repeat destruct X as [X|X]; try discriminate; contradiction|].
  split; vm_compute; reflexivity.
Qed.

(** *** Temporary files left behind *)

Definition to_pack : sys :=
  afs [(["tmp"], NDir); (["home"], NDir); (["home"; "d"], NDir); (["home"; "d"; "a"], NFile 0);
       (["home"; "d"; "e"], NDir); (["home"; "d"; "e"; "b"], NFile 1); (["home"; "out"], NFile 2)]%string
      [B "secret"; B "more"; []].
Definition pack_req (fs : list entry) : pack_request :=
  mkPackReq (inp ["out"%string] 2) None fs Stored pw (mkHT V5 XChaCha20Poly1305 StreamMode) (Blake3Balloon 5).
Definition d_entries : list entry :=
  [EDir (rel ["d"]); EFile (inp ["d"; "a"] 0); EDir (rel ["d"; "e"]); EFile (inp ["d"; "e"; "b"] 1)]%string.

(** The same file twice. *)
Lemma pack_leaves_temp : exists s req s' i l,
  tree_ok s /\ no_faults s /\ inodes_ok s
  /\ pack_execute toy toy_zip pick req (s, []) = (Err PkAddFileToArchive, s')
  /\ resolve false s (temp_path pick s) = Some ["tmp"; "tmpname"]%string
  /\ at_place s ["tmp"; "tmpname"]%string = None
  /\ at_place (fst s') ["tmp"; "tmpname"]%string = Some (SFile i l)
  /\ z_decode toy_zip l = Some [mkZread "d/"%string true [] true; mkZread "d/a"%string true (B "secret") true].
Proof.
  exists to_pack, (pack_req [EDir (rel ["d"]); EFile (inp ["d"; "a"] 0); EFile (inp ["d"; "a"] 0)]%string).
  eexists (snd (_)), _, _.
  split; [apply tree_okb_spec; vm_compute; reflexivity|].
  split; [split; reflexivity|].
  split; [apply inodes_okb_spec; vm_compute; reflexivity|].
  split; [apply pair_ok; vm_compute; reflexivity|].
  split; [vm_compute; reflexivity|]. split; [reflexivity|].
  split; [vm_compute; reflexivity|]. vm_compute. reflexivity.
Qed.

(** A directory where a file is to be written. *)
Definition in_the_way : sys :=
  afs [(["tmp"], NDir); (["home"], NDir); (["home"; "in"], NFile 0); (["home"; "out"], NDir);
       (["home"; "out"; "a"], NDir)]%string
      [archive [("a", "secret"); ("b", "more")]]%string.

Lemma unpack_leaves_temp : exists s req sched s' e i l,
  tree_ok s /\ no_faults s /\ inodes_ok s
  /\ unpack_execute toy toy_zip pick sched req (s, []) = (Err (UnStorage e), s')
  /\ resolve false s (temp_path pick s) = Some ["tmp"; "tmpname"]%string
  /\ at_place s ["tmp"; "tmpname"]%string = None
  /\ at_place (fst s') ["tmp"; "tmpname"]%string = Some (SFile i l)
  /\ z_decode toy_zip l = Some [mkZread "a"%string true (B "secret") true; mkZread "b"%string true (B "more") true].
Proof.
  exists in_the_way, (unpack_req out yes), (turns 1).
  eexists (snd (_)), _, _, _.
  split; [apply tree_okb_spec; vm_compute; reflexivity|].
  split; [split; reflexivity|].
  split; [apply inodes_okb_spec; vm_compute; reflexivity|].
  split; [apply pair_ok; vm_compute; reflexivity|].
  split; [vm_compute; reflexivity|]. split; [reflexivity|].
  split; [vm_compute; reflexivity|]. vm_compute. reflexivity.
Qed.
