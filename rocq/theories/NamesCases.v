(** Packing a directory with a file whose name is not UTF-8. *)
From Coq Require Import List ZArith Ascii String.
From Verif Require Import Bytes Outcome IO Primitives Crypto EncDec FS Archive Cli FSSpec ArchiveSpec ToyEnv ArchiveCases EraseCases CliSpec CliCases CrashCases Utf8Facts Names NamesSpec NamesProofs.
Import ListNotations.
Local Open Scope string_scope.
Local Open Scope list_scope.

(** The byte 255, which no text has; and two names that are text, of one and two bytes. *)
Definition odd : string := String "255"%char EmptyString.
Definition accented : string := String "195"%char (String "169"%char EmptyString).

(** A directory with [x] and a file of the given name. *)
Definition with_name (n : string) : sys :=
  mkSys [(["tmp"], NDir); (["home"], NDir); (["home"; "k"], NFile 1); (["home"; "out"], NFile 2);
         (["home"; "d"], NDir); (["home"; "d"; "x"], NFile 3); (["home"; "d"; n], NFile 4)]
        (fun i => nth i [[]; B "key"; B "old"; B "inner"; B "other"] []) 10 ["home"] (abs ["tmp"]) [] [] noise [].
Definition at_name (n : string) : cli := mkCli (with_name n, []) [] [] [].
(** "volaris pack -f -k k d out" *)
Definition packing4 : list (string * list string) :=
  [("input", ["d"]); ("output", ["out"]); ("keyfile", ["k"]); ("force", [""])].
Definition after_t (n : string) : cli := snd (run_command_t Vt CmdPack (args packing4) (at_name n)).

Definition temp_holds (s : sys) : option (list (string * bytes)) :=
  match at_place s ["tmp"; "tmpname"] with
  | Some (SFile _ l) => option_map (map (fun e => (zr_name e, zr_data e))) (z_decode (ce_Z Vt) l)
  | _ => None
  end.

Lemma packing4_names : given_names (args packing4).
Proof.
  intros id v I. unfold args in I.
  destruct (find (fun kv => String.eqb (fst kv) id) packing4) as [kv|] eqn:F; [|destruct I].
  apply find_some in F. destruct F as [F _]. apply text_iff.
  destruct F as [<-|[<-|[<-|[<-|[]]]]]; destruct I as [<-|[]]; reflexivity.
Qed.
Lemma odd_no_name : ~ is_name odd.
Proof. intros H. apply text_iff in H. vm_compute in H. discriminate. Qed.
Lemma accented_name : is_name accented.
Proof. apply text_iff. vm_compute. reflexivity. Qed.

Lemma with_name_all : forall n, is_name n -> all_names (with_name n).
Proof.
  intros n N. assert (T : forall m, In m ["tmp"; "home"; "k"; "out"; "d"; "x"] -> is_name m).
  { intros m I. apply text_iff. repeat (destruct I as [<-|I]; [reflexivity|]). destruct I. }
  assert (F : forall q, In q (map fst (s_nodes (with_name n))) -> Forall is_name q).
  { intros q I. cbn [with_name s_nodes map fst] in I.
    repeat (destruct I as [<-|I]; [repeat constructor; first [exact N | apply T; cbn; tauto]|]). destruct I. }
  constructor.
  - intros q m I. apply F. apply (in_map fst) in I. exact I.
  - intros q t I. apply (in_map snd) in I. cbn [with_name s_nodes map snd] in I.
    repeat (destruct I as [I|I]; [discriminate|]). destruct I.
  - constructor; [apply T; cbn; tauto|constructor].
Qed.

Lemma odd_stops :
  fst (run_command_t Vt CmdPack (args packing4) (at_name odd)) = Err (CPack PkReadData)
  /\ at_place (disk (after_t odd)) ["home"; "out"] = Some (SFile 2 [])
  /\ temp_holds (disk (after_t odd)) = Some [("d/", []); ("d/x", B "inner")].
Proof. split; [vm_compute; reflexivity|]. split; vm_compute; reflexivity. Qed.
Lemma accented_works :
  fst (run_command_t Vt CmdPack (args packing4) (at_name accented)) = Ok tt
  /\ temp_holds (disk (after_t accented)) = None
  /\ found (disk (after_t accented)) ["home"; "out"] <> Some 0.
Proof. split; [vm_compute; reflexivity|]. split; vm_compute; [reflexivity|discriminate]. Qed.

Lemma any_name_fails : exists V g c c', given_names g /\ no_faults (disk c) /\ tree_ok (disk c) /\ inodes_ok (disk c)
  /\ fst (run_command V CmdPack g c) = Ok tt
  /\ run_command_t V CmdPack g c = (Err (CPack PkReadData), c')
  /\ at_place (disk c) ["home"; "out"] = Some (SFile 2 (B "old"))
  /\ at_place (disk c') ["home"; "out"] = Some (SFile 2 [])
  /\ at_place (disk c) ["tmp"; "tmpname"] = None
  /\ exists i l, at_place (disk c') ["tmp"; "tmpname"] = Some (SFile i l)
       /\ option_map (map (fun e => (zr_name e, zr_data e))) (z_decode (ce_Z V) l)
          = Some [("d/", []); ("d/x", B "inner")].
Proof.
  exists Vt, (args packing4), (at_name odd), (after_t odd).
  split; [exact packing4_names|]. split; [split; reflexivity|].
  split; [apply tree_okb_spec; vm_compute; reflexivity|].
  split; [apply inodes_okb_spec; vm_compute; reflexivity|].
  split; [vm_compute; reflexivity|].
  split. { unfold after_t. pose proof (proj1 odd_stops) as F.
    destruct (run_command_t Vt CmdPack (args packing4) (at_name odd)) as [o c']. cbn [fst snd] in *. rewrite F. reflexivity. }
  split; [vm_compute; reflexivity|]. split; [vm_compute; reflexivity|]. split; [vm_compute; reflexivity|].
  eexists. eexists. split; vm_compute; reflexivity.
Qed.
