(** The concrete runs of PropertiesWritten. *)
From Coq Require Import List Arith NArith ZArith Ascii String Bool Lia.
From Verif Require Import Bytes Outcome IO Primitives Crypto Header Stream KeyModel EncDec KeyOps HeaderOps.
From Verif Require Import Overwrite Hash FS Erase Archive ArchiveSpec ArchiveCases Cli CliTools.
From Verif Require Import IOSpec ToyEnv Fixtures FileCases EraseCases FSSpec CliSpec CliCases CliToolsSpec CliToolsCases WrittenSpec WrittenProofs WrittenCli.
Import ListNotations.
Local Open Scope nat_scope.
Local Open Scope string_scope.
Local Open Scope list_scope.

(** ** An archive made elsewhere, with an entry that cannot be opened *)
Definition other_zip : zip_env := mkZipEnv (z_encode toy_zip)
  (fun l => match l with
            | xff :: r => Some [mkZread "a" true r true; mkZread "b" false [] true]
            | _ => z_decode toy_zip l
            end).
Lemma other_zip_ok : zip_ok other_zip.
Proof.
  intros m es N. rewrite <- (toy_zip_ok m es N). cbn [other_zip z_decode z_encode toy_zip].
  destruct es as [|e es]; reflexivity.
Qed.
Definition from_elsewhere : sys :=
  afs [(["tmp"], NDir); (["home"], NDir); (["home"; "in"], NFile 0)]
      [enc_file toy BLOCK_SIZE enc (xff :: B "first")].
Definition after_elsewhere : asys := snd (unpack_execute toy other_zip pick (ArchiveCases.turns 5) (unpack_req out yes) (from_elsewhere, [])).

Lemma entry_dropped : exists E Z pick sched req s a' zs z p,
  env_ok E /\ zip_ok Z /\ tree_ok s /\ no_faults s /\ inodes_ok s
  /\ (forall ps, ur_ask req ps = Some (map (fun _ => true) ps))
  /\ unpack_execute E Z pick sched req (s, []) = (Ok tt, a')
  /\ archive_in E Z BLOCK_SIZE req s zs
  /\ In z zs /\ enclosed_name (zr_name z) = Some p /\ ~ for_dir z
  /\ stat (fst a') (path_push (ur_out req) p) = None.
Proof.
  exists toy, other_zip, pick, (ArchiveCases.turns 5), (unpack_req out yes), from_elsewhere, after_elsewhere,
    [mkZread "a" true (B "first") true; mkZread "b" false [] true], (mkZread "b" false [] true), (rel ["b"]).
  split; [exact toy_ok|]. split; [exact other_zip_ok|]. split; [apply tree_okb_spec; vm_compute; reflexivity|].
  split; [split; reflexivity|]. split; [apply inodes_okb_spec; vm_compute; reflexivity|].
  split; [reflexivity|]. split; [unfold after_elsewhere; apply pair_ok; vm_compute; reflexivity|]. split.
  { exists [], (s_rng from_elsewhere), []. eexists. split; [apply pair_ok; vm_compute; reflexivity|vm_compute; reflexivity]. }
  split; [right; left; reflexivity|]. split; [reflexivity|]. split; [discriminate|]. vm_compute. reflexivity.
Qed.

(** ** Two entries for one file *)
Definition twice : cli := zhome [("c", "first"); ("./c", "second")] [].
Lemma entry_replaced : exists V p c c' zs, env_ok (ce_E V) /\ zip_ok (ce_Z V) /\ no_faults (disk c) /\ inodes_ok (disk c)
  /\ cp_force p = Force
  /\ unpack_cli V "in" "out" false p c = (Ok tt, c')
  /\ map (fun z => (zr_name z, zr_data z)) zs = [("c", B "first"); ("./c", B "second")]
  /\ (exists req, h_ino (ur_in req) = 0 /\ archive_in (ce_E V) (ce_Z V) BLOCK_SIZE req (disk c) zs)
  /\ stat (disk c) (os_path "in") = Some (NFile 0)
  /\ at_place (disk c') ["home"; "out"; "c"] = Some (SFile 11 (B "second")).
Proof.
  exists V0, (params "k" Force), twice. exists (snd (unpack_run (params "k" Force) twice)).
  exists [mkZread "c" true (B "first") true; mkZread "./c" true (B "second") true].
  split; [exact toy_ok|]. split; [exact toy_zip_ok|]. split; [apply zhome_calm|]. split; [apply zhome_inodes|].
  split; [reflexivity|]. split; [vm_compute; reflexivity|]. split; [reflexivity|]. split.
  { exists (mkUnpackReq (inp ["in"] 0) None pw (parse_path "out") yes). split; [reflexivity|].
    exists [], (s_rng (disk twice)), []. eexists. split; [apply pair_ok; vm_compute; reflexivity|vm_compute; reflexivity]. }
  split; vm_compute; reflexivity.
Qed.

(** ** Failures while the files are written

    The files opened are the encrypted one, the key, the archive, and those unpacked. *)
Definition behaving (ps : list (list ev)) (c : cli) : cli :=
  let s := disk c in
  mkCli (mkSys (s_nodes s) (s_data s) (s_next s) (s_cwd s) (s_tmp s) [] ps (s_rng s) (s_log s), [])
        (c_stdin c) (c_tty c) (c_out c).
Definition two_files : cli := zhome [("d/", ""); ("d/c", "new c"); ("a", "new a")] [].
Definition unpacked_with (ps : list (list ev)) : outcome tool_error unit * list (option stored) :=
  let '(o, c') := unpack_run (params "k" Force) (behaving ps two_files) in
  (o, map (at_place (disk c')) [["home"; "out"; "d"]; ["home"; "out"; "d"; "c"]; ["home"; "out"; "a"]]).
Lemma in_pieces :
  unpacked_with [[]; []; [EvShort 7; EvInt]; [EvShort 2; EvInt; EvShort 1]]
  = (Ok tt, [Some SDir; Some (SFile 11 (B "new c")); Some (SFile 2 (B "new a"))]).
Proof. vm_compute. reflexivity. Qed.
Lemma not_all_written :
  unpacked_with [[]; []; []; [EvShort 2; EvFail]]
  = (Err (TUnpack UnWriteData), [Some SDir; Some (SFile 11 (B "ne")); Some (SFile 2 (B "precious"))]).
Proof. vm_compute. reflexivity. Qed.
