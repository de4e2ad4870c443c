(** The concrete runs of PropertiesCli. *)
From Coq Require Import List Arith NArith ZArith Ascii String Bool Lia.
From Verif Require Import Bytes Outcome IO Primitives Crypto Header Stream KeyModel EncDec.
From Verif Require Import Overwrite Hash FS Erase Archive Cli.
From Verif Require Import IOSpec ToyEnv Fixtures FileCases FSSpec FSFacts EraseCases ArchiveSpec ArchiveCases.
From Verif Require Import CliSpec CliKeys CliRuns CliCommands CliProofs CliPack CliSafety.
Import ListNotations.
Local Open Scope nat_scope.
Local Open Scope list_scope.

(** ** A command line *)

Definition args (l : list (string * list string)) (id : string) : list string :=
  match find (fun kv => String.eqb (fst kv) id) l with Some kv => snd kv | None => [] end.
Definition is_empty {A} (l : list A) : bool := match l with [] => true | _ => false end.
Definition args_okb (cmd : command) (l : list (string * list string)) : bool :=
  forallb (fun kv => match find_arg (mkMatches (args_of cmd) (args l)) (fst kv) with
                     | Some _ => true | None => false end) l
  && forallb (fun a =>
       (negb (a_required a) || negb (is_empty (args l (a_id a))))
       && (a_many a || (List.length (args l (a_id a)) <=? 1))
       && forallb (fun c => is_empty (args l (a_id a)) || is_empty (args l c)) (a_conflicts a))
     (args_of cmd).

Lemma is_empty_spec : forall {A} (l : list A), is_empty l = true <-> l = [].
Proof. intros A [|x l]; cbn; split; congruence. Qed.

Lemma args_ok : forall cmd l, args_okb cmd l = true -> matches_ok (mkMatches (args_of cmd) (args l)).
Proof.
  intros cmd l H. unfold args_okb in H. apply andb_prop in H. destruct H as [H1 H2].
  rewrite forallb_forall in H1, H2. split.
  - intros id NE. cbn [m_given] in NE. unfold args in NE.
    destruct (find (fun kv => String.eqb (fst kv) id) l) as [kv|] eqn:F; [|contradiction].
    apply find_some in F. destruct F as [IN E]. apply String.eqb_eq in E. subst id.
    specialize (H1 _ IN). destruct (find_arg _ (fst kv)); [discriminate|discriminate].
  - intros a IA. specialize (H2 a IA). apply andb_prop in H2. destruct H2 as [H2 H5].
    apply andb_prop in H2. destruct H2 as [H3 H4]. cbn [m_given]. repeat split.
    + intros R. rewrite R in H3. cbn in H3. intros E. rewrite E in H3. discriminate.
    + intros R. rewrite R in H4. apply Nat.leb_le. exact H4.
    + intros c IC. rewrite forallb_forall in H5. specialize (H5 c IC).
      apply orb_prop in H5. destruct H5 as [X|X]; apply is_empty_spec in X; auto.
Qed.

Definition no_alias : asys -> alias_result := fun _ => mkAlias (Err tt) (fun _ => []) [] noise [].
(** A release build. *)
Definition V (key : option bytes) (draw : N) (al : asys -> alias_result) : cenv :=
  mkCenv toy toy_zip (fun l => firstn 4 l) false key ["alpha"; "beta"]%string (fun _ => draw)
         pick (all_turns 5) al.
Definition V0 := V None 1%N no_alias.
Definition home : sys :=
  mkSys [(["tmp"], NDir); (["home"], NDir); (["home"; "a"], NFile 0); (["home"; "k"], NFile 1);
         (["home"; "out"], NFile 2); (["home"; "h"], NFile 3); (["home"; "d"], NDir);
         (["home"; "d"; "x"], NFile 4)]%string
        (fun i => nth i [B "secret"; B "key"; B "old"; B "oldh"; B "inner"] []) 10 ["home"%string]
        (abs ["tmp"%string]) [] [] noise [].
Definition start (stdin : bytes) (tty : list (option bytes)) : cli := mkCli (home, []) stdin tty [].


Definition outcome_of (V : cenv) (cmd : command) (l : list (string * list string)) (c : cli) :=
  fst (run_command V cmd (args l) c).
Definition after (V : cenv) (cmd : command) (l : list (string * list string)) (c : cli) : cli :=
  snd (run_command V cmd (args l) c).
Lemma ran : forall V cmd l c o, outcome_of V cmd l c = o ->
  run_command V cmd (args l) c = (o, after V cmd l c).
Proof. intros. apply pair_ok. assumption. Qed.
Lemma home_calm : forall i t, no_faults (disk (start i t)).
Proof. split; reflexivity. Qed.
Lemma home_tree : tree_ok home.
Proof. apply tree_okb_spec. vm_compute. reflexivity. Qed.
Lemma home_inodes : inodes_ok home.
Proof. apply inodes_okb_spec. vm_compute. reflexivity. Qed.
Lemma V0_alias : alias_calm V0.
Proof. intros a. split; discriminate. Qed.

(** ** Key sources *)

Definition plain : list (string * list string) := [("input", ["a"]); ("output", ["new"])]%string.
Definition typed : list (option bytes) := [Some (B "pw"); Some (B "pw")].

(** Encrypting does not ask for a password. *)
Lemma generated_unasked : exists V g c c' s, matches_ok (mkMatches (args_of CmdEncrypt) g)
  /\ not_given g "autogenerate" /\ not_given g "keyfile" /\ ce_key V = None /\ c_tty c = typed
  /\ run_command V CmdEncrypt g c = (Ok tt, c') /\ c_tty c' = typed /\ In (NPhrase s) (c_out c').
Proof.
  exists V0, (args plain), (start [] typed). eexists.
  eexists. split; [apply args_ok; reflexivity|]. do 4 (split; [reflexivity|]).
  split; [apply ran; vm_compute; reflexivity|]. split; [vm_compute; reflexivity|].
  vm_compute. eauto.
Qed.

Lemma never_asks : forall V cmd g k, In cmd [CmdEncrypt; CmdPack] -> key_source V cmd g k ->
  k <> User /\ (not_given g "keyfile" -> ce_key V = None -> exists n, k = Generate n).
Proof.
  intros V cmd g k IC H. destruct H as [v G|_ NE| | | |_ _ ID].
  - split; [discriminate|]. intros NG _. destruct G as [r E]. unfold not_given in NG. congruence.
  - split; [discriminate|]. intros _ E. contradiction.
  - split; [discriminate|eauto].
  - split; [discriminate|eauto].
  - split; [discriminate|eauto].
  - exfalso. destruct IC as [<-|[<-|[]]]; destruct ID as [X|[X|[]]]; discriminate.
Qed.

(** ** Erasing *)
Lemma erased_unasked : exists V g c c', matches_ok (mkMatches (args_of CmdEncrypt) g)
  /\ no_faults (disk c) /\ not_given g "erase" /\ given g "input" "a"
  /\ at_place (disk c) ["home"; "a"]%string = Some (SFile 0 (B "secret"))
  /\ run_command V CmdEncrypt g c = (Ok tt, c')
  /\ at_place (disk c') ["home"; "a"]%string = None.
Proof.
  exists V0, (args plain), (start [] []). eexists.
  split; [apply args_ok; reflexivity|]. split; [apply home_calm|]. split; [reflexivity|].
  split; [exists []; reflexivity|]. split; [reflexivity|].
  split; [apply ran; vm_compute; reflexivity|]. vm_compute. reflexivity.
Qed.

Lemma always_erased : forall V cmd g c c' input output, In cmd [CmdEncrypt; CmdDecrypt] ->
  given g "input" input -> given g "output" output ->
  run_command V cmd g c = (Ok tt, c') ->
  (exists i, stat (disk c) (os_path input) = Some (NFile i)) /\ stat (disk c') (os_path input) = None.
Proof.
  intros V cmd g c c' input output IC GI GO H.
  destruct (string_dec input output) as [->|NE].
  { destruct (same_name_run V cmd g c _ c' output IC GI GO H) as (_ & [X|(X & _)]); discriminate. }
  assert (T : exists ts, two_stages (disk c) ts (os_path input) (Ok tt) (disk c')).
  { destruct IC as [<-|[<-|[]]].
    - eexists. eapply encrypt_stages; eauto.
    - destruct (ce_debug V) eqn:DB.
      + destruct (decrypt_cmd_run V g c _ _ GI GO) as [_ R2]. destruct (R2 DB) as [n R]. rewrite R in H. discriminate.
      + eexists. eapply decrypt_stages; eauto. }
  destruct T as (ts & s1 & W & [(X & _)|(i & ST & _ & _ & _ & [(_ & E)|(e & X)])]); [congruence| |discriminate X].
  split; [eauto|exact E].
Qed.

(** ** The same file under two names *)
Definition twice : list (string * list string) :=
  [("input", ["a"]); ("output", ["./a"]); ("keyfile", ["k"]); ("force", [""])]%string.
Definition as_header : list (string * list string) :=
  [("input", ["a"]); ("output", ["new"]); ("keyfile", ["k"]); ("header", ["a"]); ("force", [""])]%string.

Lemma truncated_input : forall al, exists g c o c', matches_ok (mkMatches (args_of CmdEncrypt) g)
  /\ no_faults (disk c) /\ given g "input" "a" /\ given g "output" "./a"
  /\ stat (disk c) (os_path "a") = Some (NFile 0) /\ s_data (disk c) 0 = B "secret"
  /\ run_command (V None 1%N al) CmdEncrypt g c = (o, c') /\ In (FTrunc 0) (s_log (disk c')).
Proof.
  intros al. exists (args twice), (start [] []). eexists. eexists.
  split; [apply args_ok; reflexivity|]. split; [apply home_calm|].
  split; [exists []; reflexivity|]. split; [exists []; reflexivity|].
  split; [reflexivity|]. split; [reflexivity|].
  split; [apply ran; reflexivity|].
  vm_compute. match goal with |- context [al ?x] => destruct (al x) as [[[]|[]| |] ? ? ? ?] end; auto 10.
Qed.

Lemma truncated_input_header : forall al, exists g c o c', matches_ok (mkMatches (args_of CmdEncrypt) g)
  /\ no_faults (disk c) /\ given g "input" "a" /\ given g "header" "a"
  /\ stat (disk c) (os_path "a") = Some (NFile 0) /\ s_data (disk c) 0 = B "secret"
  /\ run_command (V None 1%N al) CmdEncrypt g c = (o, c') /\ In (FTrunc 0) (s_log (disk c')).
Proof.
  intros al. exists (args as_header), (start [] []). eexists. eexists.
  split; [apply args_ok; reflexivity|]. split; [apply home_calm|].
  split; [exists []; reflexivity|]. split; [exists []; reflexivity|].
  split; [reflexivity|]. split; [reflexivity|].
  split; [apply ran; reflexivity|].
  vm_compute. match goal with |- context [al ?x] => destruct (al x) as [[[]|[]| |] ? ? ? ?] end; auto 10.
Qed.

(** ** Consent *)

(** The output may be overwritten, the header file may not. *)
Definition both_old : list (string * list string) :=
  [("input", ["a"]); ("output", ["out"]); ("keyfile", ["k"]); ("header", ["h"])]%string.
Definition yes_no : bytes := [x79; x0a; x6e; x0a].

Lemma header_declined : exists V g c c', matches_ok (mkMatches (args_of CmdEncrypt) g)
  /\ no_faults (disk c) /\ given g "output" "out"
  /\ at_place (disk c) ["home"; "out"]%string = Some (SFile 2 (B "old"))
  /\ run_command V CmdEncrypt g c = (Err CExit, c')
  /\ at_place (disk c') ["home"; "out"]%string = Some (SFile 2 []).
Proof.
  exists V0, (args both_old), (start yes_no []). eexists.
  split; [apply args_ok; reflexivity|]. split; [apply home_calm|].
  split; [exists []; reflexivity|]. split; [reflexivity|].
  split; [apply ran; vm_compute; reflexivity|]. vm_compute. reflexivity.
Qed.

(** ** A wrong key *)
Definition to_new : list (string * list string) :=
  [("input", ["a"]); ("output", ["new"]); ("keyfile", ["k"])]%string.
Definition from_new (k o : string) : list (string * list string) :=
  [("input", ["new"]); ("output", [o]); ("keyfile", [k]); ("force", [""])]%string.
Definition encrypted_home : cli := after V0 CmdEncrypt to_new (start [] []).

Lemma old_output_lost : exists V g c c' e, matches_ok (mkMatches (args_of CmdDecrypt) g)
  /\ no_faults (disk c) /\ ce_debug V = false
  /\ at_place (disk c) ["home"; "out"]%string = Some (SFile 2 (B "old"))
  /\ run_command V CmdDecrypt g c = (Err (CDecrypt e), c')
  /\ at_place (disk c') ["home"; "out"]%string = Some (SFile 2 []).
Proof.
  exists V0, (args (from_new "h" "out")), encrypted_home. eexists. eexists.
  split; [apply args_ok; reflexivity|]. split; [split; reflexivity|]. split; [reflexivity|].
  split; [vm_compute; reflexivity|].
  split; [apply ran; vm_compute; reflexivity|]. vm_compute. reflexivity.
Qed.
(** ... and with the right one *)
Lemma back_again : exists c',
  run_command V0 CmdDecrypt (args (from_new "k" "out")) encrypted_home = (Ok tt, c')
  /\ at_place (disk encrypted_home) ["home"; "a"]%string = None
  /\ at_place (disk c') ["home"; "out"]%string = Some (SFile 2 (B "secret"))
  /\ at_place (disk c') ["home"; "new"]%string = None.
Proof.
  eexists. split; [apply ran; vm_compute; reflexivity|].
  split; [vm_compute; reflexivity|]. split; vm_compute; reflexivity.
Qed.

(** ** Packing a directory into itself *)
Definition into_itself : list (string * list string) :=
  [("input", ["d"]); ("output", ["d/new"]); ("keyfile", ["k"]); ("force", [""]); ("erase", [""])]%string.

Lemma archive_lost : exists V g c c', matches_ok (mkMatches (args_of CmdPack) g)
  /\ no_faults (disk c) /\ tree_ok (disk c) /\ given g "input" "d" /\ given g "output" "d/new"
  /\ at_place (disk c) ["home"; "d"; "x"]%string = Some (SFile 4 (B "inner"))
  /\ run_command V CmdPack g c = (Ok tt, c')
  /\ forall r, inside ["home"; "d"]%string r -> at_place (disk c') r = None.
Proof.
  exists V0, (args into_itself), (start [] []). eexists.
  split; [apply args_ok; reflexivity|]. split; [apply home_calm|]. split; [exact home_tree|].
  split; [exists []; reflexivity|]. split; [exists []; reflexivity|]. split; [reflexivity|].
  split; [apply ran; vm_compute; reflexivity|].
  intros r [l ->]. unfold at_place.
  assert (E : s_nodes (disk (after V0 CmdPack into_itself (start [] [])))
              = [(["tmp"], NDir); (["home"], NDir); (["home"; "a"], NFile 0); (["home"; "k"], NFile 1);
                 (["home"; "out"], NFile 2); (["home"; "h"], NFile 3)]%string) by (vm_compute; reflexivity).
  rewrite E. clear E. cbn [lookup app].
  destruct (find_node _ _) as [n|] eqn:F; [|reflexivity]. exfalso.
  apply find_in in F. cbn in F.
  repeat match type of F with _ \/ _ => destruct F as [F|F] end; try contradiction; discriminate F.
Qed.

(** ** Panics *)
Lemma phrase_panics : exists V g c c', matches_ok (mkMatches (args_of CmdEncrypt) g)
  /\ no_faults (disk c) /\ ce_debug V = false /\ run_command V CmdEncrypt g c = (Panic, c').
Proof.
  exists (V None 2%N no_alias), (args plain), (start [] []). eexists.
  split; [apply args_ok; reflexivity|]. split; [apply home_calm|]. split; [reflexivity|].
  apply ran. vm_compute. reflexivity.
Qed.

(** ** The key on standard input *)
Definition from_stdin (o : string) : list (string * list string) :=
  [("input", ["a"]); ("output", [o]); ("keyfile", ["-"])]%string.
(** The question takes the first line of the key. *)
Lemma key_cut : exists V g c c' c'' e, matches_ok (mkMatches (args_of CmdEncrypt) g)
  /\ no_faults (disk c) /\ given g "keyfile" "-" /\ c_stdin c = x0a :: B "key"
  /\ run_command V CmdEncrypt g c = (Ok tt, c')
  /\ run_command V CmdDecrypt (args [("input", ["out"]); ("output", ["new"]); ("keyfile", ["-"])]%string)
       (mkCli (c_a c') (c_stdin c) [] []) = (Err (CDecrypt e), c'').
Proof.
  exists V0, (args (from_stdin "out")), (start (x0a :: B "key") []). eexists. eexists. eexists.
  split; [apply args_ok; reflexivity|]. split; [apply home_calm|].
  split; [exists []; reflexivity|]. split; [reflexivity|].
  split; [apply ran; vm_compute; reflexivity|].
  apply ran. vm_compute. reflexivity.
Qed.

(** ** What the hypotheses of the theorems allow *)
Lemma asked_lines : lines (c_stdin (start yes_no [])) [[x79; x0a]; [x6e; x0a]].
Proof.
  change (c_stdin (start yes_no [])) with ([x79] ++ x0a :: [x6e] ++ x0a :: []).
  constructor 3; [intros [X|[]]; discriminate|]. change ([x6e; x0a]) with ([x6e] ++ [x0a]).
  constructor 3; [intros [X|[]]; discriminate|]. constructor.
Qed.
