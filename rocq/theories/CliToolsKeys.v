(** The key sources of the key commands. *)
From Coq Require Import List Arith NArith ZArith Ascii String Bool Lia.
From Verif Require Import Bytes Outcome IO Primitives Crypto Header Stream KeyModel EncDec KeyOps HeaderOps.
From Verif Require Import Overwrite Hash FS Erase Archive Cli CliTools.
From Verif Require Import CliSpec CliToolsSpec CliRuns CliToolsRuns.
Import ListNotations.
Local Open Scope nat_scope.
Local Open Scope list_scope.

Lemma contains_value : forall V m id c o c', contains_id V m id c = (o, c') ->
  c' = c /\ (o = Panic \/ o = Ok (match value_of m id with Some _ => true | None => false end)).
Proof.
  intros V m id c o c' H. unfold contains_id in H. unfold value_of.
  destruct (find_arg m id) as [a|].
  - injection H as <- <-. split; [reflexivity|right]. destruct (m_given m id); [|reflexivity].
    destruct (a_default a); reflexivity.
  - destruct (ce_debug V); injection H as <- <-; auto.
Qed.
Lemma get_value : forall V m id c o c', get_one V m id c = (o, c') ->
  c' = c /\ (o = Panic \/ o = Ok (value_of m id)).
Proof.
  intros V m id c o c' H. unfold get_one in H. unfold value_of.
  destruct (find_arg m id) as [a|].
  - injection H as <- <-. split; [reflexivity|right]. destruct (m_given m id); reflexivity.
  - destruct (ce_debug V); injection H as <- <-; auto.
Qed.

Lemma init_no_env : forall V m gen id c k c',
  key_init V m (mkKeyParams true false gen true) id c = (Ok k, c') ->
  match value_of m id with
  | Some p => k = Keyfile p
  | None => match gen, value_of m "autogenerate" with
            | true, Some s => exists i, k = Generate i
            | _, _ => k = User
            end
  end.
Proof.
  intros V m gen id c k c' H. unfold key_init, bind in H. cbn [kp_keyfile kp_env kp_autogenerate kp_user] in H.
  destruct (contains_id V m id c) as [o1 c1] eqn:E1.
  apply contains_value in E1. destruct E1 as (-> & [->| ->]); [discriminate H|].
  destruct (value_of m id) as [p|] eqn:VP; cbn [andb] in H.
  - destruct (get_one V m id c) as [o2 c2] eqn:E2. apply get_value in E2.
    destruct E2 as (-> & [->| ->]); [discriminate H|]. rewrite VP in H. cbn in H.
    injection H as <- <-. reflexivity.
  - rewrite andb_false_r in H.
    destruct (contains_id V m "autogenerate" c) as [o2 c2] eqn:E2.
    apply contains_value in E2. destruct E2 as (-> & [->| ->]); [discriminate H|].
    destruct (value_of m "autogenerate") as [s|] eqn:VA; destruct gen; cbn [andb] in H;
      try (injection H as <- <-; reflexivity).
    destruct (get_one V m "autogenerate" c) as [o3 c3] eqn:E3. apply get_value in E3.
    destruct E3 as (-> & [->| ->]); [discriminate H|]. rewrite VA in H. cbn in H.
    destruct (parse_i32 s) as [n|].
    + injection H as <- <-. eauto.
    + unfold say, bind, ret in H. injection H as <- <-. eauto.
Qed.

(** Where the keys of [key change] and [key add] come from. *)
Lemma manipulation_sources : forall V m c old new ha c',
  key_manipulation_params V m c = (Ok (old, new, ha), c') ->
  match value_of m "keyfile-old" with Some p => old = Keyfile p | None => old = User end
  /\ match value_of m "keyfile-new" with
     | Some p => new = Keyfile p
     | None => match value_of m "autogenerate" with
               | Some _ => exists i, new = Generate i
               | None => new = User
               end
     end.
Proof.
  intros V m c old new ha c' H. unfold key_manipulation_params, bind in H.
  destruct (key_init V m _ "keyfile-old" c) as [[k1| | |] c1] eqn:E1; try discriminate H.
  destruct (key_init V m _ "keyfile-new" c1) as [[k2| | |] c2] eqn:E2; try discriminate H.
  destruct (hashing_algorithm_of V m c2) as [[h| | |] c3] eqn:E3; try discriminate H.
  unfold ret in H. injection H as <- <- <- <-.
  apply init_no_env in E1, E2. split; assumption.
Qed.

Lemma init_with_key : forall key V m gen id c,
  key_init (with_key key V) m (mkKeyParams true false gen true) id c
  = key_init V m (mkKeyParams true false gen true) id c.
Proof.
  intros key V m gen id c. unfold key_init, bind, contains_id, get_one. cbn [with_key ce_debug ce_key kp_keyfile kp_env kp_autogenerate kp_user].
  rewrite !andb_false_r. reflexivity.
Qed.
Lemma secret_with_key : forall key V k st c, k <> Env ->
  get_secret (with_key key V) k st c = get_secret V k st c.
Proof. intros key V [p| |n|] st c N; try reflexivity. contradiction N; reflexivity. Qed.
Lemma sources_not_env : forall V m c old new ha c',
  key_manipulation_params V m c = (Ok (old, new, ha), c') -> old <> Env /\ new <> Env.
Proof.
  intros V m c old new ha c' H. apply manipulation_sources in H. destruct H as (A & B). split.
  - destruct (value_of m "keyfile-old"); subst; discriminate.
  - destruct (value_of m "keyfile-new"); [subst; discriminate|].
    destruct (value_of m "autogenerate"); [destruct B as (i & ->); discriminate|subst; discriminate].
Qed.
Lemma params_with_key : forall key V m c,
  key_manipulation_params (with_key key V) m c = key_manipulation_params V m c.
Proof.
  intros key V m c. unfold key_manipulation_params, bind. rewrite init_with_key.
  destruct (key_init V m _ "keyfile-old" c) as [[k1| | |] c1]; try reflexivity.
  rewrite init_with_key.
  destruct (key_init V m _ "keyfile-new" c1) as [[k2| | |] c2]; try reflexivity.
Qed.

Lemma add_with_key : forall key V input old new ha c, old <> Env -> new <> Env ->
  add (with_key key V) input (old, new, ha) c = add V input (old, new, ha) c.
Proof.
  intros key V input old new ha c A B. unfold add, up, map_err, bind.
  destruct (open_v5 input c) as [[h| | |] c1]; try reflexivity.
  destruct (info_if_user old c1) as [[u| | |] c2]; try reflexivity.
  rewrite (secret_with_key key V old Direct c2 A).
  destruct (get_secret V old Direct c2) as [[l| | |] c3]; try reflexivity.
  destruct (info_if_user new c3) as [[u'| | |] c4]; try reflexivity.
  rewrite (secret_with_key key V new Validate c4 B). reflexivity.
Qed.
Lemma change_with_key : forall key V input old new ha c, old <> Env -> new <> Env ->
  change (with_key key V) input (old, new, ha) c = change V input (old, new, ha) c.
Proof.
  intros key V input old new ha c A B. unfold change, up, map_err, bind.
  destruct (open_v5 input c) as [[h| | |] c1]; try reflexivity.
  destruct (info_if_user old c1) as [[u| | |] c2]; try reflexivity.
  rewrite (secret_with_key key V old Direct c2 A).
  destruct (get_secret V old Direct c2) as [[l| | |] c3]; try reflexivity.
  destruct (info_if_user new c3) as [[u'| | |] c4]; try reflexivity.
  rewrite (secret_with_key key V new Validate c4 B). reflexivity.
Qed.

(** VOLARIS_KEY makes no difference to them. *)
Lemma cmds_with_key : forall key V m c,
  key_add_cmd (with_key key V) m c = key_add_cmd V m c
  /\ key_change_cmd (with_key key V) m c = key_change_cmd V m c.
Proof.
  intros key V m c. unfold key_add_cmd, key_change_cmd, up, map_err, bind. rewrite params_with_key.
  destruct (key_manipulation_params V m c) as [[[[old new] ha]| | |] c1] eqn:E; try (split; reflexivity).
  apply sources_not_env in E. destruct E as (A & B).
  change (get_param (with_key key V) "input" m c1) with (get_param V "input" m c1).
  destruct (get_param V "input" m c1) as [[i| | |] c2]; try (split; reflexivity).
  split; [apply add_with_key|apply change_with_key]; assumption.
Qed.

(** Deleting and checking a key: a key file that is given, then VOLARIS_KEY, before
    anything else. *)
Lemma init_default : forall V m id c k c',
  key_init V m key_params_default id c = (Ok k, c') ->
  match value_of m id, ce_key V with
  | Some p, _ => k = Keyfile p
  | None, Some _ => k = Env
  | None, None => match value_of m "autogenerate" with
                  | Some s => exists i, k = Generate i
                  | None => k = User
                  end
  end.
Proof.
  intros V m id c k c' H. unfold key_init, key_params_default, bind in H. cbn [kp_keyfile kp_env kp_autogenerate kp_user] in H.
  destruct (contains_id V m id c) as [o1 c1] eqn:E1.
  apply contains_value in E1. destruct E1 as (-> & [->| ->]); [discriminate H|].
  destruct (value_of m id) as [p|] eqn:VP; cbn [andb] in H.
  - destruct (get_one V m id c) as [o2 c2] eqn:E2. apply get_value in E2.
    destruct E2 as (-> & [->| ->]); [discriminate H|]. rewrite VP in H. cbn in H.
    injection H as <- <-. reflexivity.
  - destruct (ce_key V) as [l|]; cbn [andb] in H; [injection H as <- <-; reflexivity|].
    destruct (contains_id V m "autogenerate" c) as [o2 c2] eqn:E2.
    apply contains_value in E2. destruct E2 as (-> & [->| ->]); [discriminate H|].
    destruct (value_of m "autogenerate") as [s|] eqn:VA; cbn [andb] in H;
      try (injection H as <- <-; reflexivity).
    destruct (get_one V m "autogenerate" c) as [o3 c3] eqn:E3. apply get_value in E3.
    destruct E3 as (-> & [->| ->]); [discriminate H|]. rewrite VA in H. cbn in H.
    destruct (parse_i32 s) as [n|].
    + injection H as <- <-. eauto.
    + unfold say, bind, ret in H. injection H as <- <-. eauto.
Qed.
