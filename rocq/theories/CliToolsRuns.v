(** Runs of the functions behind the subcommands [header], [key] and [unpack]. *)
From Coq Require Import List Arith NArith ZArith Ascii String Bool Lia.
From Verif Require Import Bytes Outcome IO Primitives Crypto Header Stream KeyModel EncDec KeyOps HeaderOps.
From Verif Require Import Overwrite Hash FS Erase Archive Cli CliTools.
From Verif Require Import BytesFacts HeaderSpec HeaderFacts IOSpec IOFacts FileFacts FileProofs.
From Verif Require Import KeySpec KeyFacts KeyProofs DecSim KeyResults HeaderOpsProofs WorldFrames.
From Verif Require Import FSSpec FSFacts ArchiveSpec EraseProofs UnpackProofs PackProofs.
From Verif Require Import CliSpec CliKeys CliRuns CliToolsSpec.
Import ListNotations.
Local Open Scope nat_scope.
Local Open Scope list_scope.

(** ** [unchanged] *)

Lemma un_refl : forall s, unchanged s s.
Proof. intros s. unfold unchanged. auto 10. Qed.
Lemma un_trans : forall a b c, unchanged a b -> unchanged b c -> unchanged a c.
Proof.
  intros a b c (A1 & A2 & A3 & A4 & A5 & A6) (B1 & B2 & B3 & B4 & B5 & B6). unfold unchanged.
  split; [congruence|]. split; [intros j; rewrite B2; apply A2|]. repeat split; congruence.
Qed.
Lemma un_disk : forall s s', same_disk s s' -> unchanged s s'.
Proof.
  intros s s' (A1 & A2 & A3 & A4 & A5 & A6). unfold unchanged. rewrite A2. auto 10.
Qed.
Lemma un_stat : forall s s' p, unchanged s s' -> stat s' p = stat s p.
Proof.
  intros s s' p (A1 & _ & _ & A4 & _). unfold stat. rewrite (resolve_nodes true s s' p A1 A4), A1. reflexivity.
Qed.
Lemma un_data : forall s s' i, unchanged s s' -> s_data s' i = s_data s i.
Proof. intros s s' i (_ & A & _). apply A. Qed.

Lemma yields_un : forall V c c1 k st l t, unchanged (disk c) (disk c1) ->
  c_stdin c1 = c_stdin c -> c_tty c1 = c_tty c -> yields V c1 k st l t -> yields V c k st l t.
Proof.
  intros V c c1 k st l t D SI TT Y. destruct Y; rewrite ?SI, ?TT in *.
  - constructor; assumption.
  - rewrite (un_stat _ _ _ D) in *. rewrite (un_data _ _ _ D) in *. econstructor; eassumption.
  - constructor; assumption.
  - constructor; assumption.
  - econstructor; eassumption.
  - econstructor; eassumption.
Qed.
Lemma un_sym_disk : forall s s', unchanged s s' -> unchanged s' s.
Proof.
  intros s s' (A1 & A2 & A3 & A4 & A5 & A6). unfold unchanged. repeat split; auto.
Qed.

(** ** Opening *)

Lemma open_rw_any : forall p s o s', open_rw p s = (o, s') ->
  same_disk s s' /\ s_rng s' = s_rng s /\ (no_faults s -> s' = s)
  /\ ((exists i plan, o = Ok (mkHandle p i 0 plan) /\ stat s p = Some (NFile i)
         /\ (no_faults s -> plan = []))
      \/ (o = Err TOpen /\ (no_faults s -> forall i, stat s p <> Some (NFile i)))).
Proof.
  intros p s o s' H. unfold open_rw in H.
  destruct (call_or_inv _ _ _ _ _ H) as (s1 & D & RG & PL & C & [(-> & -> & NF)|HM]).
  { split; [exact D|]. split; [exact RG|]. split; [intros [F _]; contradiction|].
    right. split; [reflexivity|]. intros [F _]. contradiction. }
  rewrite (stat_disk s s1 p D) in HM.
  assert (NO : (forall i, stat s p <> Some (NFile i)) -> (Err TOpen, s1) = (o, s') ->
     same_disk s s' /\ s_rng s' = s_rng s /\ (no_faults s -> s' = s)
     /\ ((exists i plan, o = Ok (mkHandle p i 0 plan) /\ stat s p = Some (NFile i)
         /\ (no_faults s -> plan = []))
      \/ (o = Err TOpen /\ (no_faults s -> forall i, stat s p <> Some (NFile i))))).
  { intros N X. injection X as <- <-. split; [exact D|]. split; [exact RG|].
    split; [intros [F _]; apply C; exact F|]. right. auto. }
  destruct (stat s p) as [[|i|t]|] eqn:ST; try (apply NO; [discriminate|exact HM]).
  destruct (next_plan s1) as [plan s2] eqn:NP. injection HM as <- <-.
  destruct (next_plan_spec _ _ _ NP) as (D2 & R2 & _ & C2).
  split; [eapply same_disk_trans; eauto|]. split; [congruence|].
  split; [intros [F P]; rewrite (C F) in *; apply C2; exact P|].
  left. exists i, plan. split; [reflexivity|]. split; [reflexivity|].
  intros [F P]. rewrite (C F) in *. apply C2. exact P.
Qed.

(** ** Device code on open files *)

Definition one_world (h : handle) (c : cli) : world :=
  mkWorld (handle_dev (disk c) h) no_dev no_dev (s_rng (disk c)) (snd (c_a c)).
Definition after_one (w : world) (h : handle) (c : cli) : cli :=
  set_a (with_rng (w_rng w) (put_handle (w_in w) h (disk c)), w_tr w) c.

Lemma on_handle_run : forall {E A} (m : M world E A) h c o w,
  m (one_world h c) = (o, w) ->
  on_handle m h c
  = (match o with
     | Ok x => Ok (x, move_handle (w_in w) h) | Err e => Err e | Panic => Panic | Diverge => Diverge
     end, after_one w h c).
Proof.
  intros E A m h c o w H. unfold on_handle. rewrite on_a_run. unfold run_one.
  fold (disk c). fold (one_world h c). rewrite H. reflexivity.
Qed.

(** Code that does not write. *)
Lemma on_handle_reads : forall {E E' A} (f : E -> E') (m : M dev E A) h c o c', always still m ->
  on_handle (map_err f (on_in m)) h c = (o, c') ->
  exists o0 d, m (handle_dev (disk c) h) = (o0, d)
    /\ o = match o0 with
           | Ok x => Ok (x, move_handle d h) | Err e => Err (f e) | Panic => Panic | Diverge => Diverge end
    /\ (h_plan h = [] -> d_plan d = [])
    /\ unchanged (disk c) (disk c') /\ s_rng (disk c') = s_rng (disk c)
    /\ (no_faults (disk c) -> no_faults (disk c'))
    /\ snd (c_a c') = snd (c_a c) /\ asks_nothing c c' /\ c_out c' = c_out c.
Proof.
  intros E E' A f m h c o c' ST H.
  destruct (m (handle_dev (disk c) h)) as [o0 d] eqn:M0.
  destruct (ST _ _ _ M0) as (SD & SL & SM). cbn [handle_dev d_data d_log] in *.
  exists o0, d. split; [reflexivity|].
  set (w := mkWorld d no_dev no_dev (s_rng (disk c)) (snd (c_a c))).
  assert (R : map_err f (on_in m) (one_world h c) = (omap f o0, w)).
  { rewrite map_err_run. unfold on_in, zoom, one_world. cbn [w_in]. rewrite M0. reflexivity. }
  rewrite (on_handle_run _ _ _ _ _ R) in H. injection H as <- <-.
  split; [destruct o0; reflexivity|]. split; [exact SM|].
  unfold after_one. rewrite set_a_disk. cbn [fst snd w w_in w_rng w_tr].
  split.
  { unfold unchanged, put_handle, with_data, with_rng.
    cbn [s_nodes s_data s_next s_cwd s_tmp s_log]. rewrite SL, app_nil_r. split; [reflexivity|].
    split; [|auto]. intros j. unfold set_data. destruct (Nat.eqb_spec j (h_ino h)); [subst j; exact SD|reflexivity]. }
  split; [reflexivity|]. split; [intros [F P]; split; assumption|]. split; [reflexivity|].
  split; [split; reflexivity|reflexivity].
Qed.

(** ** Opening a file with a V5 header *)

Lemma seek0 : forall d o d', dev_rewind d = (o, d') ->
  o <> Panic /\ o <> Diverge /\ (o = Ok tt -> d_pos d' = 0) /\ (d_plan d = [] -> o = Ok tt).
Proof.
  intros d o d' H. pose proof (dev_seek_start_spec _ _ _ _ H) as (_ & _ & _ & X).
  split; [intros ->; exact X|]. split; [intros ->; exact X|].
  split; [intros ->; exact X|]. intros PL. destruct o as [[]|e| |]; try contradiction; [reflexivity|].
  destruct X. contradiction.
Qed.


Lemma open_v5_any : forall input c o c', open_v5 input c = (o, c') ->
  unchanged (disk c) (disk c') /\ s_rng (disk c') = s_rng (disk c)
  /\ (no_faults (disk c) -> no_faults (disk c'))
  /\ snd (c_a c') = snd (c_a c) /\ asks_nothing c c' /\ c_out c' = c_out c
  /\ ((exists h i plan hd aad d', o = Ok h /\ h_ino h = i /\ h_pos h = 0 /\ h_path h = os_path input
         /\ stat (disk c) (os_path input) = Some (NFile i)
         /\ deserialize (mkDev (s_data (disk c) i) 0 plan []) = (Ok (hd, aad), d')
         /\ version_of hd = V5
         /\ (no_faults (disk c) -> plan = [] /\ h_plan h = []))
      \/ (exists e, o = Err e /\ In e [TOpen; TOldVersion; TRewind]
           /\ (no_faults (disk c) -> forall i, stat (disk c) (os_path input) = Some (NFile i) ->
                 e = TOldVersion /\ exists hd aad d', deserialize (dev_at (s_data (disk c) i) 0) = (Ok (hd, aad), d')
                    /\ version_of hd <> V5))
      \/ exists e, o = Err (THeader e)
           /\ (no_faults (disk c) -> forall i, stat (disk c) (os_path input) = Some (NFile i) ->
                 exists d', deserialize (dev_at (s_data (disk c) i) 0) = (Err e, d'))).
Proof.
  intros input c o c' H. unfold open_v5 in H. unfold bind at 1 in H. rewrite on_fs_run in H.
  destruct (open_rw (os_path input) (disk c)) as [r s1] eqn:OR. cbn [fst snd] in H.
  destruct (open_rw_any _ _ _ _ OR) as (D & RG & CA & CASES). apply un_disk in D.
  assert (NF1 : no_faults (disk c) -> no_faults s1) by (intros N; rewrite (CA N); exact N).
  destruct CASES as [(i & plan & -> & ST & PL)|(-> & NO)].
  2:{ injection H as <- <-. rewrite set_disk_disk. do 5 (split; [first [assumption|reflexivity|split; reflexivity]|]).
      split; [reflexivity|]. right. left. exists TOpen. split; [reflexivity|]. split; [cbn; auto|].
      intros N j SJ. destruct (NO N j SJ). }
  set (h := mkHandle (os_path input) i 0 plan) in *. set (c1 := set_disk s1 c) in *.
  unfold bind at 1 in H.
  destruct (on_handle _ h c1) as [r2 c2] eqn:D2.
  destruct (on_handle_reads _ _ _ _ _ _ still_deserialize D2)
    as (o0 & d & DS & -> & P2 & U2 & R2 & N2 & T2 & (A2 & B2) & O2).
  unfold c1 in *. rewrite set_disk_disk in *. change (handle_dev s1 h) with (mkDev (s_data s1 i) 0 plan []) in DS.
  rewrite (un_data _ _ _ D) in DS.
  assert (U : unchanged (disk c) (disk c2)) by (eapply un_trans; eauto).
  assert (RR : s_rng (disk c2) = s_rng (disk c)) by congruence.
  assert (NN : no_faults (disk c) -> no_faults (disk c2)) by auto.
  pose proof (deserialize_spec _ _ _ DS) as (_ & _ & _ & SP).
  destruct o0 as [[hd aad]|e| |]; try contradiction.
  2:{ injection H as <- <-. do 6 (split; [first [assumption|split; assumption]|]). right. right.
      exists e. split; [reflexivity|]. intros N j SJ. rewrite ST in SJ. injection SJ as <-.
      rewrite (PL N) in DS. eauto. }
  cbn [fst snd] in H.
  destruct (below_v5 (ht_version (h_type hd))) eqn:BV.
  { injection H as <- <-. do 6 (split; [first [assumption|split; assumption]|]). right. left.
    exists TOldVersion. split; [reflexivity|]. split; [cbn; auto|]. intros N j SJ. rewrite ST in SJ. injection SJ as <-.
    split; [reflexivity|]. rewrite (PL N) in DS. exists hd, aad, d. split; [exact DS|].
    unfold version_of. destruct (ht_version (h_type hd)); discriminate. }
  unfold bind in H.
  destruct (on_handle _ (move_handle d h) c2) as [r3 c3] eqn:D3.
  destruct (on_handle_reads _ _ _ _ _ _ still_rewind D3)
    as (o3 & d3 & DS3 & -> & P3 & U3 & R3 & N3 & T3 & (A3 & B3) & O3).
  destruct (seek0 _ _ _ DS3) as (NP & ND & POS & ALW).
  assert (U' : unchanged (disk c) (disk c3)) by (eapply un_trans; eauto).
  assert (NN' : no_faults (disk c) -> no_faults (disk c3)) by auto.
  assert (REST : s_rng (disk c3) = s_rng (disk c) /\ snd (c_a c3) = snd (c_a c) /\ asks_nothing c c3
                 /\ c_out c3 = c_out c).
  { split; [congruence|]. split; [rewrite T3, T2; reflexivity|].
    split; [split; [rewrite A3, A2|rewrite B3, B2]; reflexivity|rewrite O3, O2; reflexivity]. }
  destruct REST as (RR' & TT' & AN' & OO').
  destruct o3 as [[]|e| |]; try congruence; injection H as <- <-;
    do 6 (split; [assumption|]).
  - left. exists (move_handle d3 (move_handle d h)), i, plan, hd, aad, d. cbn [move_handle h_ino h_pos h_path h_plan h].
    split; [reflexivity|]. split; [reflexivity|]. split; [apply POS; reflexivity|]. split; [reflexivity|].
    split; [exact ST|]. split; [exact DS|]. split; [unfold version_of; destruct (ht_version (h_type hd)); auto; discriminate|].
    intros N. split; [apply PL; exact N|]. apply P3. cbn [move_handle h_plan]. apply P2. apply PL. exact N.
  - right. left. exists TRewind. split; [reflexivity|]. split; [cbn; auto|]. intros N j SJ. exfalso.
    specialize (ALW (P2 (PL N))). discriminate.
Qed.

(** ** Keys *)

Lemma read_keyfile_rng : forall p s o s', read_keyfile p s = (o, s') -> s_rng s' = s_rng s.
Proof.
  intros p s o s' H. unfold read_keyfile in H.
  destruct (call_or_inv _ _ _ _ _ H) as (s1 & D & RG & PL & C & [(-> & -> & NF)|HM]); [exact RG|].
  revert HM. destruct (stat s1 p) as [[|i|t]|]; intros HM;
    try (injection HM as _ <-; exact RG).
  destruct (next_plan s1) as [plan s2] eqn:NP. destruct (next_plan_spec _ _ _ NP) as (_ & R2 & _).
  repeat match type of HM with
         | context [let '(_, _) := ?x in _] => destruct x
         | context [match ?x with _ => _ end] => destruct x
         end; injection HM as _ <-; cbn; congruence.
Qed.

Definition tty_only (c c' : cli) : Prop := c_a c' = c_a c /\ c_stdin c' = c_stdin c.
Lemma tty_only_refl : forall c, tty_only c c. Proof. split; reflexivity. Qed.
Lemma tty_only_trans : forall a b c, tty_only a b -> tty_only b c -> tty_only a c.
Proof. unfold tty_only. intuition congruence. Qed.
Lemma prompt_tty_only : always tty_only prompt_password.
Proof.
  intros c o c' H. unfold prompt_password in H. destruct (c_tty c) as [|[x|] r]; injection H as _ <-; split; reflexivity.
Qed.
Lemma loop_tty_only : forall fuel st, always tty_only (password_loop fuel st).
Proof.
  induction fuel as [|fuel IH]; intros st; cbn [password_loop].
  - intros c o c' H. injection H as _ <-. apply tty_only_refl.
  - apply always_bind; [exact tty_only_trans|apply prompt_tty_only|]. intros l.
    destruct st; [|apply (always_ret _ tty_only_refl)].
    + apply always_bind; [exact tty_only_trans|apply prompt_tty_only|]. intros l'.
      destruct (_ && _)%bool; [apply (always_ret _ tty_only_refl)|].
      apply always_bind; [exact tty_only_trans| |intros _; apply IH].
      intros c o c' H. injection H as _ <-. split; reflexivity.
Qed.

Lemma get_secret_rest : forall V k st c o c', get_secret V k st c = (o, c') ->
  s_rng (disk c') = s_rng (disk c) /\ forall t, c_stdin c' = c_stdin (after_key k t c).
Proof.
  intros V k st c o c' H. unfold get_secret in H. destruct k as [p| |n|].
  - unfold after_key. cbn [c_stdin]. destruct (String.eqb p "-").
    + unfold bind, read_stdin in H. destruct (is_nil (c_stdin c)) eqn:N; unfold ret, err in H;
        [|rewrite N in H]; injection H as _ <-; auto.
    + unfold bind in H. destruct (read_keyfile (os_path p) (disk c)) as [ok s1] eqn:RK.
      rewrite (on_fs_eq _ _ _ _ RK) in H. apply read_keyfile_rng in RK.
      destruct ok as [l|e| |]; try (injection H as _ <-; auto).
      destruct (is_nil l) eqn:N; unfold ret, err in H; [|rewrite N in H]; injection H as _ <-; auto.
  - unfold bind, lift_opt in H. destruct (ce_key V) as [k|]; unfold ret, err in H;
      [destruct (is_nil k)|]; injection H as _ <-; auto.
  - unfold bind, lift, say, ret in H.
    destruct (generate_passphrase (ce_words V) (ce_draw V) n); try (injection H as _ <-; auto).
    unfold err in H. destruct (is_nil _); injection H as _ <-; auto.
  - unfold bind in H. destruct (get_password st c) as [r c1] eqn:G.
    assert (X : c_a c1 = c_a c /\ c_stdin c1 = c_stdin c) by exact (loop_tty_only _ _ _ _ _ G).
    destruct X as [X1 X2]. unfold disk.
    destruct r as [l|e| |]; unfold ret, err in H; [destruct (is_nil l)| | |]; injection H as _ <-;
      rewrite X1; cbn [after_key c_stdin]; auto.
Qed.

(** The keys of a command, and the operation made with them. *)
Definition one_key (V : cenv) (k : key) (st : password_state) : M cli tool_error bytes :=
  up (info_if_user k) ;; up (get_secret V k st).
Definition take_keys (V : cenv) (t : key_tool) : M cli tool_error key_op :=
  match t with
  | ToolAdd ko kn ha =>
      old <- one_key V ko Direct ;; new <- one_key V kn Validate ;; ret (OpAdd old new ha)
  | ToolChange ko kn ha =>
      old <- one_key V ko Direct ;; new <- one_key V kn Validate ;; ret (OpChange old new ha)
  | ToolDelete k => old <- one_key V k Direct ;; ret (OpDelete old)
  | ToolVerify k => old <- one_key V k Direct ;; ret (OpVerify old)
  end.

Lemma run_tool_eq : forall V input t c,
  run_tool V input t c
  = (h <- open_v5 input ;;
     op <- take_keys V t ;;
     on_handle (map_err TKey (run_op (ce_E V) op)) h ;;
     ret tt) c.
Proof.
  intros V input t c. destruct t; cbn [run_tool take_keys]; unfold add, change, delete, verify, one_key;
    (apply bind_congr; intros h c1; unfold bind;
     destruct (up (info_if_user _) c1) as [[| | |] c2]; try reflexivity;
     destruct (up (get_secret V _ Direct) c2) as [[| | |] c3]; try reflexivity;
     try (destruct (up (info_if_user _) c3) as [[| | |] c4]; try reflexivity;
          destruct (up (get_secret V _ Validate) c4) as [[| | |] c5]; reflexivity)).
Qed.

(** What taking a key leaves as it was. *)
Record key_frame (c c' : cli) : Prop := {
  kf_disk : same_disk (disk c) (disk c');
  kf_tr : snd (c_a c') = snd (c_a c);
  kf_rng : s_rng (disk c') = s_rng (disk c);
  kf_calm : no_faults (disk c) -> no_faults (disk c')
}.
Lemma key_frame_refl : forall c, key_frame c c.
Proof. intros c. constructor; auto. apply same_disk_refl. Qed.
Lemma key_frame_trans : forall a b c, key_frame a b -> key_frame b c -> key_frame a c.
Proof.
  intros a b c [A1 A2 A3 A4] [B1 B2 B3 B4].
  constructor; [eapply same_disk_trans; eauto|congruence|congruence|auto].
Qed.


Lemma one_key_any : forall V k st c o c', one_key V k st c = (o, c') ->
  key_frame c c' /\ o <> Diverge
  /\ (o = Panic -> generator_panics V k)
  /\ (forall l, o = Ok l -> yields V c k st l (c_tty c')
        /\ c_stdin c' = c_stdin (after_key k (c_tty c') c))
  /\ (forall e, o = Err e -> exists e', e = TCli e' /\ secret_error e'
        /\ (no_faults (disk c) -> forall l t, ~ yields V c k st l t)).
Proof.
  intros V k st c o c' H. unfold one_key, up in H. unfold bind in H.
  assert (I : exists c1, map_err TCli (info_if_user k) c = (Ok tt, c1) /\ c_a c1 = c_a c
                /\ c_stdin c1 = c_stdin c /\ c_tty c1 = c_tty c).
  { destruct k; eexists; (split; [reflexivity|]); auto. }
  destruct I as (c1 & I & CA & CS & CT). rewrite I, map_err_run in H.
  destruct (get_secret V k st c1) as [r c2] eqn:G. cbn [fst snd] in H. injection H as <- <-.
  destruct (get_secret_any _ _ _ _ _ _ G) as (D & TR & C & ND & NP & OK & ER).
  destruct (get_secret_rest _ _ _ _ _ _ G) as (RG & SI).
  assert (DE : disk c1 = disk c) by (unfold disk; rewrite CA; reflexivity).
  rewrite DE in *. rewrite CA in TR.
  assert (YB : forall l t, yields V c k st l t -> yields V c1 k st l t).
  { intros l t. apply yields_disk; [rewrite DE; apply same_disk_refl|auto|auto]. }
  assert (YF : forall l t, yields V c1 k st l t -> yields V c k st l t).
  { intros l t. apply yields_disk; [rewrite DE; apply same_disk_refl|auto|auto]. }
  split; [constructor; assumption|].
  split; [destruct r; discriminate||congruence|].
  split; [destruct r; try discriminate; intros _; apply NP; reflexivity|].
  split.
  - intros l E. destruct r; try discriminate. injection E as <-. split; [apply YF, OK; reflexivity|].
    rewrite (SI (c_tty c2)). unfold after_key. cbn [c_stdin]. rewrite CS. reflexivity.
  - intros e E. destruct r as [l0|e0| |]; try discriminate. injection E as <-.
    exists e0. split; [reflexivity|]. destruct (ER e0 eq_refl) as [S1 S2]. split; [exact S1|].
    intros N l t Y. apply (S2 N l t). apply YB. exact Y.
Qed.


Lemma two_keys_run : forall V ko kn (f : bytes -> bytes -> key_op) c o c',
  (old <- one_key V ko Direct ;; new <- one_key V kn Validate ;; ret (f old new)) c = (o, c') ->
  key_frame c c' /\ o <> Diverge
  /\ (o = Panic -> exists k, In k [ko; kn] /\ generator_panics V k)
  /\ (forall op, o = Ok op -> exists old new, op = f old new /\ two_keys V c ko kn old new)
  /\ (forall e, o = Err e -> (exists e', e = TCli e' /\ secret_error e')
        /\ (no_faults (disk c) -> forall old new, ~ two_keys V c ko kn old new)).
Proof.
  intros V ko kn f c o c' H. unfold bind in H.
  destruct (one_key V ko Direct c) as [r1 c1] eqn:K1.
  destruct (one_key_any _ _ _ _ _ _ K1) as (F1 & ND1 & NP1 & OK1 & ER1).
  destruct r1 as [l1|e| |]; [|injection H as <- <-|injection H as <- <-|congruence].
  - destruct (OK1 l1 eq_refl) as [Y1 S1].
    destruct (one_key V kn Validate c1) as [r2 c2] eqn:K2.
    destruct (one_key_any _ _ _ _ _ _ K2) as (F2 & ND2 & NP2 & OK2 & ER2).
    assert (YA : forall l t, yields V c1 kn Validate l t <-> yields V (after_key ko (c_tty c1) c) kn Validate l t).
    { intros l t. destruct F1 as [D1 _ _ _]. 
      assert (X : unchanged (disk (after_key ko (c_tty c1) c)) (disk c1)) by (apply un_disk; exact D1).
      split; intros Y.
      - eapply yields_un; [exact X|exact S1|reflexivity|exact Y].
      - eapply yields_un; [apply un_sym_disk; exact X|symmetry; exact S1|reflexivity|exact Y]. }
    assert (F : key_frame c c2) by (eapply key_frame_trans; eauto).
    destruct r2 as [l2|e| |]; [| | |congruence]; injection H as <- <-; (split; [exact F|]); (split; [discriminate|]).
    + split; [discriminate|]. split; [|discriminate]. intros op E. injection E as <-.
      exists l1, l2. split; [reflexivity|]. exists (c_tty c1), (c_tty c2). split; [exact Y1|].
      apply YA. apply OK2. reflexivity.
    + split; [discriminate|]. split; [discriminate|]. intros e' E. injection E as <-.
      destruct (ER2 e eq_refl) as (e' & -> & SE & NO). split; [eauto|].
      intros N old new (t1 & t2 & Ya & Yb).
      destruct (yields_unique _ _ _ _ _ _ _ _ Ya Y1) as [-> ->].
      apply (NO (kf_calm _ _ F1 N) new t2). apply YA. exact Yb.
    + split; [|split; discriminate]. intros _. exists kn. split; [cbn; auto|]. apply NP2. reflexivity.
  - split; [exact F1|]. split; [discriminate|]. split; [discriminate|]. split; [discriminate|].
    intros e' E. injection E as <-. destruct (ER1 e eq_refl) as (e' & -> & SE & NO).
    split; [eauto|]. intros N old new (t1 & t2 & Ya & Yb). exact (NO N _ _ Ya).
  - split; [exact F1|]. split; [discriminate|]. split; [|split; discriminate].
    intros _. exists ko. split; [cbn; auto|]. apply NP1. reflexivity.
Qed.

Lemma single_key_run : forall V k (f : bytes -> key_op) c o c',
  (old <- one_key V k Direct ;; ret (f old)) c = (o, c') ->
  key_frame c c' /\ o <> Diverge
  /\ (o = Panic -> exists k', In k' [k] /\ generator_panics V k')
  /\ (forall op, o = Ok op -> exists old, op = f old /\ exists t, yields V c k Direct old t)
  /\ (forall e, o = Err e -> (exists e', e = TCli e' /\ secret_error e')
        /\ (no_faults (disk c) -> forall old t, ~ yields V c k Direct old t)).
Proof.
  intros V k f c o c' H. unfold bind in H.
  destruct (one_key V k Direct c) as [r1 c1] eqn:K1.
  destruct (one_key_any _ _ _ _ _ _ K1) as (F1 & ND1 & NP1 & OK1 & ER1).
  destruct r1 as [l1|e| |]; [| | |congruence]; injection H as <- <-; (split; [exact F1|]); (split; [discriminate|]).
  - split; [discriminate|]. split; [|discriminate]. intros op E. injection E as <-.
    exists l1. split; [reflexivity|]. eexists. apply OK1. reflexivity.
  - split; [discriminate|]. split; [discriminate|].
    intros e' E. injection E as <-. destruct (ER1 e eq_refl) as (e' & -> & SE & NO). split; [eauto|exact NO].
  - split; [|split; discriminate]. intros _. exists k. split; [cbn; auto|]. apply NP1. reflexivity.
Qed.

Lemma take_keys_any : forall V t c o c', take_keys V t c = (o, c') ->
  key_frame c c' /\ o <> Diverge
  /\ (o = Panic -> exists k, In k (tool_keys t) /\ generator_panics V k)
  /\ (forall op, o = Ok op -> supplies V c t op)
  /\ (forall e, o = Err e -> (exists e', e = TCli e' /\ secret_error e')
        /\ (no_faults (disk c) -> forall op, ~ supplies V c t op)).
Proof.
  intros V t c o c' H. destruct t as [ko kn ha|ko kn ha|k|k]; cbn [take_keys tool_keys] in *.
  1,2: first [apply (two_keys_run V ko kn (fun a b => OpAdd a b ha)) in H
             |apply (two_keys_run V ko kn (fun a b => OpChange a b ha)) in H];
    destruct H as (A & B & C & D & F); do 3 (split; [assumption|]); split;
    [intros op E; destruct (D op E) as (old & new & -> & T); split; [reflexivity|exact T]
    |intros e E; destruct (F e E) as [G1 G2]; split; [exact G1|]; intros N op S;
     destruct op; cbn in S; try contradiction; destruct S as [_ S]; exact (G2 N _ _ S)].
  1,2: first [apply (single_key_run V k OpDelete) in H|apply (single_key_run V k OpVerify) in H];
    destruct H as (A & B & C & D & F); do 3 (split; [assumption|]); split;
    [intros op E; destruct (D op E) as (old & -> & T); exact T
    |intros e E; destruct (F e E) as [G1 G2]; split; [exact G1|]; intros N op S;
     destruct op; cbn in S; try contradiction; destruct S as [t S]; exact (G2 N _ _ S)].
Qed.

Lemma supplies_un : forall V c c1 t op, unchanged (disk c) (disk c1) ->
  c_stdin c1 = c_stdin c -> c_tty c1 = c_tty c -> supplies V c1 t op -> supplies V c t op.
Proof.
  intros V c c1 t op U S T.
  assert (TK : forall ko kn old new, two_keys V c1 ko kn old new -> two_keys V c ko kn old new).
  { intros ko kn old new (t1 & t2 & Y1 & Y2). exists t1, t2. split; [eapply yields_un; eauto|].
    eapply (yields_un V (after_key ko t1 c) (after_key ko t1 c1)); [exact U| | |exact Y2]; [unfold after_key; cbn [c_stdin]; rewrite S; reflexivity|reflexivity]. }
  destruct t, op; cbn [supplies]; try contradiction.
  - intros [A B]. auto.
  - intros [A B]. auto.
  - intros [t Y]. exists t. eapply yields_un; eauto.
  - intros [t Y]. exists t. eapply yields_un; eauto.
Qed.

Lemma supplies_unique : forall V c t op op', supplies V c t op -> supplies V c t op' -> op = op'.
Proof.
  intros V c t op op'.
  assert (TK : forall ko kn a b a' b', two_keys V c ko kn a b -> two_keys V c ko kn a' b' -> a = a' /\ b = b').
  { intros ko kn a b a' b' (t1 & t2 & Y1 & Y2) (t1' & t2' & Y1' & Y2').
    destruct (yields_unique _ _ _ _ _ _ _ _ Y1 Y1') as [-> ->].
    destruct (yields_unique _ _ _ _ _ _ _ _ Y2 Y2') as [-> ->]. auto. }
  destruct t, op, op'; cbn [supplies]; try contradiction.
  - intros [-> A] [-> B]. destruct (TK _ _ _ _ _ _ A B) as [-> ->]. reflexivity.
  - intros [-> A] [-> B]. destruct (TK _ _ _ _ _ _ A B) as [-> ->]. reflexivity.
  - intros [x A] [y B]. destruct (yields_unique _ _ _ _ _ _ _ _ A B) as [-> _]. reflexivity.
  - intros [x A] [y B]. destruct (yields_unique _ _ _ _ _ _ _ _ A B) as [-> _]. reflexivity.
Qed.

(** ** Operations depend on the file and the random numbers *)

Definition same_in (w1 w2 : world) : Prop := w_in w1 = w_in w2 /\ w_rng w1 = w_rng w2.

Lemma si_in : forall {E A} (m : M dev E A), sim same_in (on_in m) (on_in m).
Proof.
  intros E A m w1 w2 [R1 R2]. unfold on_in, zoom. rewrite R1.
  destruct (m (w_in w2)) as [o d]. cbn. split; [reflexivity|split; [reflexivity|exact R2]].
Qed.
Lemma si_fill : forall {E} n, sim same_in (@fill_bytes E n) (@fill_bytes E n).
Proof. intros E n w1 w2 [R1 R2]. unfold fill_bytes. rewrite R2. cbn. split; [reflexivity|]. split; auto. Qed.
Lemma si_tr : forall {E A} (m : M trace E A), (forall t1 t2, fst (m t1) = fst (m t2)) ->
  sim same_in (on_tr m) (on_tr m).
Proof.
  intros E A m H w1 w2 [R1 R2]. unfold on_tr, zoom. specialize (H (w_tr w1) (w_tr w2)).
  destruct (m (w_tr w1)) as [o1 t1], (m (w_tr w2)) as [o2 t2]. cbn [fst snd] in *. subst o2.
  cbn. split; [reflexivity|]. split; auto.
Qed.

Lemma ciphers_decrypt_indep : forall E c n aad ct t1 t2,
  fst (ciphers_decrypt E c n aad ct t1) = fst (ciphers_decrypt E c n aad ct t2).
Proof.
  intros. unfold ciphers_decrypt. repeat match goal with |- context [match ?x with _ => _ end] => destruct x end; reflexivity.
Qed.
Lemma ciphers_encrypt_indep : forall E c n aad ct t1 t2,
  fst (ciphers_encrypt E c n aad ct t1) = fst (ciphers_encrypt E c n aad ct t2).
Proof.
  intros. unfold ciphers_encrypt. repeat match goal with |- context [match ?x with _ => _ end] => destruct x end; reflexivity.
Qed.
Lemma search_indep : forall E a pw l i t1 t2,
  fst (search_keyslots E a pw i l t1) = fst (search_keyslots E a pw i l t2).
Proof.
  intros E a pw l. induction l as [|k l IH]; intros i t1 t2; [reflexivity|]. cbn [search_keyslots].
  unfold bind. rewrite !map_err_run. unfold lift. cbn [fst snd].
  destruct (hash E (ks_hash k) pw (ks_salt k)) as [key| | |]; try reflexivity. cbn [omap].
  rewrite !map_err_run. cbn [fst snd].
  destruct (ciphers_initialize key a) as [cp| | |]; try reflexivity. cbn [omap].
  pose proof (ciphers_decrypt_indep E cp (ks_nonce k) [] (ks_enc k) t1 t2) as X.
  destruct (ciphers_decrypt E cp (ks_nonce k) [] (ks_enc k) t1) as [[| | |] u1],
           (ciphers_decrypt E cp (ks_nonce k) [] (ks_enc k) t2) as [[| | |] u2]; cbn [fst] in X;
    try discriminate; try reflexivity; try (injection X as ->; reflexivity).
  apply IH.
Qed.
Lemma master_indep : forall E l pw a t1 t2,
  fst (decrypt_v5_master_key_with_index E l pw a t1) = fst (decrypt_v5_master_key_with_index E l pw a t2).
Proof.
  intros. unfold decrypt_v5_master_key_with_index, bind. pose proof (search_indep E a pw l 0 t1 t2) as X.
  destruct (search_keyslots E a pw 0 l t1) as [[r| | |] u1], (search_keyslots E a pw 0 l t2) as [[r'| | |] u2];
    cbn [fst] in X; try discriminate; try exact X. injection X as ->.
  match goal with |- context [if ?b then _ else _] => destruct b end; reflexivity.
Qed.
Lemma wrap_indep : forall E mk k n a t1 t2,
  fst (encrypt_master_key E mk k n a t1) = fst (encrypt_master_key E mk k n a t2).
Proof.
  intros. unfold encrypt_master_key, bind. rewrite !map_err_run. unfold lift. cbn [fst snd].
  destruct (ciphers_initialize k a) as [cp| | |]; try reflexivity. cbn [omap]. rewrite !map_err_run.
  pose proof (ciphers_encrypt_indep E cp n [] mk t1 t2) as X.
  destruct (ciphers_encrypt E cp n [] mk t1) as [[| | |] u1], (ciphers_encrypt E cp n [] mk t2) as [[| | |] u2];
    cbn [fst] in X; try discriminate; try reflexivity; injection X as ->; reflexivity.
Qed.

Lemma si_open : sim same_in KeyOps.open_header KeyOps.open_header.
Proof.
  unfold KeyOps.open_header. apply sim_bind; [apply sim_map_err, si_in|]. intros ha. cbv zeta.
  destruct (below_v5 _); [apply sim_const|]. apply sim_bind; [apply sim_map_err, si_in|]. intros u.
  destruct (h_keyslots (fst ha)); apply sim_const.
Qed.
Lemma si_rewrite : forall h l, sim same_in (rewrite_header h l) (rewrite_header h l).
Proof. intros h l. unfold rewrite_header. apply sim_map_err, si_in. Qed.
Lemma si_gen_salt : forall {E}, sim same_in (@gen_salt E) (@gen_salt E).
Proof. intros E. unfold gen_salt. apply si_fill. Qed.
Lemma si_gen_nonce : forall {E} a m, sim same_in (@gen_nonce E a m) (@gen_nonce E a m).
Proof. intros E a m. unfold gen_nonce. apply si_fill. Qed.

Lemma run_op_sim : forall E op, sim same_in (run_op E op) (run_op E op).
Proof.
  intros E op. destruct op as [old new ha|old new ha|old|pw]; cbn [run_op].
  - unfold key_add. apply sim_bind; [apply si_open|]. intros [h slots].
    apply sim_bind; [apply si_tr; intros; apply master_indep|]. intros mk.
    destruct (_ =? _); [apply sim_const|]. apply sim_bind; [apply si_gen_salt|]. intros salt.
    apply sim_bind; [apply si_gen_nonce|]. intros nonce.
    apply sim_bind; [apply sim_map_err, sim_lift|]. intros k.
    apply sim_bind; [apply si_tr; intros; apply wrap_indep|]. intros e. apply si_rewrite.
  - unfold key_change. apply sim_bind; [apply si_open|]. intros [h slots].
    apply sim_bind; [apply si_tr; intros; apply master_indep|]. intros mk.
    apply sim_bind; [apply si_gen_salt|]. intros salt.
    apply sim_bind; [apply sim_map_err, sim_lift|]. intros k.
    apply sim_bind; [apply si_gen_nonce|]. intros nonce.
    apply sim_bind; [apply si_tr; intros; apply wrap_indep|]. intros e.
    destruct (_ <? _); [apply si_rewrite|apply sim_const].
  - unfold key_delete. apply sim_bind; [apply si_open|]. intros [h slots].
    apply sim_bind; [apply si_tr; intros; apply master_indep|]. intros mk.
    destruct (_ <? _); [apply si_rewrite|apply sim_const].
  - unfold key_verify. apply sim_bind; [apply sim_map_err, si_in|]. intros ha. cbv zeta.
    destruct (below_v5 _); [apply sim_const|]. destruct (h_keyslots (fst ha)); [|apply sim_const].
    apply sim_bind; [apply si_tr; intros; apply master_indep|]. intros mk. apply sim_const.
Qed.

(** ** The key commands *)

Lemma run_tool_any : forall V input t c o c', env_ok (ce_E V) -> run_tool V input t c = (o, c') ->
  o <> Diverge
  /\ (o = Panic -> exists k, In k (tool_keys t) /\ generator_panics V k)
  /\ ((o <> Ok tt /\ unchanged (disk c) (disk c'))
      \/ (o = Ok tt /\ exists i, stat (disk c) (os_path input) = Some (NFile i)
            /\ only_header i 416 (disk c) (disk c')))
  /\ (forall i, stat (disk c) (os_path input) = Some (NFile i) -> no_faults (disk c) ->
       (forall d' hd aad, deserialize (dev_at (s_data (disk c) i) 0) = (Ok (hd, aad), d') ->
          version_of hd = V5 ->
          (forall op, supplies V c t op ->
             let r := run_on (ce_E V) (op, s_rng (disk c)) (s_data (disk c) i) in
             o = tool_outcome (fst r) /\ s_data (disk c') i = snd r)
          /\ ((forall op, ~ supplies V c t op) ->
              unchanged (disk c) (disk c') /\ (o = Panic \/ exists e, o = Err (TCli e))))
       /\ ((forall d' hd aad, deserialize (dev_at (s_data (disk c) i) 0) = (Ok (hd, aad), d') ->
              version_of hd <> V5) ->
           asks_nothing c c' /\ c_out c' = c_out c
           /\ (o = Err TOldVersion \/ exists e, o = Err (THeader e))))
  /\ (no_faults (disk c) -> no_faults (disk c')).
Proof.
  intros V input t c o c' HE H. rewrite run_tool_eq in H. unfold bind at 1 in H.
  destruct (open_v5 input c) as [r1 c1] eqn:OV.
  destruct (open_v5_any _ _ _ _ OV) as (U1 & G1 & N1 & T1 & (A1 & B1) & O1 & CASES).
  destruct CASES as [(h & i & plan & hd & aad & d' & -> & HI & HP & HQ & ST & DS & V5H & PL)
                    |[(e & -> & IE & WHY)|(e & -> & WHY)]].
  2:{ injection H as <- <-. split; [discriminate|]. split; [discriminate|].
      split; [left; split; [discriminate|exact U1]|]. split; [|exact N1].
      intros j SJ N. destruct (WHY N j SJ) as (-> & hd & aad & d' & DS & NV). split.
      - intros d2 hd2 aad2 DS2 V2. rewrite DS in DS2. injection DS2 as <- <- _. contradiction.
      - intros _. split; [split; assumption|]. auto. }
  2:{ injection H as <- <-. split; [discriminate|]. split; [discriminate|].
      split; [left; split; [discriminate|exact U1]|]. split; [|exact N1].
      intros j SJ N. destruct (WHY N j SJ) as (d' & DS). split.
      - intros d2 hd2 aad2 DS2 V2. rewrite DS in DS2. discriminate.
      - intros _. split; [split; assumption|]. eauto. }
  unfold bind at 1 in H.
  destruct (take_keys V t c1) as [r2 c2] eqn:TK.
  destruct (take_keys_any _ _ _ _ _ TK) as ([D2 T2 R2 N2] & ND2 & NP2 & OK2 & ER2).
  assert (U2 : unchanged (disk c) (disk c2)) by (eapply un_trans; [exact U1|apply un_disk; exact D2]).
  assert (SB : forall op, supplies V c1 t op -> supplies V c t op) by (intros op; apply supplies_un; assumption).
  assert (SF : forall op, supplies V c t op -> supplies V c1 t op).
  { intros op. apply supplies_un; [apply un_sym_disk; exact U1|congruence|congruence]. }
  assert (NOTV5 : forall j, stat (disk c) (os_path input) = Some (NFile j) -> no_faults (disk c) ->
     (forall d2 hd2 aad2, deserialize (dev_at (s_data (disk c) j) 0) = (Ok (hd2, aad2), d2) ->
              version_of hd2 <> V5) -> False).
  { intros j SJ N X. rewrite ST in SJ. injection SJ as <-. destruct (PL N) as [-> _]. eapply X; eauto. }
  destruct r2 as [op|e| |]; [| | |congruence].
  2:{ injection H as <- <-. destruct (ER2 e eq_refl) as ((e' & -> & SE) & NO).
      split; [discriminate|]. split; [discriminate|]. split; [left; split; [discriminate|exact U2]|].
      split; [|auto]. intros j SJ N. split.
      - intros _ _ _ _ _. split.
        + intros op S. destruct (NO (N1 N) op (SF op S)).
        + intros _. split; [exact U2|]. eauto.
      - intros X. destruct (NOTV5 j SJ N X). }
  2:{ injection H as <- <-. split; [discriminate|]. split; [auto|]. split; [left; split; [discriminate|exact U2]|].
      split; [|auto]. intros j SJ N. split.
      - intros _ _ _ _ _. split.
        + intros op S. exfalso. apply SF in S. destruct (NP2 eq_refl) as (k & IK & n & -> & GP).
          assert (NY : forall c0 st l t0, ~ yields V c0 (Generate n) st l t0).
          { intros c0 st l t0 Y. inversion Y. congruence. }
          destruct t as [ko kn ha|ko kn ha|k|k], op; cbn [supplies tool_keys] in S, IK; try contradiction.
          * destruct S as [_ (t1 & t2 & Y1 & Y2)]. destruct IK as [->|[->|[]]]; eapply NY; eauto.
          * destruct S as [_ (t1 & t2 & Y1 & Y2)]. destruct IK as [->|[->|[]]]; eapply NY; eauto.
          * destruct S as [t1 Y1]. destruct IK as [->|[]]; eapply NY; eauto.
          * destruct S as [t1 Y1]. destruct IK as [->|[]]; eapply NY; eauto.
        + intros _. split; [exact U2|]. auto.
      - intros X. destruct (NOTV5 j SJ N X). }
  specialize (OK2 op eq_refl). apply SB in OK2.
  destruct (run_op (ce_E V) op (one_world h c2)) as [ro w] eqn:RO.
  assert (RM : map_err TKey (run_op (ce_E V) op) (one_world h c2) = (omap TKey ro, w)).
  { rewrite map_err_run, RO. reflexivity. }
  unfold bind in H. rewrite (on_handle_run _ _ _ _ _ RM) in H.
  destruct (op_error_holds _ _ _ _ _ HE RO) as (OUT & KEEP & _).
  destruct (op_region_holds _ _ _ _ _ HE RO) as (REG & (new & LOG & IN) & _).
  cbn [one_world w_in handle_dev d_data d_pos d_log] in REG, LOG, IN, KEEP. rewrite HP in REG, IN.
  rewrite HI in REG. rewrite (un_data _ _ _ U2) in REG. cbn [app] in LOG.
  assert (OO : o = tool_outcome ro /\ c' = after_one w h c2).
  { destruct OUT as [->|[e ->]]; cbn [omap] in H; injection H as <- <-; auto. }
  clear H. destruct OO as [-> ->].
  assert (DD : disk (after_one w h c2) = with_rng (w_rng w) (put_handle (w_in w) h (disk c2))) by reflexivity.
  assert (DATA : s_data (disk (after_one w h c2)) i = d_data (w_in w)).
  { rewrite DD. cbn [with_rng put_handle with_data s_data]. rewrite <- HI. apply set_data_eq. }
  split; [destruct OUT as [->|[e ->]]; discriminate|].
  split; [destruct OUT as [->|[e ->]]; discriminate|].
  split.
  { destruct OUT as [E|[e E]].
    - right. rewrite E. split; [reflexivity|]. exists i. split; [exact ST|].
      destruct U2 as (UA & UB & UC & UD & UE & UF). unfold only_header. rewrite DATA.
      split; [|exact REG]. unfold only_file. rewrite DD.
      cbn [with_rng put_handle with_data s_nodes s_data s_next s_cwd s_tmp s_log].
      split; [exact UA|]. split; [intros j NJ; rewrite set_data_neq by congruence; apply UB|].
      do 3 (split; [assumption|]). eexists. split; [unfold added; cbn [with_rng put_handle with_data s_log]; rewrite UF; reflexivity|].
      rewrite LOG. apply Forall_forall. intros x IX. apply in_map_iff in IX as ([q b] & <- & IQ).
      cbn [fst snd]. split; [exact HI|]. destruct (IN q b IQ). lia.
    - left. split; [rewrite E; discriminate|]. eapply un_trans; [exact U2|].
      destruct KEEP as [K1 K2]; [rewrite E; discriminate|].
      cbn [one_world w_in handle_dev d_data d_log] in K1, K2.
      rewrite DD. unfold unchanged. cbn [with_rng put_handle with_data s_nodes s_data s_next s_cwd s_tmp s_log].
      rewrite K2. cbn [map]. rewrite app_nil_r. split; [reflexivity|]. split; [|auto].
      intros j. unfold set_data. destruct (Nat.eqb_spec j (h_ino h)); [subst j; exact K1|reflexivity]. }
  split.
  - intros j SJ N. split; [|intros X; destruct (NOTV5 j SJ N X)].
    rewrite ST in SJ. injection SJ as <-. intros _ _ _ _ _. split.
    + intros op' S. rewrite (supplies_unique _ _ _ _ _ S OK2). clear op' S.
      destruct (PL N) as [_ HPL].
      set (w0 := mkWorld (dev_at (s_data (disk c) i) 0) (dev_of []) (dev_of []) (s_rng (disk c)) []).
      assert (SI : same_in (one_world h c2) w0).
      { split; cbn [one_world w0 w_in w_rng]; [|congruence].
        unfold handle_dev, dev_at. rewrite HI, HP, HPL, (un_data _ _ _ U2). reflexivity. }
      destruct (run_op_sim (ce_E V) op _ _ SI) as [S1 [S2 _]]. rewrite RO in S1, S2. cbn [fst snd] in S1, S2.
      unfold run_on. cbn [fst snd]. fold w0. split; [rewrite S1; reflexivity|]. rewrite DATA, S2. reflexivity.
    + intros NO. destruct (NO op OK2).
  - intros N. rewrite DD. specialize (N2 (N1 N)). exact N2.
Qed.
