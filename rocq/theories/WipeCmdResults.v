(** The commands, from the command line to their end. *)
From Coq Require Import List Arith NArith ZArith String Bool Lia.
From Verif Require Import Bytes BytesFacts Outcome IO IOFacts Primitives Crypto Header HeaderFacts KeyModel Stream EncDec KeyOps Hash.
From Verif Require Import Overwrite FS FSSpec FSFacts Erase Archive Cli CliSpec CliKeys CliRuns CliCommands CliResults.
From Verif Require Import Wipe WipeSpec WipeLib WipeProofs WipeResults WipeCli WipeCliSpec WipeCliProofs WipeCmd WipeCmdSpec WipeCmdProofs WipeCmdKeys WipeCmdRest.
Import ListNotations.
Local Open Scope nat_scope.
Local Open Scope list_scope.

(** ** [process::exit] is called at a question only *)

Lemma no_exit_storage {A} (m : M sys st_error A) (Q : Prop) s s' :
  storage m s = (Err CExit, s') -> Q.
Proof.
  intros R. unfold storage, on_fs, on_a, on_sys, zoom, map_err in R.
  destruct (m (fst (c_a s))) as [[a|e| |] x]; discriminate.
Qed.
Lemma no_exit_handle e (Q : Prop) s s' : try_handle e s = (Err CExit, s') -> Q.
Proof. destruct e; discriminate. Qed.
Lemma no_exit_each {A B} (f : A -> M cli cli_error B) (Q : Prop) :
  (forall a s s', f a s = (Err CExit, s') -> Q) ->
  forall l s s', each f l s = (Err CExit, s') -> Q.
Proof.
  intros H l. induction l as [|x l IH]; intros s s' R; cbn [each] in R; [discriminate|].
  unfold bind in R at 1. destruct (f x s) as [[y|e| |] s1] eqn:F; try discriminate.
  - unfold bind, ret in R. destruct (each f l s1) as [[ys|e| |] s2] eqn:G; try discriminate.
    injection R as -> _. exact (IH _ _ G).
  - injection R as -> _. exact (H _ _ _ F).
Qed.
Lemma exit_header p s s' : open_header p s = (Err CExit, s') -> exists h, cp_header p = Some h.
Proof.
  unfold open_header. destruct (cp_header p) as [h|]; [intros _; exists h; reflexivity|discriminate].
Qed.

(** ** Before the secret *)

(** How a command that begins with no buffers may end *)
Definition ending (p : crypto_params) (Q : Prop) (b : budget) (o : outcome cli_error unit) (c' : cli) (m : memory) : Prop :=
  over b (is_ok o) m
  \/ all_wiped m
  \/ (o = Err CExit /\ Q /\ exists i s, handed_on_alone m i s)
  \/ (o = Err CKeyfile /\ exists f, cp_key p = Keyfile f /\ read_of (disk c') (os_path f) m).
Definition ends_at (c : cli) (p : crypto_params) (Q : Prop) (b : budget) (f : M (cli * memory) cli_error unit) : Prop :=
  forall o c' (m : memory), f (c, []) = (o, (c', m)) -> ending p Q b o c' m.
Definition ends (p : crypto_params) (Q : Prop) (b : budget) (f : M (cli * memory) cli_error unit) : Prop :=
  forall c, ends_at c p Q b f.

Lemma over_wiped b ok m : (forall c, In c m -> wiped c) -> over b ok m.
Proof.
  intros H. exists m, []. rewrite app_nil_r. split; [reflexivity|]. split; [exact H|].
  split; [constructor|apply stain_ok_nil].
Qed.
Lemma over_nil b ok : over b ok [].
Proof. apply over_wiped. intros c []. Qed.
Lemma ends_at_thru {A} c p Q b (x : M cli cli_error A) f :
  (forall a c1, x c = (Ok a, c1) -> ends_at c1 p Q b (f a)) -> ends_at c p Q b (bind (thru x) f).
Proof.
  intros H o c' m R. unfold bind, thru in R. cbn [fst snd] in R.
  destruct (x c) as [[a|e| |] c1].
  - exact (H a _ eq_refl _ _ _ R).
  - injection R as <- <- <-. left. apply over_nil.
  - injection R as <- <- <-. left. apply over_nil.
  - injection R as <- <- <-. left. apply over_nil.
Qed.
Lemma ends_thru {A} p Q b (x : M cli cli_error A) f : (forall a, ends p Q b (f a)) -> ends p Q b (bind (thru x) f).
Proof. intros H c. apply ends_at_thru. intros a c1 _. apply H. Qed.
Lemma ends_err p Q b e : ends p Q b (err e).
Proof. intros c o c' m R. injection R as <- <- <-. left. apply over_nil. Qed.

Lemma secret_fails V k st c (o : outcome cli_error (bytes * nat)) c' (m : memory) :
  get_secret_m V k st (c, []) = (o, (c', m)) -> (forall x, o <> Ok x) -> (k = User -> st = Direct) ->
  all_wiped m \/ (o = Err CKeyfile /\ exists f, k = Keyfile f /\ read_of (disk c') (os_path f) m).
Proof.
  intros G N U. destruct k as [f| |n|].
  - destruct (keyfile_bad _ _ _ _ _ _ _ N G) as [A|[-> A]]; [left; exact A|right].
    split; [reflexivity|]. exists f. split; [reflexivity|exact A].
  - left. exact (secret_bad _ _ _ _ _ _ _ N G).
  - left. exact (secret_bad _ _ _ _ _ _ _ N G).
  - left. rewrite (U eq_refl) in G. exact (direct_bad _ _ _ _ _ N G).
Qed.
Lemma ends_at_secret c p (Q : Prop) b V st (body : bytes * nat -> M (cli * memory) cli_error unit) :
  (cp_key p = User -> st = Direct) ->
  (forall raw i c1 k, get_secret V (cp_key p) st c = (Ok raw, c1) -> handed_on_alone k i raw ->
     stage_at c1 k Q b (body (raw, i))) ->
  ends_at c p Q b (secret <- get_secret_m V (cp_key p) st ;; owning_or_exit (snd secret) (body secret)).
Proof.
  intros U H o c' m R. unfold bind in R at 1. pose proof (same_secret V (cp_key p) st c []) as SS.
  destruct (get_secret_m V (cp_key p) st (c, [])) as [o1 [c1 k]] eqn:G.
  destruct o1 as [[raw i]|e| |].
  - destruct (secret_ok _ _ _ _ _ _ _ _ G) as [(X & Y & _)|[_ A]]; [rewrite (U X) in Y; discriminate|].
    cbn [fst snd] in R. unfold bind in SS.
    match type of G with ?l = _ => match type of SS with context [get_secret_m V (cp_key p) st ?x] =>
      change (get_secret_m V (cp_key p) st x) with l in SS end end.
    rewrite G in SS. cbn [fst snd ret] in SS.
    destruct (after_secret k _ b i raw _ _ _ _ _ A (H raw i c1 k (eq_sym SS) A) R) as [O|(-> & HQ & ->)].
    + left. exact O.
    + right. right. left. split; [reflexivity|]. split; [exact HQ|]. exists i, raw. exact A.
  - injection R as <- <- <-. apply secret_fails in G; [|congruence|exact U].
    destruct G as [G|G]; [right; left; exact G|]. right. right. right.
    destruct G as [X G]. split; [congruence|exact G].
  - injection R as <- <- <-. apply secret_fails in G; [|congruence|exact U].
    destruct G as [G|[X _]]; [right; left; exact G|discriminate].
  - injection R as <- <- <-. apply secret_fails in G; [|congruence|exact U].
    destruct G as [G|[X _]]; [right; left; exact G|discriminate].
Qed.
Lemma ends_secret p (Q : Prop) b V st (body : bytes * nat -> M (cli * memory) cli_error unit) :
  (cp_key p = User -> st = Direct) ->
  (forall raw i k, handed_on_alone k i raw -> stage k Q b (body (raw, i))) ->
  ends p Q b (secret <- get_secret_m V (cp_key p) st ;; owning_or_exit (snd secret) (body secret)).
Proof.
  intros U H c. apply ends_at_secret; [exact U|]. intros raw i c1 k _ A. apply H, A.
Qed.

(** ** The commands *)

Lemma calm_end {A B} (m1 : M cli cli_error A) (m2 : M cli cli_error B) m3 m4 :
  calm (bind (thru m1) (fun _ => bind (thru m2) (fun _ => bind (thru m3) (fun _ : unit => thru m4)))
        : M (cli * memory) cli_error unit).
Proof. repeat (apply calm_bind; [apply calm_thru|intros _]). apply calm_thru. Qed.
Lemma calm_end3 {A} (m1 : M cli cli_error A) m3 m4 :
  calm (bind (thru m1) (fun _ => bind (thru m3) (fun _ : unit => thru m4))
        : M (cli * memory) cli_error unit).
Proof. repeat (apply calm_bind; [apply calm_thru|intros _]). apply calm_thru. Qed.

Lemma stage_encrypt V bs i req hi ho hh k (Q : Prop) raw f : handed_on_alone k i raw ->
  (forall a, calm (f a)) ->
  stage k Q (OnFailure bs) (bind (on_a_m (encrypt_files_m V bs i req hi ho hh)) f : M (cli * memory) cli_error unit).
Proof.
  intros H C. apply (stage_then k Q (OnFailure bs) _ f i raw H); [|exact C].
  destruct (same_file ho hi || same_opt ho hh || same_opt hi hh)%bool; [apply tame_thru|].
  apply tame_map_err. apply tame_world, tame_encrypt_at. reflexivity.
Qed.
Lemma stage_decrypt V bs i req hi ho hh k (Q : Prop) raw f : handed_on_alone k i raw ->
  (forall a, calm (f a)) ->
  stage k Q Anything (bind (on_a_m (decrypt_files_m V bs i req hi ho hh)) f : M (cli * memory) cli_error unit).
Proof.
  intros H C. apply (stage_then k Q Anything _ f i raw H); [|exact C].
  destruct (same_file ho hi || same_opt ho hh)%bool; [apply tame_thru|].
  apply tame_map_err. apply tame_world, tame_decrypt_at. reflexivity.
Qed.
Lemma stage_pack V bs i req ho hh al k (Q : Prop) raw f : handed_on_alone k i raw ->
  (forall a, calm (f a)) ->
  stage k Q (Blocks bs)
    (bind (on_a_m (owning_protected i
             (if same_opt ho hh then thru (alias V al) else
              map_err CPack (pack_execute_at (ce_E V) (ce_Z V) (ce_pick V) bs i req)))) f
     : M (cli * memory) cli_error unit).
Proof.
  intros H C. apply (stage_then k Q (Blocks bs) _ f i raw H); [|exact C].
  destruct (same_opt ho hh); [apply tame_thru|].
  apply tame_map_err, tame_pack. reflexivity.
Qed.

Ltac before_secret :=
  lazymatch goal with
  | |- ends _ _ _ (bind (get_secret_m _ _ _) _) => idtac
  | |- ends _ _ _ (bind (thru _) _) => apply ends_thru; intros ?; before_secret
  end.
Ltac no_exit :=
  intros ? ? ?; first [eapply no_exit_storage; eassumption | eapply no_exit_handle; eassumption
                      | eapply exit_header; eassumption].

Lemma ends_encrypt V bs input output p a : cp_key p <> User ->
  ends p (exists h, cp_header p = Some h) (OnFailure bs) (encrypt_stream_m V bs input output p a).
Proof.
  intros U. unfold encrypt_stream_m. destruct (String.eqb input output); [apply ends_err|].
  before_secret. lazymatch goal with |- ends _ _ _ (bind _ ?f) =>
    lazymatch f with (fun secret => owning_or_exit _ (@?body secret)) =>
      apply (ends_secret p _ (OnFailure bs) V Validate body) end end.
  { intros X. destruct (U X). }
  intros raw i k H. cbv beta. cbn [fst snd].
  apply stage_thru; [no_exit|]. intros fo. apply stage_thru; [no_exit|]. intros fh.
  apply stage_thru; [no_exit|]. intros hi. apply stage_thru; [no_exit|]. intros ho.
  apply (stage_encrypt _ _ _ _ _ _ _ _ _ raw); [exact H|]. intros _. apply calm_end.
Qed.
Lemma ends_decrypt V bs input output p :
  ends p False Anything (decrypt_stream_m V bs input output p).
Proof.
  unfold decrypt_stream_m. destruct (String.eqb input output); [apply ends_err|].
  before_secret. lazymatch goal with |- ends _ _ _ (bind _ ?f) =>
    lazymatch f with (fun secret => owning_or_exit _ (@?body secret)) =>
      apply (ends_secret p _ Anything V Direct body) end end.
  { reflexivity. }
  intros raw i k H. cbv beta. cbn [fst snd].
  apply stage_thru; [no_exit|]. intros fo.
  apply stage_thru; [no_exit|]. intros hi. apply stage_thru; [no_exit|]. intros ho.
  apply (stage_decrypt _ _ _ _ _ _ _ _ _ raw); [exact H|]. intros _. apply calm_end3.
Qed.
Lemma ends_pack V bs inputs output p pp a : cp_key p <> User ->
  ends p (exists h, cp_header p = Some h) (Blocks bs) (pack_cli_m V bs inputs output p pp a).
Proof.
  intros U. unfold pack_cli_m. destruct (existsb _ inputs); [apply ends_err|].
  before_secret. lazymatch goal with |- ends _ _ _ (bind _ ?f) =>
    lazymatch f with (fun secret => owning_or_exit _ (@?body secret)) =>
      apply (ends_secret p _ (Blocks bs) V Validate body) end end.
  { intros X. destruct (U X). }
  intros raw i k H. cbv beta. cbn [fst snd].
  apply stage_thru; [no_exit|]. intros fo. apply stage_thru; [no_exit|]. intros fh.
  apply stage_thru.
  { apply no_exit_each. intros f s s'. destruct (entry_is_dir f); [|discriminate].
    intros X. eapply no_exit_storage; eassumption. }
  intros lists. apply stage_thru; [no_exit|]. intros ho.
  apply (stage_pack _ _ _ _ _ _ _ _ _ raw); [exact H|]. intros _. apply calm_end.
Qed.

(** ** What it means *)

Lemma wiped_stains m : (forall c, In c m -> wiped c) -> stains m = [].
Proof.
  induction m as [|c m IH]; intros H; [reflexivity|]. unfold stains. cbn [filter]. fold (stains m).
  rewrite IH by (intros d I; apply H; right; exact I).
  destruct (H c (or_introl eq_refl)) as [_ Z]. unfold stain. destruct (c_label c); try reflexivity.
  apply zerob_zero in Z. rewrite Z. reflexivity.
Qed.
Lemma over_settled b ok m : over b ok m -> Forall settled m /\ stain_ok b ok m.
Proof.
  intros (old & new & -> & W & F & S1). split.
  - apply Forall_app. split; [|exact F]. apply Forall_forall. intros c I. destruct (W c I) as [L Z].
    split; [exact L|intros _; exact Z].
  - apply (stain_ok_never ok old new b); [|exact S1]. exact (wiped_stains _ W).
Qed.
Lemma over_keys b ok m : over b ok m -> keys_wiped m.
Proof. intros H. apply settled_keys. exact (proj1 (over_settled _ _ _ H)). Qed.
Lemma all_keys m : all_wiped m -> keys_wiped m.
Proof. intros H c I L. apply (H c I). congruence. Qed.
Lemma over_ok n m : over (OnFailure n) true m -> all_wiped m.
Proof.
  intros H. destruct (over_settled _ _ _ H) as [F S1].
  destruct (on_failure_spec _ _ _ F S1) as [A|[X _]]; [exact A|discriminate].
Qed.
Lemma over_blocks n ok m : over (Blocks n) ok m -> only_blocks n m.
Proof.
  intros H c I L. destruct (over_settled _ _ _ H) as [F S1]. cbn [stain_ok] in S1.
  rewrite Forall_forall in F. destruct (F c I) as [F1 F2].
  destruct (stain c) eqn:X.
  - right. assert (J : In c (stains m)) by (apply filter_In; split; assumption).
    rewrite Forall_forall in S1. unfold stain in X. destruct (c_label c) eqn:Q; try discriminate.
    split; [reflexivity|]. split; [exact F1|exact (S1 c J)].
  - left. split; [exact F1|]. unfold stain in X. destruct (c_label c) eqn:Q; [exact (F2 eq_refl)| |congruence].
    apply zerob_zero. destruct (zerob (c_bytes c)); [reflexivity|discriminate].
Qed.
Lemma buffers_keys bs new : Forall (read_buffer bs) new -> keys_wiped new.
Proof.
  intros F c I L. rewrite Forall_forall in F. destruct (F c I) as (b & -> & _). discriminate.
Qed.

(** ** From the command line *)

Lemma header_given g h : hd_error (g "header"%string) = Some h -> given g "header" h.
Proof.
  destruct (g "header"%string) as [|x r] eqn:Q; [discriminate|]. intros H. injection H as ->.
  exists r. exact Q.
Qed.
Lemma source_file V cmd g f : key_source V cmd g (Keyfile f) -> given g "keyfile" f.
Proof. intros H. inversion H. assumption. Qed.
Lemma source_user V cmd g : key_source V cmd g User -> In cmd [CmdDecrypt; CmdUnpack].
Proof. intros H. inversion H. assumption. Qed.

(** How the commands end *)
Definition command_ending (cmd : command) (g : string -> list string) (b : budget)
  (o : outcome cli_error unit) (c' : cli) (m : memory) : Prop :=
  over b (is_ok o) m
  \/ all_wiped m
  \/ (o = Err CExit /\ In cmd [CmdEncrypt; CmdPack] /\ (exists h, given g "header" h)
      /\ exists i s, handed_on_alone m i s)
  \/ (o = Err CKeyfile /\ exists f, given g "keyfile" f /\ read_of (disk c') (os_path f) m).
Lemma command_end V cmd g (p : crypto_params) (Q : Prop) b o c' m : params_of V cmd g p ->
  (Q -> (exists h, cp_header p = Some h) /\ In cmd [CmdEncrypt; CmdPack]) ->
  ending p Q b o c' m -> command_ending cmd g b o c' m.
Proof.
  intros PO HQ [H|[H|[(H1 & H2 & H3)|(H1 & f & H2 & H3)]]].
  - left. exact H.
  - right. left. exact H.
  - right. right. left. destruct (HQ H2) as [[h Hh] I]. split; [exact H1|]. split; [exact I|].
    split; [|exact H3]. exists h. apply header_given. rewrite <- (po_header _ _ _ _ PO). exact Hh.
  - right. right. right. split; [exact H1|]. exists f. split; [|exact H3].
    apply (source_file V cmd). rewrite <- H2. exact (po_key _ _ _ _ PO).
Qed.
Lemma thru_bind {A B} (x : M cli cli_error A) (f : A -> M (cli * memory) cli_error B) c k o c' k' :
  bind (thru x) f (c, k) = (o, (c', k')) ->
  (exists a c1, x c = (Ok a, c1) /\ f a (c1, k) = (o, (c', k')))
  \/ ((forall b, o <> Ok b) /\ k' = k).
Proof.
  unfold bind, thru. cbn [fst snd]. destruct (x c) as [[a|e| |] c1]; intros R.
  - left. exists a, c1. split; [reflexivity|exact R].
  - right. injection R as <- _ <-. split; [congruence|reflexivity].
  - right. injection R as <- _ <-. split; [congruence|reflexivity].
  - right. injection R as <- _ <-. split; [congruence|reflexivity].
Qed.
Lemma nothing_left cmd g b o c' : command_ending cmd g b o c' [].
Proof. left. apply over_nil. Qed.

Lemma encrypt_ends V bs g c o c' m : run_command_m V bs CmdEncrypt g (c, []) = (o, (c', m)) ->
  command_ending CmdEncrypt g (OnFailure bs) o c' m.
Proof.
  intros R. unfold run_command_m in R.
  apply thru_bind in R as [(p & c1 & H1 & R)|[_ ->]]; [|apply nothing_left].
  apply thru_bind in R as [(a & c2 & _ & R)|[_ ->]]; [|apply nothing_left].
  apply thru_bind in R as [(i & c3 & _ & R)|[_ ->]]; [|apply nothing_left].
  apply thru_bind in R as [(u & c4 & _ & R)|[_ ->]]; [|apply nothing_left].
  destruct (handler_cases V CmdEncrypt g c) as [(p' & n & PO & X & _)|(_ & X & _)];
    [left; reflexivity| |congruence].
  rewrite H1 in X. injection X as <- _.
  apply (command_end V _ _ p (exists h, cp_header p = Some h)); [exact PO| |].
  - intros H. split; [exact H|left; reflexivity].
  - apply (ends_encrypt V bs i u p a) in R; [exact R|]. intros X. pose proof (po_key _ _ _ _ PO) as K.
    rewrite X in K. apply source_user in K as [K|[K|[]]]; discriminate.
Qed.
Lemma decrypt_ends V bs g c o c' m : run_command_m V bs CmdDecrypt g (c, []) = (o, (c', m)) ->
  command_ending CmdDecrypt g Anything o c' m.
Proof.
  intros R. unfold run_command_m in R.
  apply thru_bind in R as [(p & c1 & H1 & R)|[_ ->]]; [|apply nothing_left].
  apply thru_bind in R as [(i & c3 & _ & R)|[_ ->]]; [|apply nothing_left].
  apply thru_bind in R as [(u & c4 & _ & R)|[_ ->]]; [|apply nothing_left].
  destruct (handler_cases V CmdDecrypt g c) as [(p' & n & PO & X & _)|(_ & _ & n & X)];
    [right; left; reflexivity| |congruence].
  rewrite H1 in X. injection X as <- _.
  apply (command_end V _ _ p False); [exact PO|intros []|]. exact (ends_decrypt V bs i u p _ _ _ _ R).
Qed.
Lemma pack_ends V bs g c o c' m : run_command_m V bs CmdPack g (c, []) = (o, (c', m)) ->
  command_ending CmdPack g (Blocks bs) o c' m.
Proof.
  intros R. unfold run_command_m in R.
  apply thru_bind in R as [(pp & c1 & H1 & R)|[_ ->]]; [|apply nothing_left].
  apply thru_bind in R as [(a & c2 & _ & R)|[_ ->]]; [|apply nothing_left].
  apply thru_bind in R as [(i & c3 & _ & R)|[_ ->]]; [|apply nothing_left].
  apply thru_bind in R as [(u & c4 & _ & R)|[_ ->]]; [|apply nothing_left].
  destruct (pack_handler_cases V g c) as (p & q & n & X & PO & _).
  rewrite H1 in X. injection X as -> _. cbn [fst snd] in R.
  apply (command_end V _ _ p (exists h, cp_header p = Some h)); [exact PO| |].
  - intros H. split; [exact H|right; left; reflexivity].
  - apply (ends_pack V bs i u p q a) in R; [exact R|]. intros X. pose proof (po_key _ _ _ _ PO) as K.
    rewrite X in K. apply source_user in K as [K|[K|[]]]; discriminate.
Qed.

Lemma ending_keys cmd g b o c' m : command_ending cmd g b o c' m ->
  keys_wiped m
  \/ (o = Err CExit /\ In cmd [CmdEncrypt; CmdPack] /\ (exists h, given g "header" h)
      /\ exists i s, handed_on_alone m i s)
  \/ (o = Err CKeyfile /\ exists f, given g "keyfile" f /\ read_of (disk c') (os_path f) m).
Proof.
  intros [H|[H|[H|H]]].
  - left. exact (over_keys _ _ _ H).
  - left. exact (all_keys _ H).
  - right. left. exact H.
  - right. right. exact H.
Qed.
Lemma command_keys V bs cmd g c o c' m : run_command_m V bs cmd g (c, []) = (o, (c', m)) ->
  keys_wiped m
  \/ (o = Err CExit /\ In cmd [CmdEncrypt; CmdPack] /\ (exists h, given g "header" h)
      /\ exists i s, handed_on_alone m i s)
  \/ (o = Err CKeyfile /\ exists f, given g "keyfile" f /\ read_of (disk c') (os_path f) m).
Proof.
  intros R. destruct cmd.
  - exact (ending_keys _ _ _ _ _ _ (encrypt_ends _ _ _ _ _ _ _ R)).
  - exact (ending_keys _ _ _ _ _ _ (decrypt_ends _ _ _ _ _ _ _ R)).
  - unfold run_command_m in R. left. unfold thru in R. cbn [fst snd] in R.
    match type of R with (let '(_, _) := ?x in _) = _ => destruct x as [o1 c1] end.
    injection R as _ _ <-. intros x [].
  - left. unfold run_command_m in R. apply thru_bind in R as [(l & c1 & _ & R)|[_ ->]]; [|intros x []].
    apply hash_files_memory in R as (new & -> & F). exact (buffers_keys _ _ F).
  - exact (ending_keys _ _ _ _ _ _ (pack_ends _ _ _ _ _ _ _ R)).
  - unfold run_command_m in R. left. unfold thru in R. cbn [fst snd] in R.
    match type of R with (let '(_, _) := ?x in _) = _ => destruct x as [o1 c1] end.
    injection R as _ _ <-. intros x [].
Qed.

(** ** Content *)

Lemma ending_content cmd g n o c' m : command_ending cmd g (OnFailure n) o c' m ->
  o <> Err CExit -> o <> Err CKeyfile -> all_wiped m \/ (o <> Ok tt /\ all_but_one_wiped n m).
Proof.
  intros [H|[H|[[H _]|[H _]]]] N1 N2; [|left; exact H|congruence|congruence].
  destruct (over_settled _ _ _ H) as [F S1].
  destruct (on_failure_spec _ _ _ F S1) as [A|[X A]]; [left; exact A|right].
  split; [|exact A]. intros ->. discriminate.
Qed.
Lemma encrypt_command_content V bs g c o c' m : run_command_m V bs CmdEncrypt g (c, []) = (o, (c', m)) ->
  o <> Err CExit -> o <> Err CKeyfile -> all_wiped m \/ (o <> Ok tt /\ all_but_one_wiped bs m).
Proof. intros R. exact (ending_content _ _ _ _ _ _ (encrypt_ends _ _ _ _ _ _ _ R)). Qed.
Lemma pack_command_content V bs g c o c' m : run_command_m V bs CmdPack g (c, []) = (o, (c', m)) ->
  o <> Err CExit -> o <> Err CKeyfile -> only_blocks bs m.
Proof.
  intros R N1 N2. destruct (pack_ends _ _ _ _ _ _ _ R) as [H|[H|[[H _]|[H _]]]]; [| |congruence|congruence].
  - exact (over_blocks _ _ _ H).
  - intros x I L. left. exact (H x I L).
Qed.
Lemma hash_command_rest V bs g c c' m : no_faults (disk c) ->
  run_command_m V bs CmdHash g (c, []) = (Ok tt, (c', m)) ->
  forall f, In f (g "input"%string) -> exists i b, stat (disk c) (os_path f) = Some (NFile i)
    /\ rest_of bs (s_data (disk c) i) b /\ In (mkCell Plain b false) m.
Proof.
  intros NF R f I. unfold run_command_m in R.
  apply thru_bind in R as [(l & c1 & H1 & R)|[X _]]; [|destruct (X tt eq_refl)].
  assert (X : l = Some (g "input"%string) /\ c1 = c).
  { destruct (g "input"%string) as [|x r] eqn:Q; [destruct I|].
    unfold get_many in H1. cbn in H1. rewrite Q in H1. injection H1 as <- <-. split; reflexivity. }
  destruct X as [-> ->]. destruct (hash_files_rest _ _ _ _ _ _ _ NF R) as [_ J]. exact (J f I).
Qed.

(** ** Decryption *)

Lemma in_blocks_data s s' : s_data s' = s_data s -> in_blocks s -> in_blocks s'.
Proof. intros E H j d h aad d' D. rewrite E in D. exact (H j d h aad d' D). Qed.
Lemma in_blocks_less s s' : (forall j, s_data s' j = s_data s j \/ s_data s' j = []) ->
  in_blocks s -> in_blocks s'.
Proof.
  intros E H j d h aad d' D P R. destruct (E j) as [X|X]; rewrite X in D; [exact (H j d h aad d' D P R)|].
  exfalso. apply deserialize_spec in R as (_ & _ & _ & R & _). rewrite D, P in R. cbn [skipn] in R.
  destruct (ht_version (h_type h)); discriminate.
Qed.
Definition at_start (e : option entry) : Prop := forall h, ok_handle e = Some h -> h_pos h = 0.

Lemma decrypt_at_post E bs i det raw w (k : memory) o w' k' : env_ok E -> stream_file det w ->
  i < List.length k -> decrypt_execute_at E bs i det raw (w, k) = (o, (w', k')) ->
  post (fun j => j = i) (OnFailure bs) k (is_ok o) k'.
Proof.
  intros OK St L R. rewrite decrypt_parts_at in R.
  assert (Hd : forall j, j = i -> j < List.length k) by (intros j ->; exact L).
  assert (Z : forall (x : M (world * memory) dec_error unit) w1, tame (fun j => j = i) (OnFailure bs) x ->
             owning_protected i x (w1, k) = (o, (w', k')) -> post (fun j => j = i) (OnFailure bs) k (is_ok o) k').
  { intros x w1 T R1. refine (tame_owning_protected _ _ i x _ T w1 k o w' k' Hd R1). reflexivity. }
  unfold owning_protected, bind, thru in R. cbn [fst snd] in R.
  destruct (header_step det w) as [[ha|e| |] wh] eqn:Eh.
  - apply (Z (rest_m E bs i raw ha) wh); [|exact R]. apply tame_rest; [exact OK|reflexivity|].
    destruct ha as [h aad]. exact (header_step_mode _ _ _ _ _ St Eh).
  - exact (Z (err e) wh (tame_err _ _ e) R).
  - exact (Z panic wh (tame_panic _ _) R).
  - exact (Z diverge wh (tame_diverge _ _) R).
Qed.

Lemma stage_decrypt_at V bs i hi ho hh c k (Q : Prop) raw f : env_ok (ce_E V) -> in_blocks (disk c) ->
  h_pos hi = 0 -> (forall h, hh = Some h -> h_pos h = 0) ->
  handed_on_alone k i raw -> (forall a, calm (f a)) ->
  stage_at c k Q (OnFailure bs) (bind (on_a_m (decrypt_files_m V bs i raw hi ho hh)) f : M (cli * memory) cli_error unit).
Proof.
  intros OK IB H1 H2 H C. apply (stage_at_then c k Q (OnFailure bs) _ f i raw H); [|exact C].
  assert (L : i < List.length k) by (apply nth_error_Some; destruct H as [H _]; congruence).
  intros o a1 k1 R. destruct (same_file ho hi || same_opt ho hh)%bool.
  { refine (tame_thru _ _ _ (c_a c) k o a1 k1 _ R). intros j ->. exact L. }
  unfold map_err, run_world_m in R. cbn [fst snd] in R.
  match type of R with context [decrypt_execute_at ?E bs i ?d raw (?w, k)] =>
    destruct (decrypt_execute_at E bs i d raw (w, k)) as [o1 [w1 k2]] eqn:Em end.
  apply decrypt_at_post in Em; [|exact OK| |exact L].
  - destruct o1; injection R as <- _ <-; exact Em.
  - intros h aad d' D. destruct hh as [hd|]; cbn [is_some w_hdr w_in opt_dev] in D.
    + exact (IB (h_ino hd) (handle_dev (disk c) hd) h aad d' eq_refl (H2 hd eq_refl) D).
    + exact (IB (h_ino hi) (handle_dev (disk c) hi) h aad d' eq_refl H1 D).
Qed.

Lemma storage_run {A} (m : M sys st_error A) c a c1 : storage m c = (Ok a, c1) ->
  exists s1, m (disk c) = (Ok a, s1) /\ disk c1 = s1.
Proof.
  intros R. unfold storage, on_fs, on_a, on_sys, zoom, map_err in R. unfold disk.
  destruct (m (fst (c_a c))) as [[x|e| |] s1]; try discriminate. injection R as <- <-.
  exists s1. split; reflexivity.
Qed.
Lemma read_entry p c e c1 : storage (read_file p) c = (Ok e, c1) ->
  s_data (disk c1) = s_data (disk c) /\ at_start (Some e).
Proof.
  intros R. apply storage_run in R as (s1 & R & ->).
  destruct (read_file_any _ _ _ _ R) as ((_ & D & _) & _ & X). split; [exact D|].
  destruct X as [[X _]|[(i & plan & X & _)|[X _]]]; [| |discriminate]; injection X as ->; intros h Y;
    [discriminate|]. injection Y as <-. reflexivity.
Qed.
Lemma ends_decrypt_at V bs input output p c : env_ok (ce_E V) -> in_blocks (disk c) ->
  ends_at c p False (OnFailure bs) (decrypt_stream_m V bs input output p).
Proof.
  intros OK IB. unfold decrypt_stream_m. destruct (String.eqb input output); [apply ends_err|].
  apply ends_at_thru. intros [] c1 R1.
  assert (I1 : in_blocks (disk c1)).
  { apply check_or_exit_any in R1 as (E & _). unfold disk. rewrite E. exact IB. }
  apply ends_at_thru. intros fi c2 R2. apply read_entry in R2 as [E2 P2].
  assert (I2 : in_blocks (disk c2)) by exact (in_blocks_data _ _ E2 I1).
  apply ends_at_thru. intros fh c3 R3.
  assert (X3 : in_blocks (disk c3) /\ at_start fh).
  { unfold read_header in R3. destruct (cp_header p) as [h|].
    - apply bind_good in R3 as (e & c4 & R3 & R4). injection R4 as <- <-.
      apply read_entry in R3 as [E3 P3]. split; [exact (in_blocks_data _ _ E3 I2)|exact P3].
    - injection R3 as <- <-. split; [exact I2|]. intros h X. discriminate. }
  destruct X3 as [I3 P3].
  lazymatch goal with |- ends_at _ _ _ _ (bind _ ?f) =>
    lazymatch f with (fun secret => owning_or_exit _ (@?body secret)) =>
      apply (ends_at_secret c3 p False (OnFailure bs) V Direct body) end end.
  { reflexivity. }
  intros raw i c4 k R4 H. cbv beta. cbn [fst snd].
  assert (I4 : in_blocks (disk c4)).
  { apply get_secret_any in R4 as ((_ & D & _) & _). exact (in_blocks_data _ _ D I3). }
  apply stage_at_thru; [intros s'; apply no_exit_storage|]. intros fo c5 R5.
  assert (I5 : in_blocks (disk c5)).
  { apply storage_run in R5 as (s5 & R5 & ->).
    destruct (create_or_write_any _ _ _ _ R5) as [(e & X & _)|(h & _ & _ & _ & D0 & _ & _ & _ & D & _)];
      [discriminate|].
    apply (in_blocks_less (disk c4)); [|exact I4]. intros j.
    destruct (Nat.eq_dec j (h_ino h)) as [->|N]; [right; exact D0|left; exact (D j N)]. }
  apply stage_at_thru; [intros s'; apply no_exit_handle|]. intros hi c6 R6.
  assert (X6 : c6 = c5 /\ fi = EFile hi) by (destruct fi; [injection R6 as -> ->; split; reflexivity|discriminate]).
  destruct X6 as [-> ->].
  apply stage_at_thru; [intros s'; apply no_exit_handle|]. intros ho c7 R7.
  assert (X7 : c7 = c5) by (destruct fo; [injection R7 as _ ->; reflexivity|discriminate]). subst c7.
  apply stage_decrypt_at; [exact OK|exact I5|exact (P2 hi eq_refl)|exact P3|exact H|].
  intros _. apply calm_end3.
Qed.
Lemma decrypt_command_content V bs g c o c' m : env_ok (ce_E V) -> in_blocks (disk c) ->
  run_command_m V bs CmdDecrypt g (c, []) = (o, (c', m)) ->
  o <> Err CKeyfile -> all_wiped m \/ (o <> Ok tt /\ all_but_one_wiped bs m).
Proof.
  intros OK IB R NK. unfold run_command_m in R.
  assert (Z : all_wiped []) by (intros x []).
  apply thru_bind in R as [(p & c1 & H1 & R)|[_ ->]]; [|left; exact Z].
  apply thru_bind in R as [(i & c3 & H3 & R)|[_ ->]]; [|left; exact Z].
  apply thru_bind in R as [(u & c4 & H4 & R)|[_ ->]]; [|left; exact Z].
  destruct (handler_cases V CmdDecrypt g c) as [(p' & n & PO & X & _)|(_ & _ & n & X)];
    [right; left; reflexivity| |congruence].
  rewrite H1 in X. injection X as <- ->.
  assert (D : forall id x ca cb, get_param V id (mkMatches (args_of CmdDecrypt) g) ca = (Ok x, cb) -> cb = ca).
  { intros id x ca cb G. unfold get_param in G. apply bind_good in G as (l & cc & G1 & G2).
    assert (X1 : cc = ca).
    { unfold get_one in G1. destruct (find_arg _ id); [injection G1 as _ ->; reflexivity|].
      destruct (ce_debug V); [discriminate|injection G1 as _ ->; reflexivity]. }
    subst cc. destruct l; [injection G2 as _ ->; reflexivity|discriminate]. }
  apply D in H3, H4. subst c3 c4.
  apply (ends_decrypt_at V bs i u p) in R; [|exact OK|exact IB].
  apply (command_end V _ _ p False _ _ _ _ PO) in R; [|intros []].
  destruct R as [H|[H|[(_ & [X|[X|[]]] & _)|[H _]]]]; [|left; exact H|discriminate|discriminate|congruence].
  destruct (over_settled _ _ _ H) as [F S1].
  destruct (on_failure_spec _ _ _ F S1) as [A|[X A]]; [left; exact A|right].
  split; [|exact A]. intros ->. discriminate.
Qed.
