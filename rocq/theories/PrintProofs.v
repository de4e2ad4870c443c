(** Proofs about what is printed. *)
From Coq Require Import List Arith NArith ZArith String Bool Lia.
From Verif Require Import Bytes Outcome IO IOFacts Primitives Crypto Header KeyModel EncDec Overwrite Hash FS Erase Archive.
From Verif Require Import ToolSpec ToolProofs Cli CliSpec CliKeys CliRuns CliCommands PrintSpec.
Import ListNotations.
Local Open Scope nat_scope.
Local Open Scope list_scope.

(** [m] adds notes in [P], and passphrases at most [k], if it ends well exactly [k]. *)
Definition says {E A} (P : note -> Prop) (k : nat) (m : M cli E A) : Prop := forall c o c', m c = (o, c') ->
  exists ns, c_out c' = c_out c ++ ns /\ Forall P ns /\ phrases ns <= k
    /\ ((exists a, o = Ok a) -> phrases ns = k).

Lemma phrases_app : forall a b, phrases (a ++ b) = phrases a + phrases b.
Proof. intros a b. unfold phrases. rewrite filter_app, app_length. reflexivity. Qed.

Section rules.
Context (P : note -> Prop).

Lemma says_bind : forall {E A B} k1 k2 (m : M cli E A) (f : A -> M cli E B),
  says P k1 m -> (forall a, says P k2 (f a)) -> says P (k1 + k2) (bind m f).
Proof.
  intros E A B k1 k2 m f H1 H2 c o c' H.
  apply bind_inv in H as [(a & c1 & R1 & R)|[(e & R1 & ->)|[(R1 & ->)|(R1 & ->)]]];
    apply H1 in R1 as (n1 & O1 & F1 & K1 & X1).
  2-4: exists n1; do 2 (split; [assumption|]); (split; [lia|]); intros [a X]; discriminate X.
  apply H2 in R as (n2 & O2 & F2 & K2 & X2). specialize (X1 (ex_intro _ a eq_refl)).
  exists (n1 ++ n2). split; [rewrite O2, O1, app_assoc; reflexivity|].
  split; [apply Forall_app; auto|]. rewrite phrases_app. split; [lia|]. intros X. rewrite (X2 X). lia.
Qed.
Lemma says_then : forall {E A B} k (m : M cli E A) (f : A -> M cli E B),
  says P 0 m -> (forall a, says P k (f a)) -> says P k (bind m f).
Proof. intros. change k with (0 + k). apply says_bind; assumption. Qed.

Lemma says_assoc : forall {E A B C} k (m : M cli E A) (f : A -> M cli E B) (g : B -> M cli E C),
  says P k (bind m (fun a => bind (f a) g)) -> says P k (bind (bind m f) g).
Proof. intros E A B C k m f g H c o c' R. rewrite bind_assoc in R. exact (H c o c' R). Qed.

Lemma says_silent : forall {E A} (m : M cli E A),
  (forall c o c', m c = (o, c') -> c_out c' = c_out c) -> says P 0 m.
Proof.
  intros E A m H c o c' R. exists []. rewrite app_nil_r. split; [eapply H; exact R|].
  split; [constructor|]. split; [apply le_n|reflexivity].
Qed.
Lemma says_ret : forall {E A} (a : A), says P 0 (@ret cli E A a).
Proof. intros E A a. apply says_silent. intros c o c' [= _ <-]. reflexivity. Qed.
Lemma says_err : forall {E A} k (e : E), says P k (@err cli E A e).
Proof.
  intros E A k e c o c' [= <- <-]. exists []. rewrite app_nil_r. split; [reflexivity|].
  split; [constructor|]. split; [apply Nat.le_0_l|]. intros [a X]. discriminate X.
Qed.
Lemma says_panic : forall {E A} k, says P k (@panic cli E A).
Proof.
  intros E A k c o c' [= <- <-]. exists []. rewrite app_nil_r. split; [reflexivity|].
  split; [constructor|]. split; [apply Nat.le_0_l|]. intros [a X]. discriminate X.
Qed.
Lemma says_diverge : forall {E A} k, says P k (@diverge cli E A).
Proof.
  intros E A k c o c' [= <- <-]. exists []. rewrite app_nil_r. split; [reflexivity|].
  split; [constructor|]. split; [apply Nat.le_0_l|]. intros [a X]. discriminate X.
Qed.
Lemma says_lift : forall {E A} (x : outcome E A), says P 0 (lift x).
Proof. intros E A x. apply says_silent. intros c o c' [= _ <-]. reflexivity. Qed.
Lemma says_opt : forall {E A} (e : E) (x : option A), says P 0 (lift_opt e x).
Proof. intros E A e [a|]; [apply says_ret|apply says_err]. Qed.
Lemma says_on_a : forall {E A} (m : M asys E A), says P 0 (on_a m).
Proof.
  intros E A m. apply says_silent. intros c o c' R. unfold on_a, zoom in R.
  destruct (m (c_a c)) as [x a]. injection R as _ <-. reflexivity.
Qed.
Lemma says_say : forall n, P n -> is_phrase n = false -> says P 0 (say n).
Proof.
  intros n H K c o c' [= <- <-]. exists [n]. split; [reflexivity|]. split; [auto|].
  unfold phrases. cbn [filter]. rewrite K. split; [apply le_n|reflexivity].
Qed.
Lemma says_each : forall {A B} (f : A -> M cli cli_error B) l, (forall x, In x l -> says P 0 (f x)) -> says P 0 (each f l).
Proof.
  intros A B f l. induction l as [|x l IH]; intros H; cbn [each]; [apply says_ret|].
  apply says_then; [apply H; left; reflexivity|intros y].
  apply says_then; [apply IH; intros z I; apply H; right; exact I|intros ys]. apply says_ret.
Qed.
Lemma says_each_ : forall {A} (f : A -> M cli cli_error unit) l, (forall x, In x l -> says P 0 (f x)) -> says P 0 (each_ f l).
Proof.
  intros A f l. induction l as [|x l IH]; intros H; cbn [each_]; [apply says_ret|].
  apply says_then; [apply H; left; reflexivity|intros y].
  apply IH. intros z I. apply H. right. exact I.
Qed.

(** ** The parts of the commands *)

Context (W : P NWarn).

Lemma says_contains : forall V m id, says P 0 (contains_id V m id).
Proof.
  intros V m id. unfold contains_id. destruct (find_arg m id); [apply says_ret|].
  destruct (ce_debug V); [apply says_panic|apply says_ret].
Qed.
Lemma says_get_one : forall V m id, says P 0 (get_one V m id).
Proof.
  intros V m id. unfold get_one. destruct (find_arg m id); [apply says_ret|].
  destruct (ce_debug V); [apply says_panic|apply says_ret].
Qed.
Lemma says_get_many : forall V m id, says P 0 (get_many V m id).
Proof.
  intros V m id. unfold get_many. destruct (find_arg m id); [apply says_ret|].
  destruct (ce_debug V); [apply says_panic|apply says_ret].
Qed.

Ltac sy := repeat (cbv zeta; match goal with
  | |- says _ _ (bind _ _) => apply says_then; [|intros ?]
  | |- says _ _ (ret _) => apply says_ret
  | |- says _ _ (err _) => apply says_err
  | |- says _ _ panic => apply says_panic
  | |- says _ _ diverge => apply says_diverge
  | |- says _ _ (lift _) => apply says_lift
  | |- says _ _ (lift_opt _ _) => apply says_opt
  | |- says _ _ (contains_id _ _ _) => apply says_contains
  | |- says _ _ (get_one _ _ _) => apply says_get_one
  | |- says _ _ (get_many _ _ _) => apply says_get_many
  | |- says _ _ (say NWarn) => apply says_say; [exact W|reflexivity]
  | |- says _ _ (on_a _) => apply says_on_a
  | |- says _ _ (on_fs _) => apply says_on_a
  | |- says _ _ (storage _) => apply says_on_a
  | |- says _ _ (if ?b then _ else _) => destruct b
  | |- says _ _ (match ?b with _ => _ end) => destruct b
  end).

Lemma says_key_init : forall V m ps d, says P 0 (key_init V m ps d).
Proof. intros. unfold key_init. sy. Qed.
Lemma says_handler : forall V m, says P 0 (parameter_handler V m).
Proof. intros. unfold parameter_handler, forcemode, hashing_algorithm_of. sy. apply says_key_init. Qed.
Lemma says_erase_params : forall V m, says P 0 (erase_params V m).
Proof. intros. unfold erase_params, forcemode. sy. Qed.
Lemma says_pack_params : forall V m, says P 0 (pack_params_of V m).
Proof. intros. unfold pack_params_of, forcemode, hashing_algorithm_of. sy. apply says_key_init. Qed.

Lemma says_prompt : says P 0 prompt_password.
Proof.
  apply says_silent. intros c o c' H. unfold prompt_password in H.
  destruct (c_tty c) as [|[l|] r]; injection H as _ <-; reflexivity.
Qed.
Lemma says_password : forall fuel st, says P 0 (password_loop fuel st).
Proof.
  induction fuel as [|fuel IH]; intros st; cbn [password_loop]; sy; try apply says_prompt. apply IH.
Qed.

(** The secret: of a source other than the generator silent but for warnings. *)
Definition count_of (k : key) : nat := match k with Generate _ => 1 | _ => 0 end.
Lemma says_secret : forall V k st,
  (forall n ws, k = Generate n -> List.length ws = Z.to_nat n -> incl ws (ce_words V) ->
     P (NPhrase (String.concat "-" ws))) ->
  says P (count_of k) (get_secret V k st).
Proof.
  intros V k st H. unfold get_secret. rewrite <- (Nat.add_0_r (count_of k)).
  apply says_bind; [|intros raw; sy].
  destruct k as [path| |n|]; cbn [count_of].
  - sy. apply says_silent. intros c o c' [= _ <-]. reflexivity.
  - sy.
  - intros c o c' R. unfold bind, lift, say in R. assert (G := passphrase_holds (ce_words V) (ce_draw V) n).
    destruct (generate_passphrase (ce_words V) (ce_draw V) n) as [s|e| |]; try contradiction.
    + destruct G as (ws & L & -> & I). injection R as <- <-. exists [NPhrase (String.concat "-" ws)].
      split; [reflexivity|]. split; [|split; [apply le_n|reflexivity]].
      constructor; [|constructor]. apply (H n ws eq_refl L). intros w IW.
      apply In_nth_error in IW as [j J]. apply (I j w J).
    + injection R as <- <-. exists []. rewrite app_nil_r. split; [reflexivity|].
      split; [constructor|]. split; [apply Nat.le_0_l|]. intros [a X]. discriminate X.
  - intros c o c' R. exact (says_password _ _ c o c' R).
Qed.

Lemma says_loop : forall fuel q d, P (NAsk q) -> says P 0 (answer_loop fuel q d).
Proof.
  induction fuel as [|fuel IH]; intros q d Q; cbn [answer_loop].
  - sy.
  - apply says_then; [apply says_say; [exact Q|reflexivity]|intros u].
    apply says_then; [|intros line; sy; apply IH; exact Q].
    apply says_silent. intros c o c' H. destruct (read_line (c_stdin c)) as [x y]. injection H as _ <-. reflexivity.
Qed.
Lemma says_answer : forall q d f, (f = Prompt -> P (NAsk q)) -> says P 0 (get_answer q d f).
Proof.
  intros q d [|] Q; cbn [get_answer]; [apply says_ret|].
  intros c o c' R. exact (says_loop _ _ _ (Q eq_refl) c o c' R).
Qed.
Lemma says_check : forall f m,
  (m = Prompt -> P (NAsk (f ++ " already exists, would you like to overwrite?"))) ->
  says P 0 (check_or_exit f m).
Proof.
  intros f m Q. unfold check_or_exit. apply says_then; [|intros b; sy].
  intros c o c' R. unfold overwrite_check in R. destruct (exists_path _ _).
  - exact (says_answer _ _ _ Q c o c' R).
  - injection R as <- <-. exists []. rewrite app_nil_r. split; [reflexivity|].
    split; [constructor|]. split; [apply le_n|reflexivity].
Qed.

Definition erase_question : string := "This is a directory, would you like to erase all files within it?".
Lemma says_erase : forall V input passes f, (f = Prompt -> P (NAsk erase_question)) ->
  says P 0 (secure_erase V input passes f).
Proof. intros V input passes f Q. unfold secure_erase. sy. apply says_answer. exact Q. Qed.

Lemma hash_file_hash : forall V p s h s', hash_file V p s = (Ok h, s') ->
  exists l, h = hex_encode (ce_blake3 V l).
Proof.
  intros V p s h s' H. unfold hash_file in H.
  unfold call_or in H. destruct (next_fault s) as [ft s0]. destruct ft; [discriminate|].
  destruct (stat s0 p) as [[|i|]|]; try discriminate.
  destruct (next_plan s0) as [plan s1].
  destruct (hash_execute (Blake3Hasher (ce_blake3 V)) [] (mkDev (s_data s0 i) 0 plan [])) as [o d] eqn:X.
  destruct o as [x|e| |]; try discriminate. injection H as <- _.
  destruct (hash_short_holds (Blake3Hasher (ce_blake3 V)) [] _ _ _ (blake3_incremental _) X) as (_ & _ & _ & _ & Z).
  destruct (Z x eq_refl) as (k & -> & _). eexists. reflexivity.
Qed.
Lemma says_hash_files : forall V fs, (forall f l, In f fs -> P (NHash f (hex_encode (ce_blake3 V l)))) ->
  says P 0 (hash_files V fs).
Proof.
  intros V fs. induction fs as [|f fs IH]; intros H; cbn [hash_files]; [sy|].
  intros c o c' R. apply bind_inv in R as [(h & c1 & R1 & R)|[(e & R1 & ->)|[(R1 & ->)|(R1 & ->)]]].
  2-4: destruct (says_on_a _ c _ c1 R1) as (ns & O & F & K & _) || destruct (says_on_a _ c _ c' R1) as (ns & O & F & K & _);
       exists ns; do 3 (split; [assumption|]); intros [a X]; discriminate X.
  assert (O1 : c_out c1 = c_out c /\ exists l, h = hex_encode (ce_blake3 V l)).
  { unfold on_fs, on_a, on_sys, zoom in R1. destruct (hash_file V (os_path f) (fst (c_a c))) as [x s] eqn:HF.
    injection R1 as -> <-. split; [reflexivity|]. eapply hash_file_hash. exact HF. }
  destruct O1 as [O1 [l ->]]. rewrite <- O1.
  revert R. apply says_then.
  - apply says_say; [apply H; left; reflexivity|reflexivity].
  - intros u. apply IH. intros f' l' I. apply H. right. exact I.
Qed.

Lemma says_open_header : forall p,
  (forall f, cp_header p = Some f -> cp_force p = Prompt ->
     P (NAsk (f ++ " already exists, would you like to overwrite?"))) ->
  says P 0 (open_header p).
Proof.
  intros p H. unfold open_header. destruct (cp_header p) as [f|]; [|sy].
  apply says_then; [apply says_check; exact (H f eq_refl)|intros u]. sy.
Qed.

Lemma says_encrypt : forall V input output p a,
  (forall n ws, cp_key p = Generate n -> List.length ws = Z.to_nat n -> incl ws (ce_words V) ->
     P (NPhrase (String.concat "-" ws))) ->
  (cp_force p = Prompt -> P (NAsk (output ++ " already exists, would you like to overwrite?"))) ->
  (forall f, cp_header p = Some f -> cp_force p = Prompt ->
     P (NAsk (f ++ " already exists, would you like to overwrite?"))) ->
  (cp_hash p = true -> forall l, P (NHash output (hex_encode (ce_blake3 V l)))) ->
  (cp_force p = Prompt -> P (NAsk erase_question)) ->
  says P (count_of (cp_key p)) (encrypt_stream V input output p a).
Proof.
  intros V input output p a HP HO HH HX HE. unfold encrypt_stream.
  destruct (String.eqb input output); [apply says_err|].
  apply says_then; [apply says_check; exact HO|intros u].
  apply says_then; [sy|intros fi].
  rewrite <- (Nat.add_0_r (count_of (cp_key p))). apply says_bind; [apply says_secret; exact HP|intros raw].
  apply says_then; [sy|intros fo].
  apply says_then; [apply says_open_header; exact HH|intros fh].
  unfold try_handle, flush_opt.
  apply says_then; [sy|intros hi]. apply says_then; [sy|intros ho].
  apply says_then; [sy|intros u1]. apply says_then; [sy|intros u2]. apply says_then; [sy|intros u3].
  apply says_then; [|intros u4].
  - destruct (cp_hash p); [|sy]. apply says_hash_files. intros f l [<-|[]]. apply HX. reflexivity.
  - destruct (cp_erase p); [|sy]. apply says_erase. exact HE.
Qed.
Lemma says_decrypt : forall V input output p,
  (forall n ws, cp_key p = Generate n -> List.length ws = Z.to_nat n -> incl ws (ce_words V) ->
     P (NPhrase (String.concat "-" ws))) ->
  (cp_force p = Prompt -> P (NAsk (output ++ " already exists, would you like to overwrite?"))) ->
  (cp_hash p = true -> forall l, P (NHash input (hex_encode (ce_blake3 V l)))) ->
  (cp_force p = Prompt -> P (NAsk erase_question)) ->
  says P (count_of (cp_key p)) (decrypt_stream V input output p).
Proof.
  intros V input output p HP HO HX HE. unfold decrypt_stream.
  destruct (String.eqb input output); [apply says_err|].
  apply says_then; [apply says_check; exact HO|intros u].
  apply says_then; [sy|intros fi]. apply says_then; [unfold read_header; sy|intros fh].
  rewrite <- (Nat.add_0_r (count_of (cp_key p))). apply says_bind; [apply says_secret; exact HP|intros raw].
  unfold try_handle.
  apply says_then; [sy|intros fo]. apply says_then; [sy|intros hi]. apply says_then; [sy|intros ho].
  apply says_then; [sy|intros u1]. apply says_then; [sy|intros u2].
  apply says_then; [|intros u4].
  - destruct (cp_hash p); [|sy]. apply says_hash_files. intros f l [<-|[]]. apply HX. reflexivity.
  - destruct (cp_erase p); [|sy]. apply says_erase. exact HE.
Qed.
Lemma says_pack : forall V inputs output p pp a,
  (forall n ws, cp_key p = Generate n -> List.length ws = Z.to_nat n -> incl ws (ce_words V) ->
     P (NPhrase (String.concat "-" ws))) ->
  (cp_force p = Prompt -> P (NAsk (output ++ " already exists, would you like to overwrite?"))) ->
  (forall f, cp_header p = Some f -> cp_force p = Prompt ->
     P (NAsk (f ++ " already exists, would you like to overwrite?"))) ->
  (cp_hash p = true -> forall l, P (NHash output (hex_encode (ce_blake3 V l)))) ->
  (pp_erase pp = true -> cp_force p = Prompt -> P (NAsk erase_question)) ->
  says P (count_of (cp_key p)) (pack_cli V inputs output p pp a).
Proof.
  intros V inputs output p pp a HP HO HH HX HE. unfold pack_cli.
  destruct (existsb _ inputs); [apply says_err|].
  apply says_then; [|intros u0].
  { apply says_silent. intros c o c' R. destruct (existsb _ inputs); injection R as _ <-; reflexivity. }
  apply says_then; [apply says_check; exact HO|intros u].
  apply says_then; [apply says_each; intros x _; sy|intros files].
  rewrite <- (Nat.add_0_r (count_of (cp_key p))). apply says_bind; [apply says_secret; exact HP|intros raw].
  apply says_then; [sy|intros fo].
  apply says_then; [apply says_open_header; exact HH|intros fh].
  apply says_then; [apply says_each; intros x _; sy|intros lists].
  unfold try_handle, flush_opt.
  apply says_then; [sy|intros ho].
  apply says_then; [sy|intros u1]. apply says_then; [sy|intros u2]. apply says_then; [sy|intros u3].
  apply says_then; [|intros u4].
  - destruct (cp_hash p); [|sy]. apply says_hash_files. intros f l [<-|[]]. apply HX. reflexivity.
  - destruct (pp_erase pp) eqn:PE; [|sy]. apply says_each_. intros x _. apply says_erase. exact (HE eq_refl).
Qed.

End rules.

(** ** Commands *)

(** After a silent beginning. *)
Lemma after_first : forall {A} P k (m : M cli cli_error A) n c o c',
  says P k m -> Forall P n -> phrases n = 0 -> m (printed n c) = (o, c') ->
  exists ns, c_out c' = c_out c ++ ns /\ Forall P ns /\ phrases ns <= k
    /\ ((exists a, o = Ok a) -> phrases ns = k).
Proof.
  intros A P k m n c o c' H F Z R. apply H in R as (ns & O & F2 & K & X).
  exists (n ++ ns). rewrite phrases_app, Z. split; [rewrite O; cbn [c_out printed]; symmetry; apply app_assoc|].
  split; [apply Forall_app; auto|]. split; assumption.
Qed.
Lemma first_notes : forall {A} P (m : M cli cli_error A) c o n, says P 0 m -> m c = (o, printed n c) ->
  Forall P n /\ phrases n = 0.
Proof.
  intros A P m c o n H R. apply H in R as (ns & O & F & K & _). cbn [c_out printed] in O.
  apply app_inv_head in O. subst ns. split; [exact F|lia].
Qed.

Lemma ok_given : forall cmd g id a, matches_ok (mkMatches (args_of cmd) g) ->
  In a (args_of cmd) -> a_id a = id -> a_required a = true -> exists v, given g id v.
Proof.
  intros cmd g id a OK I <- R. destruct OK as [_ OK]. destruct (OK a I) as [X _]. specialize (X R).
  cbn [m_given] in X. destruct (g (a_id a)) as [|v r] eqn:G; [contradiction|]. exists v, r. exact G.
Qed.

Definition wanted (V : cenv) (cmd : command) (g : string -> list string) (k : nat) : Prop :=
  match cmd with
  | CmdEncrypt | CmdPack => exists key, key_source V cmd g key /\ k = count_of key
  | _ => k = 0
  end.

Lemma not_generate : forall V g k, key_source V CmdDecrypt g k -> count_of k = 0.
Proof.
  intros V g k H. inversion H; try reflexivity;
    match goal with I : In CmdDecrypt _ |- _ => destruct I as [X|[X|[]]]; discriminate end.
Qed.

Lemma force_prompt : forall V cmd g p, params_of V cmd g p -> cp_force p = Prompt -> not_given g "force".
Proof.
  intros V cmd g p PO F. unfold not_given. destruct (g "force"%string) as [|v r] eqn:G; [reflexivity|].
  assert (X : cp_force p = Force) by (apply (po_force _ _ _ _ PO); rewrite G; discriminate). congruence.
Qed.
Lemma header_given : forall V cmd g p f, params_of V cmd g p -> cp_header p = Some f -> given g "header" f.
Proof.
  intros V cmd g p f PO H. rewrite (po_header _ _ _ _ PO) in H. unfold given.
  destruct (g "header"%string) as [|v r]; [discriminate|]. injection H as ->. exists r. reflexivity.
Qed.

Lemma prints : forall V cmd g c o c', matches_ok (mkMatches (args_of cmd) g) ->
  run_command V cmd g c = (o, c') ->
  exists ns k, c_out c' = c_out c ++ ns /\ Forall (may_print V cmd g) ns /\ wanted V cmd g k
    /\ phrases ns <= k /\ ((exists a, o = Ok a) -> phrases ns = k).
Proof.
  intros V cmd g c o c' OK R.
  assert (WN : may_print V cmd g NWarn) by constructor.
  destruct cmd.
  - (* encrypt *)
    destruct (ok_given CmdEncrypt g "input" (required "input") OK) as [input GI]; [cbn; auto 20|reflexivity|reflexivity|].
    destruct (ok_given CmdEncrypt g "output" (required "output") OK) as [output GO]; [cbn; auto 20|reflexivity|reflexivity|].
    cbn [run_command] in R. unfold encrypt_cmd in R.
    destruct (handler_cases V CmdEncrypt g c) as [(p & n & PO & H & _)|(_ & NE & _)];
      [left; reflexivity| |congruence].
    rewrite (bind_ok _ _ _ _ _ H) in R.
    destruct (first_notes _ _ _ _ _ (says_handler _ WN V _) H) as [F Z].
    revert R. unfold algorithm_of. rewrite bind_assoc. erewrite bind_ok by (apply contains_optional; reflexivity).
    erewrite bind_ok by reflexivity.
    erewrite bind_ok by (apply (get_param_run V CmdEncrypt g "input" input); [reflexivity|exact GI]).
    erewrite bind_ok by (apply (get_param_run V CmdEncrypt g "output" output); [reflexivity|exact GO]).
    intros R.
    edestruct (@after_first unit (may_print V CmdEncrypt g) (count_of (cp_key p))) as (ns & O & F2 & K & X);
      [|exact F|exact Z|exact R|].
    + assert (FP := force_prompt _ _ _ _ PO). apply says_encrypt; [exact WN|..].
      * intros m ws E. apply mp_phrase with (n := m). rewrite <- E. apply (po_key _ _ _ _ PO).
      * intros E. apply mp_output; [cbn; auto|apply FP, E|exact GO].
      * intros f HF E. apply mp_header; [cbn; auto|apply FP, E|eapply header_given; eassumption].
      * intros E l. apply mp_hash. split; [apply (po_hash _ _ _ _ PO); exact E|exact GO].
      * intros E. apply mp_directory; [cbn; auto|discriminate|apply FP, E].
    + exists ns, (count_of (cp_key p)). do 2 (split; [assumption|]).
      split; [exists (cp_key p); split; [apply (po_key _ _ _ _ PO)|reflexivity]|]. split; assumption.
  - (* decrypt *)
    destruct (ok_given CmdDecrypt g "input" (required "input") OK) as [input GI]; [cbn; auto 20|reflexivity|reflexivity|].
    destruct (ok_given CmdDecrypt g "output" (required "output") OK) as [output GO]; [cbn; auto 20|reflexivity|reflexivity|].
    cbn [run_command] in R. unfold decrypt_cmd in R.
    destruct (handler_cases V CmdDecrypt g c) as [(p & n & PO & H & _)|(_ & _ & n & H)];
      [right; left; reflexivity| |].
    2:{ destruct (first_notes _ _ _ _ _ (says_handler _ WN V _) H) as [F Z].
        rewrite (bind_panic _ _ _ _ H) in R. injection R as <- <-. exists n, 0. split; [reflexivity|].
        split; [exact F|]. split; [reflexivity|]. split; [lia|]. intros _. exact Z. }
    rewrite (bind_ok _ _ _ _ _ H) in R.
    destruct (first_notes _ _ _ _ _ (says_handler _ WN V _) H) as [F Z]. revert R.
    erewrite bind_ok by (apply (get_param_run V CmdDecrypt g "input" input); [reflexivity|exact GI]).
    erewrite bind_ok by (apply (get_param_run V CmdDecrypt g "output" output); [reflexivity|exact GO]).
    intros R.
    edestruct (@after_first unit (may_print V CmdDecrypt g) (count_of (cp_key p))) as (ns & O & F2 & K & X);
      [|exact F|exact Z|exact R|].
    + assert (FP := force_prompt _ _ _ _ PO). apply says_decrypt; [exact WN|..].
      * intros m ws E. apply mp_phrase with (n := m). rewrite <- E. apply (po_key _ _ _ _ PO).
      * intros E. apply mp_output; [cbn; auto|apply FP, E|exact GO].
      * intros E l. apply mp_hash. split; [apply (po_hash _ _ _ _ PO); exact E|exact GI].
      * intros E. apply mp_directory; [cbn; auto|discriminate|apply FP, E].
    + exists ns, (count_of (cp_key p)). do 2 (split; [assumption|]).
      split; [apply (not_generate V g), (po_key _ _ _ _ PO)|]. split; assumption.
  - (* erase *)
    cbn [run_command] in R. unfold erase_cmd in R.
    destruct (ok_given CmdErase g "input" (required "input") OK) as [input GI]; [cbn; auto 20|reflexivity|reflexivity|].
    assert (S : says (may_print V CmdErase g) 0 (erase_cmd V (mkMatches (args_of CmdErase) g))).
    2:{ apply S in R as (ns & O & F & K & X). exists ns, 0. do 2 (split; [assumption|]).
        split; [reflexivity|]. split; assumption. }
    unfold erase_cmd, erase_params. apply says_assoc, says_then.
    { apply says_contains. }
    intros b. apply says_assoc, says_then.
    { destruct b; [|apply says_then; [apply says_say; [exact WN|reflexivity]|intros; apply says_ret]].
      apply says_then; [apply says_get_one|intros v]. apply says_then; [apply says_opt|intros s].
      destruct (parse_i32 s); [apply says_ret|].
      apply says_then; [apply says_say; [exact WN|reflexivity]|intros; apply says_ret]. }
    intros z. apply says_assoc. intros c0 o0 c0'. erewrite bind_ok by (apply forcemode_run; reflexivity).
    erewrite bind_ok by reflexivity. revert c0 o0 c0'.
    change (says (may_print V CmdErase g) 0 (bind (get_param V "input" (mkMatches (args_of CmdErase) g))
      (fun i => secure_erase V i z (match g "force"%string with [] => Prompt | _ => Force end)))).
    apply says_then.
    { apply says_then; [apply says_get_one|intros v; apply says_opt]. }
    intros i. apply says_erase; [exact WN|]. intros E. apply mp_directory; [cbn; auto|discriminate|].
    unfold not_given. destruct (g "force"%string); [reflexivity|discriminate E].
  - (* hash *)
    cbn [run_command] in R. unfold hash_cmd in R.
    assert (GM : get_many V (mkMatches (args_of CmdHash) g) "input" c
      = (Ok (match g "input"%string with [] => None | l => Some l end), c)) by reflexivity.
    rewrite (bind_ok _ _ _ _ _ GM) in R.
    apply (says_hash_files (may_print V CmdHash g)) in R as (ns & O & F & K & X).
    + exists ns, 0. do 2 (split; [assumption|]). split; [reflexivity|]. split; assumption.
    + intros f l I. apply mp_hash. cbn [hash_shown]. destruct (g "input"%string); [destruct I|exact I].
  - (* pack *)
    destruct (ok_given CmdPack g "output" (required "output") OK) as [output GO]; [cbn; auto 20|reflexivity|reflexivity|].
    cbn [run_command] in R. unfold pack_cmd in R.
    destruct (pack_handler_cases V g c) as (p & pp & n & H & PO & PE & PC).
    rewrite (bind_ok _ _ _ _ _ H) in R.
    destruct (first_notes _ _ _ _ _ (says_pack_params _ WN V _) H) as [F Z].
    revert R. unfold algorithm_of. rewrite bind_assoc. erewrite bind_ok by (apply contains_optional; reflexivity).
    erewrite bind_ok by reflexivity. cbn [fst snd]. intros R.
    assert (FP := force_prompt _ _ _ _ PO).
    edestruct (@after_first unit (may_print V CmdPack g) (count_of (cp_key p))) as (ns & O & F2 & K & X);
      [|exact F|exact Z|exact R|].
    + apply says_then.
      { apply says_then; [apply says_get_many|intros v; apply says_opt]. }
      intros inputs c0 o0 c0'.
      erewrite bind_ok by (apply (get_param_run V CmdPack g "output" output); [reflexivity|exact GO]).
      revert c0 o0 c0'. apply says_pack; [exact WN|..].
      * intros m ws E. apply mp_phrase with (n := m). rewrite <- E. apply (po_key _ _ _ _ PO).
      * intros E. apply mp_output; [cbn; auto|apply FP, E|exact GO].
      * intros f HF E. apply mp_header; [cbn; auto|apply FP, E|eapply header_given; eassumption].
      * intros E l. apply mp_hash. split; [apply (po_hash _ _ _ _ PO); exact E|exact GO].
      * intros PX E. apply mp_directory; [cbn; auto|intros _; apply PE; exact PX|apply FP, E].
    + exists ns, (count_of (cp_key p)). do 2 (split; [assumption|]).
      split; [exists (cp_key p); split; [apply (po_key _ _ _ _ PO)|reflexivity]|]. split; assumption.
  - (* unpack *)
    cbn [run_command] in R. unfold unpack_cmd in R.
    assert (S : says (may_print V CmdUnpack g) 0 (unpack_cmd V (mkMatches (args_of CmdUnpack) g))).
    { unfold unpack_cmd. apply says_then; [apply says_handler; exact WN|intros p].
      apply says_then; [apply says_panic|intros v; apply says_panic]. }
    apply S in R as (ns & O & F & K & X). exists ns, 0. do 2 (split; [assumption|]).
    split; [reflexivity|]. split; assumption.
Qed.

(** ** Results *)

Lemma only_allowed : forall V cmd g c o c', matches_ok (mkMatches (args_of cmd) g) ->
  run_command V cmd g c = (o, c') ->
  exists ns, printed_between c c' ns /\ Forall (may_print V cmd g) ns.
Proof.
  intros V cmd g c o c' OK R. destruct (prints V cmd g c o c' OK R) as (ns & k & O & F & _).
  exists ns. split; assumption.
Qed.

Lemma source_one : forall V cmd g a b, key_source V cmd g a -> key_source V cmd g b -> count_of a = count_of b.
Proof.
  intros V cmd g a b HA HB. inversion HA; inversion HB; subst; try reflexivity; exfalso;
    unfold given, not_given in *;
    repeat match goal with H : exists _, _ |- _ => destruct H end; try congruence;
    repeat match goal with H : In _ [_; _] |- _ => destruct H as [H|[H|[]]] end; congruence.
Qed.

Lemma phrase_once : forall V cmd g c o c' ns, matches_ok (mkMatches (args_of cmd) g) ->
  run_command V cmd g c = (o, c') -> printed_between c c' ns ->
  phrases ns <= 1
  /\ (o = Ok tt -> (phrases ns = 1 <-> exists n, key_source V cmd g (Generate n) /\ In cmd [CmdEncrypt; CmdPack])).
Proof.
  intros V cmd g c o c' ns OK R PB. destruct (prints V cmd g c o c' OK R) as (ns' & k & O & F & W & K & X).
  assert (ns' = ns) by (unfold printed_between in PB; rewrite PB in O; apply app_inv_head in O; auto). subst ns'.
  assert (K1 : k <= 1).
  { unfold wanted in W. destruct cmd; try (subst k; lia); destruct W as (key & _ & ->); destruct key; cbn; lia. }
  split; [lia|]. intros ->. rewrite (X (ex_intro _ tt eq_refl)). clear X. split.
  - intros ->. unfold wanted in W. destruct cmd; try discriminate W;
      destruct W as (key & KS & E); destruct key as [| |n|]; try discriminate E; exists n; (split; [exact KS|cbn; auto]).
  - intros (n & KS & I). destruct I as [<-|[<-|[]]]; cbn [wanted] in W;
      destruct W as (key & KS2 & ->); exact (source_one _ _ _ _ _ KS2 KS).
Qed.
