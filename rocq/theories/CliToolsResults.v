(** The results about the functions behind the subcommands [header] and [key], in
    the form of the properties. *)
From Coq Require Import List Arith NArith ZArith Ascii String Bool Lia.
From Verif Require Import Bytes Outcome IO Primitives Crypto Header Stream KeyModel EncDec KeyOps HeaderOps.
From Verif Require Import Overwrite Hash FS Erase Archive Cli CliTools.
From Verif Require Import HeaderSpec IOSpec KeySpec FSSpec ArchiveSpec ToolSpec ToolProofs CliSpec CliToolsSpec.
From Verif Require Import BytesFacts FSFacts CliRuns CliToolsRuns CliToolsHeader CliToolsProofs.
Import ListNotations.
Local Open Scope nat_scope.
Local Open Scope list_scope.

(** ** Details *)

Lemma details_safe : forall input c o c', details input c = (o, c') ->
  regular o /\ unchanged (disk c) (disk c') /\ asks_nothing c c'
  /\ (o <> Ok tt -> c_out c' = c_out c)
  /\ (no_faults (disk c) -> forall i, stat (disk c) (os_path input) = Some (NFile i) ->
        (o = Ok tt <-> exists h aad, header_is (s_data (disk c) i) h aad)).
Proof.
  intros input c o c' H. destruct (details_any _ _ _ _ H) as (U & A & D).
  split; [destruct D as [(e & -> & _)|(-> & _)]; split; discriminate|].
  split; [exact U|]. split; [exact A|].
  split; [intros N; destruct D as [(e & -> & X & _)|(-> & _)]; [exact X|contradiction]|].
  intros NF i ST. split.
  - intros ->. destruct D as [(e & X & _)|(_ & i' & plan & h & aad & d' & ls & ST' & DS & P & _)]; [discriminate|].
    rewrite ST in ST'. injection ST' as <-. rewrite (P NF) in DS. exists h, aad, d'. exact DS.
  - intros (h & aad & d' & DS). destruct D as [(e & -> & _ & X)|(-> & _)]; [|reflexivity].
    destruct (X NF i ST) as (e' & d2 & Y). unfold dev_at in *. congruence.
Qed.

Lemma map_line_inj : forall l m, map NLine l = map NLine m -> l = m.
Proof.
  induction l as [|x l IH]; intros [|y m] H; cbn in H; try discriminate; [reflexivity|].
  injection H as -> H. f_equal. apply IH, H.
Qed.

Lemma details_tell : forall input c c' input2 c2 c2' i j,
  no_faults (disk c) -> no_faults (disk c2) ->
  stat (disk c) (os_path input) = Some (NFile i) -> stat (disk c2) (os_path input2) = Some (NFile j) ->
  details input c = (Ok tt, c') -> details input2 c2 = (Ok tt, c2') ->
  forall l, c_out c' = c_out c ++ l -> c_out c2' = c_out c2 ++ l ->
  exists h aad, header_is (s_data (disk c) i) h aad /\ header_is (s_data (disk c2) j) h aad.
Proof.
  intros input c c' input2 c2 c2' i j N1 N2 S1 S2 D1 D2 l O1 O2.
  destruct (details_any _ _ _ _ D1) as (_ & _ & [(e & X & _)|(_ & i' & plan & h & aad & d' & ls & ST & DS & P & L & O)]); [discriminate|].
  destruct (details_any _ _ _ _ D2) as (_ & _ & [(e & X & _)|(_ & j' & plan2 & h2 & aad2 & d2' & ls2 & ST2 & DS2 & P2 & L2 & OO)]); [discriminate|].
  rewrite S1 in ST. injection ST as <-. rewrite S2 in ST2. injection ST2 as <-.
  rewrite (P N1) in DS. rewrite (P2 N2) in DS2.
  rewrite O in O1. apply app_inv_head in O1. rewrite OO in O2. apply app_inv_head in O2.
  assert (ls2 = ls) by (apply map_line_inj; congruence). subst ls2.
  destruct (detail_lines_inj _ _ _ _ _ _ _ _ _ DS DS2 L L2) as (<- & <-).
  exists h, aad. split; [exists d'; exact DS|exists d2'; exact DS2].
Qed.

Lemma in_names : forall h, known_hash h -> In (h, show_hashing h) hashing_names.
Proof.
  intros h K. unfold known_hash in K. cbn [In] in K.
  repeat (destruct K as [<-|K]); try contradiction; vm_compute; auto 6.
Qed.

Lemma slots_told : forall l i names, Forall (fun k => known_hash (ks_hash k)) l ->
  List.length l <= List.length names ->
  (forall j n, nth_error names j = Some n -> n = show_number (Z.of_nat (i + j))) ->
  exists parts, Forall2 (fun ik p => told_slot (fst ik) (snd ik) p) (combine names l) parts
    /\ List.length parts = List.length l /\ slots_lines i l = List.concat parts.
Proof.
  induction l as [|k l IH]; intros i names F L N.
  - exists []. destruct names; (split; [constructor|split; reflexivity]).
  - destruct names as [|n names]; [cbn in L; lia|]. inversion F as [|? ? FK FL]; subst.
    destruct (IH (S i) names FL) as (parts & F2 & LP & SL).
    { cbn in L. lia. }
    { intros j m E. rewrite (N (S j) m E). f_equal. f_equal. lia. }
    exists (slot_lines i k :: parts). split; [|split].
    + cbn [combine]. constructor; [|exact F2]. cbn [fst snd].
      exists (show_hashing (ks_hash k)), (hex_encode (ks_salt k)), (hex_encode (ks_enc k)), (hex_encode (ks_nonce k)).
      split; [apply in_names, FK|]. do 3 (split; [apply hex_decode_encode|]).
      rewrite (N 0 n eq_refl), Nat.add_0_r. reflexivity.
    + cbn. f_equal. exact LP.
    + cbn [slots_lines List.concat]. f_equal. exact SL.
Qed.

Lemma lines_told : forall d h aad d' ls, deserialize d = (Ok (h, aad), d') ->
  detail_lines h aad = Some ls -> told h aad ls.
Proof.
  intros d h aad d' ls D L. apply parsed_shape in D. unfold detail_lines in L. cbv zeta in L.
  assert (X : forall keys, told_keys h keys ->
            told h aad (["Header version: " ++ show_version (ht_version (h_type h));
     "Encryption algorithm: " ++ show_algorithm (ht_algorithm (h_type h));
     "Encryption mode: " ++ show_mode (ht_mode (h_type h));
     "Encryption nonce: " ++ hex_encode (h_nonce h) ++ " (hex)";
     "AAD: " ++ hex_encode aad ++ " (hex)"]%string ++ keys)).
  { intros keys K. do 5 eexists. exists keys. unfold version_of, in_hex.
    split; [|split; [|split; [|split; [apply hex_decode_encode|split; [apply hex_decode_encode|split; [exact K|reflexivity]]]]]].
    - destruct (ht_version (h_type h)); vm_compute; auto 6.
    - destruct (ht_algorithm (h_type h)); vm_compute; auto 6.
    - destruct (ht_mode (h_type h)); vm_compute; auto 6. }
  assert (OLD : forall i salt, h_keyslots h = None -> h_salt h = Some salt ->
            In (version_of h, Argon2id i) old_hashing ->
            told_keys h ["Salt: " ++ hex_encode salt ++ " (hex)";
                         "Hashing Algorithm: " ++ show_hashing (Argon2id i)]%string).
  { intros i salt NK SA IN. unfold told_keys. rewrite NK.
    exists (Argon2id i), (show_hashing (Argon2id i)), (hex_encode salt), salt. split; [exact IN|].
    split; [|split; [exact SA|split; [apply hex_decode_encode|reflexivity]]].
    apply in_names. unfold old_hashing in IN. cbn [In] in IN.
    repeat (destruct IN as [IN|IN]; [injection IN as _ <-; vm_compute; auto 6|]). contradiction. }
  unfold version_of in *. destruct (ht_version (h_type h)) eqn:EV.
  1,2,3: destruct D as (NK & s & ES); rewrite ES in L; apply some_inv in L; subst ls; apply X;
    apply (OLD _ _ NK ES); vm_compute; auto 6.
  - destruct D as (k & ES & _ & KH). rewrite ES in L. apply some_inv in L. subst ls. apply X. unfold told_keys. rewrite ES.
    split; [left; split; [exact EV|reflexivity]|].
    apply (slots_told [k] 0 ["0"; "1"; "2"; "3"]%string); [constructor; [exact KH|constructor]|cbn; lia|].
    intros [|[|[|[|j]]]] n E; try (injection E as <-; reflexivity). destruct j; discriminate.
  - destruct D as (_ & l & ES & F & LL). rewrite ES in L. apply some_inv in L. subst ls. apply X. unfold told_keys. rewrite ES.
    split; [right; exact EV|].
    apply (slots_told l 0 ["0"; "1"; "2"; "3"]%string); [exact F|exact LL|].
    intros [|[|[|[|j]]]] n E; try (injection E as <-; reflexivity). destruct j; discriminate.
Qed.

Lemma details_text : forall input c c' i, no_faults (disk c) ->
  stat (disk c) (os_path input) = Some (NFile i) -> details input c = (Ok tt, c') ->
  exists h aad ls, header_is (s_data (disk c) i) h aad /\ told h aad ls /\ c_out c' = c_out c ++ map NLine ls.
Proof.
  intros input c c' i N S D.
  destruct (details_any _ _ _ _ D) as (_ & _ & [(e & X & _)|(_ & i' & plan & h & aad & d' & ls & ST & DS & P & L & O)]); [discriminate|].
  rewrite S in ST. injection ST as <-. rewrite (P N) in DS.
  exists h, aad, ls. split; [exists d'; exact DS|]. split; [exact (lines_told _ _ _ _ _ DS L)|exact O].
Qed.

(** ** Dumping *)

Lemma dump_safe : forall input output force c o c', inodes_ok (disk c) ->
  dump input output force c = (o, c') ->
  regular o /\ only_writes (disk c) [os_path output] (disk c')
  /\ (o = Ok tt -> dumped_header (disk c) (disk c') input output)
  /\ (no_faults (disk c) -> forall i h aad, stat (disk c) (os_path input) = Some (NFile i) ->
        header_is (s_data (disk c) i) h aad -> ~ In (version_of h) [V1; V2] ->
        stat (disk c) (os_path output) <> Some (NFile i) ->
        writable (disk c) (os_path output) force -> o = Ok tt)
  /\ (forall ls, force = Prompt -> exists_path (disk c) (os_path output) = true ->
        lines (c_stdin c) ls -> (forall n r, ~ dialogue true ls (Some true) n r) ->
        o <> Ok tt /\ unchanged (disk c) (disk c')).
Proof.
  intros input output force c o c' IO H. destruct (dump_path _ _ _ _ _ _ IO H) as (A & _ & B & _ & C & D & _ & E).
  auto 10.
Qed.

(** ** Stripping and restoring *)

Lemma strip_safe : forall input c o c', strip input c = (o, c') ->
  regular o /\ asks_nothing c c'
  /\ ((o <> Ok tt /\ unchanged (disk c) (disk c'))
      \/ exists i n, stat (disk c) (os_path input) = Some (NFile i) /\ In n [64; 128; 416]
           /\ only_header i n (disk c) (disk c'))
  /\ (no_faults (disk c) -> forall i, stat (disk c) (os_path input) = Some (NFile i) ->
        (forall h aad, header_is (s_data (disk c) i) h aad ->
           o = Ok tt /\ let n := get_size (version_of h) in
             s_data (disk c') i = zeros n ++ skipn n (s_data (disk c) i))
        /\ ((forall h aad, ~ header_is (s_data (disk c) i) h aad) ->
            o <> Ok tt /\ unchanged (disk c) (disk c'))).
Proof.
  intros input c o c' H. destruct (strip_path _ _ _ _ H) as (R & A & _ & _ & D & F).
  split; [exact R|]. split; [exact A|]. split.
  - destruct D as [D|(i & plan & h & aad & d' & ST & P & DS & OH & _)]; [left; exact D|right].
    exists i, (get_size (version_of h)). split; [exact ST|]. split; [|exact OH].
    destruct (version_of h); cbn; auto.
  - intros NF i ST. split.
    + intros h aad (d' & DS). pose proof (F NF i h aad d' ST DS) as OK. split; [exact OK|].
      destruct D as [(X & _)|(i' & plan & h' & aad' & d2 & ST' & P & DS' & _ & W)]; [contradiction|].
      rewrite ST in ST'. injection ST' as <-. rewrite (P NF) in DS'. unfold dev_at in DS.
      rewrite DS in DS'. injection DS' as <- <- _. exact (W OK).
    + intros N. destruct D as [D|(i' & plan & h & aad & d' & ST' & P & DS & _)]; [exact D|].
      exfalso. rewrite ST in ST'. injection ST' as <-. rewrite (P NF) in DS. apply (N h aad). exists d'. exact DS.
Qed.

Lemma restore_safe : forall input output c o c', restore input output c = (o, c') ->
  regular o /\ asks_nothing c c'
  /\ (o <> Ok tt -> unchanged (disk c) (disk c'))
  /\ (o = Ok tt -> exists j, stat (disk c) (os_path output) = Some (NFile j)
        /\ only_file j 416 (disk c) (disk c'))
  /\ (no_faults (disk c) ->
      (o = Ok tt -> exists i j h aad b,
         stat (disk c) (os_path input) = Some (NFile i) /\ stat (disk c) (os_path output) = Some (NFile j)
         /\ header_is (s_data (disk c) i) h aad /\ serialize h = Ok b
         /\ s_data (disk c') j = b ++ skipn (List.length b) (s_data (disk c) j)
         /\ firstn (List.length b) (s_data (disk c) j)
            = zeros (List.length (firstn (List.length b) (s_data (disk c) j))))
      /\ (may_restore (disk c) input output -> o = Ok tt)).
Proof.
  intros input output c o c' H. destruct (restore_path _ _ _ _ _ H) as (R & A & _ & _ & D & K & F).
  split; [exact R|]. split; [exact A|]. split; [exact D|]. split.
  - intros OK. destruct (K OK) as (i & j & plan & h & aad & d' & b & _ & ST & _ & _ & LB & (O1 & O2 & O3 & O4 & O5 & es & AD & FA) & _).
    exists j. split; [exact ST|]. repeat (split; [assumption|]). exists es. split; [exact AD|].
    eapply Forall_impl; [|exact FA]. intros [| | | | |]; try contradiction. intros [-> X]. split; [reflexivity|].
    assert (get_size (version_of h) <= 416) by (destruct (version_of h); cbn; lia). lia.
  - intros NF. split.
    2:{ intros (i & j & h & aad & b & A1 & A2 & A3 & A4 & A5). apply (F NF). exists i, j, h, aad, b.
        repeat (split; [assumption|]). apply all_zero_iff. exact A5. }
    intros OK. destruct (K OK) as (i & j & plan & h & aad & d' & b & ST & SO & DS & SE & LB & _ & (n & NB & W & N) & Z).
    destruct (Z NF) as (-> & ZZ). exists i, j, h, aad, b. split; [exact ST|]. split; [exact SO|].
    split; [exists d'; exact DS|]. split; [exact SE|]. split; [|exact ZZ].
    rewrite W, (N NF), firstn_all. unfold write_at. destruct b; reflexivity.
Qed.

(** ** Key commands *)

Lemma tool_safe : forall V input t c o c', env_ok (ce_E V) -> run_tool V input t c = (o, c') ->
  o <> Diverge
  /\ (o = Panic -> exists k, In k (tool_keys t) /\ generator_panics V k)
  /\ (o <> Ok tt -> unchanged (disk c) (disk c'))
  /\ (o = Ok tt -> exists i, stat (disk c) (os_path input) = Some (NFile i)
        /\ only_header i 416 (disk c) (disk c')).
Proof.
  intros V input t c o c' HE H. destruct (run_tool_any _ _ _ _ _ _ HE H) as (A & B & C & _).
  split; [exact A|]. split; [exact B|]. split.
  - intros N. destruct C as [(_ & U)|(X & _)]; [exact U|contradiction].
  - intros ->. destruct C as [(X & _)|(_ & Y)]; [contradiction|exact Y].
Qed.

Lemma tool_does : forall V input t c o c' i h aad, env_ok (ce_E V) -> no_faults (disk c) ->
  stat (disk c) (os_path input) = Some (NFile i) ->
  header_is (s_data (disk c) i) h aad -> version_of h = V5 ->
  run_tool V input t c = (o, c') ->
  (forall op, supplies V c t op ->
     let r := run_on (ce_E V) (op, s_rng (disk c)) (s_data (disk c) i) in
     o = tool_outcome (fst r) /\ s_data (disk c') i = snd r)
  /\ ((forall op, ~ supplies V c t op) ->
      unchanged (disk c) (disk c') /\ (o = Panic \/ exists e, o = Err (TCli e))).
Proof.
  intros V input t c o c' i h aad HE NF ST (d' & DS) V5 H.
  destruct (run_tool_any _ _ _ _ _ _ HE H) as (_ & _ & _ & D & _).
  destruct (D i ST NF) as (X & _). exact (X d' h aad DS V5).
Qed.

Lemma tool_old : forall V input t c o c' i, env_ok (ce_E V) -> no_faults (disk c) ->
  stat (disk c) (os_path input) = Some (NFile i) ->
  (forall h aad, header_is (s_data (disk c) i) h aad -> version_of h <> V5) ->
  run_tool V input t c = (o, c') ->
  asks_nothing c c' /\ c_out c' = c_out c /\ unchanged (disk c) (disk c')
  /\ (o = Err TOldVersion \/ exists e, o = Err (THeader e)).
Proof.
  intros V input t c o c' i HE NF ST OLD H.
  destruct (run_tool_any _ _ _ _ _ _ HE H) as (_ & _ & C & D & _).
  destruct (D i ST NF) as (_ & X).
  assert (Y : forall d' hd aad, deserialize (dev_at (s_data (disk c) i) 0) = (Ok (hd, aad), d') -> version_of hd <> V5)
    by (intros d' hd aad DS; apply (OLD hd aad); exists d'; exact DS).
  destruct (X Y) as (A & B & E). split; [exact A|]. split; [exact B|]. split; [|exact E].
  destruct C as [(_ & U)|(-> & _)]; [exact U|]. destruct E as [E|(e & E)]; discriminate.
Qed.
