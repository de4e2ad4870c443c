(** Proofs about dumping, stripping and restoring headers by path. *)
From Coq Require Import List Arith NArith ZArith Ascii String Bool Lia.
From Verif Require Import Bytes Outcome IO Primitives Crypto Header Stream KeyModel EncDec KeyOps HeaderOps.
From Verif Require Import Overwrite Hash FS Erase Archive Cli CliTools.
From Verif Require Import BytesFacts HeaderSpec HeaderFacts HeaderProofs IOSpec IOFacts FileSpec FileFacts FileProofs.
From Verif Require Import KeySpec KeyFacts KeyProofs DecSim KeyResults HeaderOpsProofs WorldFrames.
From Verif Require Import FSSpec FSFacts ArchiveSpec EraseProofs UnpackProofs PackProofs.
From Verif Require Import CliSpec CliKeys CliRuns CliProofs CliSafety CliToolsSpec CliToolsRuns.
Import ListNotations.
Local Open Scope nat_scope.
Local Open Scope list_scope.

Notation dev_untouched := FileSpec.untouched.

Lemma on_in_run : forall {E A} (m : M dev E A) w,
  on_in m w = (fst (m (w_in w)), mkWorld (snd (m (w_in w))) (w_out w) (w_hdr w) (w_rng w) (w_tr w)).
Proof. intros. unfold on_in, zoom. destruct (m (w_in w)); reflexivity. Qed.
Lemma on_out_run : forall {E A} (m : M dev E A) w,
  on_out m w = (fst (m (w_out w)), mkWorld (w_in w) (snd (m (w_out w))) (w_hdr w) (w_rng w) (w_tr w)).
Proof. intros. unfold on_out, zoom. destruct (m (w_out w)); reflexivity. Qed.

(** ** Writing a parsed header *)

Lemma parsed_serialize : forall d h aad d', deserialize d = (Ok (h, aad), d') ->
  (exists b, serialize h = Ok b /\ List.length b = get_size (version_of h))
  \/ (serialize h = Err HDeprecated /\ In (version_of h) [V1; V2]).
Proof.
  intros d h aad d' H. unfold version_of.
  assert (X : In (ht_version (h_type h)) [V1; V2] \/ ~ In (ht_version (h_type h)) [V1; V2]).
  { destruct (ht_version (h_type h)); cbn; auto; right; intros [Y|[Y|[]]]; discriminate. }
  destruct X as [I|N].
  - right. split; [|exact I]. unfold serialize. destruct I as [<-|[<-|[]]]; reflexivity.
  - left. destruct (reserialize _ _ _ _ H N) as (b & S & L & _). exists b. split; [exact S|].
    rewrite L. pose proof (deserialize_spec _ _ _ H) as (_ & _ & _ & SP). cbv zeta in SP. apply SP.
Qed.

Lemma header_write_any : forall h b d o d', serialize h = Ok b -> header_write h d = (o, d') ->
  (exists n, o = Ok tt /\ n <= List.length b /\ wrote d d' (firstn n b)
     /\ (d_plan d = [] -> n = List.length b) /\ (d_plan d = [] -> d_plan d' = []))
  \/ (exists e, o = Err e /\ dev_untouched d d' /\ d_plan d <> []).
Proof.
  intros h b d o d' S H. unfold header_write in H.
  unfold bind at 1, lift in H. rewrite S in H. unfold bind in H. rewrite map_err_run in H.
  destruct (dev_write b d) as [r d1] eqn:W. cbn [fst snd] in H.
  apply dev_write_spec in W as (PS & W). destruct r as [k|e| |]; try contradiction; injection H as <- <-.
  - destruct W as (A & B & C & _). left. exists k. do 4 (split; [auto|]). intros P. eapply plan_step_nil; eauto.
  - destruct W as (A & B). right. eexists. split; [reflexivity|]. split; [apply wrote_nothing; exact A|].
    rewrite B. discriminate.
Qed.

Lemma wrote_log : forall d d' l, wrote d d' l -> d_pos d = 0 ->
  exists new, d_log d' = d_log d ++ new
    /\ forall q c, In (q, c) new -> q + List.length c <= List.length l.
Proof.
  intros d d' l (_ & _ & cs & C & _ & L) P. exists (chunk_log (d_pos d) cs). split; [exact L|].
  intros q c I. apply chunk_log_inside in I. rewrite C, P in I. lia.
Qed.

(** ** The library functions *)

Lemma dump_any : forall w o w', header_dump w = (o, w') ->
  dev_untouched (w_in w) (w_in w') /\ (d_plan (w_in w) = [] -> d_plan (w_in w') = [])
  /\ ((exists h aad d' b n, o = Ok tt /\ deserialize (w_in w) = (Ok (h, aad), d') /\ serialize h = Ok b
         /\ n <= List.length b /\ wrote (w_out w) (w_out w') (firstn n b)
         /\ (d_plan (w_out w) = [] -> n = List.length b))
      \/ (exists e, o = Err e /\ dev_untouched (w_out w) (w_out w')
            /\ (d_plan (w_out w) = [] -> forall h aad d', deserialize (w_in w) = (Ok (h, aad), d') ->
                  In (version_of h) [V1; V2]))).
Proof.
  intros w o w' H. unfold header_dump in H. unfold bind in H. rewrite map_err_run in H.
  rewrite on_in_run in H. destruct (deserialize (w_in w)) as [od d1] eqn:D. cbn [fst snd] in H.
  pose proof (deserialize_spec _ _ _ D) as (S1 & S2 & S3 & S4).
  destruct od as [[h aad]|e| |]; try contradiction; cbn [omap] in H.
  2:{ injection H as <- <-. cbn [w_in w_out]. split; [split; assumption|]. split; [exact S3|].
      right. eexists. split; [reflexivity|]. split; [split; reflexivity|]. discriminate. }
  rewrite map_err_run in H. rewrite on_out_run in H. cbn [w_out w_in fst snd] in H.
  destruct (header_write h (w_out w)) as [r d2] eqn:HW. cbn [fst snd] in H. injection H as <- <-. cbn [w_in w_out].
  split; [split; assumption|]. split; [exact S3|].
  destruct (parsed_serialize _ _ _ _ D) as [(b & S & L)|(S & I)].
  - destruct (header_write_any _ _ _ _ _ S HW) as [(n & -> & A & B & C & _)|(e & -> & A & B)].
    + left. exists h, aad, d1, b, n. cbn [omap]. do 5 (split; [auto|]). exact C.
    + right. eexists. split; [reflexivity|]. split; [exact A|]. intros P. contradiction.
  - unfold header_write, bind, lift in HW. rewrite S in HW. injection HW as <- <-.
    right. eexists. split; [reflexivity|]. split; [split; reflexivity|].
    intros _ h2 aad2 d3 E. injection E as <- _ _. exact I.
Qed.

Lemma strip_log : forall w o w', header_strip w = (o, w') ->
  exists new, d_log (w_in w') = d_log (w_in w) ++ new
    /\ forall q c, In (q, c) new -> exists h aad d', deserialize (w_in w) = (Ok (h, aad), d')
         /\ q + List.length c <= get_size (version_of h).
Proof.
  intros w o w' H. unfold header_strip in H. unfold bind at 1 in H. rewrite map_err_run in H.
  rewrite on_in_run in H. destruct (deserialize (w_in w)) as [od d1] eqn:D. cbn [fst snd] in H.
  pose proof (deserialize_spec _ _ _ D) as (S1 & S2 & S3 & S4).
  destruct od as [[h aad]|e| |]; try contradiction; cbn [omap] in H.
  2:{ injection H as <- <-. exists []. cbn [w_in]. rewrite app_nil_r. split; [exact S2|]. intros q c []. }
  unfold bind in H. rewrite map_err_run in H. rewrite on_in_run in H. cbn [w_out w_in fst snd] in H.
  destruct (dev_rewind d1) as [rr d2] eqn:R. cbn [fst snd] in H.
  apply dev_seek_start_spec in R as (R1 & R2 & R3 & R4).
  destruct rr as [u|e| |]; try contradiction; cbn [omap] in H.
  2:{ injection H as <- <-. exists []. cbn [w_in]. rewrite app_nil_r. split; [congruence|]. intros q c []. }
  rewrite map_err_run in H. rewrite on_in_run in H. cbn [w_out w_in fst snd] in H.
  destruct (dev_write_all _ d2) as [r3 d3] eqn:W. cbn [fst snd] in H. injection H as _ <-. cbn [w_in].
  apply dev_write_all_spec in W as (_ & W).
  assert (X : exists k, k <= get_size (version_of h) /\ wrote d2 d3 (zeros k)).
  { destruct r3 as [x|e| |]; try contradiction.
    - exists (get_size (version_of h)). split; [lia|exact W].
    - destruct W as [(k & K & W) _]. rewrite zeros_length in K. exists k. split; [unfold version_of; lia|].
      unfold zeros in *. rewrite firstn_repeat, Nat.min_l in W by lia. exact W. }
  destruct X as (k & K & W'). destruct (wrote_log _ _ _ W' R4) as (new & L & IN).
  exists new. split; [rewrite L, R3, S2; reflexivity|]. intros q c I. exists h, aad, d1. split; [reflexivity|].
  specialize (IN q c I). rewrite zeros_length in IN. lia.
Qed.

Lemma restore_log : forall w o w', header_restore w = (o, w') ->
  exists new, d_log (w_out w') = d_log (w_out w) ++ new
    /\ forall q c, In (q, c) new -> exists h aad d', deserialize (w_in w) = (Ok (h, aad), d')
         /\ q + List.length c <= get_size (version_of h).
Proof.
  intros w o w' H. unfold header_restore in H. unfold bind at 1 in H. rewrite map_err_run in H.
  rewrite on_in_run in H. destruct (deserialize (w_in w)) as [od d1] eqn:D. cbn [fst snd] in H.
  pose proof (deserialize_spec _ _ _ D) as (S1 & S2 & S3 & S4).
  assert (NONE : forall w2, d_log (w_out w2) = d_log (w_out w) ->
     exists new, d_log (w_out w2) = d_log (w_out w) ++ new
    /\ forall q c, In (q, c) new -> exists h aad d', (od, d1) = (Ok (h, aad), d')
         /\ q + List.length c <= get_size (version_of h)).
  { intros w2 E. exists []. rewrite app_nil_r. split; [exact E|]. intros q c []. }
  destruct od as [[h aad]|e| |]; try contradiction; cbn [omap] in H.
  2:{ injection H as <- <-. apply NONE. reflexivity. }
  unfold bind at 1 in H. rewrite map_err_run in H. rewrite on_out_run in H. cbn [w_out w_in fst snd] in H.
  destruct (dev_read _ (w_out w)) as [rr d2] eqn:R. cbn [fst snd] in H.
  apply dev_read_spec in R as (R1 & R2 & R3 & _).
  destruct rr as [got|e| |]; cbn [omap] in H; try (injection H as <- <-; apply NONE; exact R3).
  destruct (negb (all_zero got)); [injection H as <- <-; apply NONE; exact R3|].
  unfold bind in H. rewrite map_err_run in H. rewrite on_out_run in H. cbn [w_out w_in fst snd] in H.
  destruct (dev_rewind d2) as [r3 d3] eqn:RW. cbn [fst snd] in H.
  apply dev_seek_start_spec in RW as (W1 & W2 & W3 & W4).
  destruct r3 as [u|e| |]; try contradiction; cbn [omap] in H;
    [|injection H as <- <-; apply NONE; cbn [w_out]; congruence].
  rewrite map_err_run in H. rewrite on_out_run in H. cbn [w_out w_in fst snd] in H.
  destruct (header_write h d3) as [r4 d4] eqn:HW. cbn [fst snd] in H. injection H as _ <-.
  destruct (parsed_serialize _ _ _ _ D) as [(b & S & L)|(S & I)].
  - destruct (header_write_any _ _ _ _ _ S HW) as [(n & -> & A & B & _)|(e & -> & [A1 A2] & _)].
    + cbn [w_out]. destruct (wrote_log _ _ _ B W4) as (new & LG & IN). exists new. split; [congruence|].
      intros q c IQ. exists h, aad, d1. split; [reflexivity|]. specialize (IN q c IQ). rewrite firstn_length in IN. lia.
    + apply NONE. cbn [w_out]. congruence.
  - unfold header_write, bind, lift in HW. rewrite S in HW. injection HW as <- <-. apply NONE. cbn [w_out]. congruence.
Qed.

(** ** Open files *)

Lemma put_still : forall d h s g, d_data d = s_data s (h_ino h) -> d_log d = [] ->
  unchanged s (with_rng g (put_handle d h s)).
Proof.
  intros d h s g D L. unfold unchanged. cbn [with_rng put_handle with_data s_nodes s_data s_next s_cwd s_tmp s_log].
  rewrite L. cbn [map]. rewrite app_nil_r. split; [reflexivity|]. split; [|auto].
  intros j. unfold set_data. destruct (Nat.eqb_spec j (h_ino h)); [subst j; exact D|reflexivity].
Qed.

Lemma put_only : forall d h s g n, (forall q c, In (q, c) (d_log d) -> q + List.length c <= n) ->
  only_file (h_ino h) n s (with_rng g (put_handle d h s)).
Proof.
  intros d h s g n IN. unfold only_file. cbn [with_rng put_handle with_data s_nodes s_data s_next s_cwd s_tmp s_log].
  split; [reflexivity|]. split; [intros j NJ; apply set_data_neq; exact NJ|]. do 3 (split; [reflexivity|]).
  eexists. split; [reflexivity|]. apply Forall_forall. intros x IX. apply in_map_iff in IX as ([q b] & <- & IQ).
  cbn [fst snd]. split; [reflexivity|]. apply IN. exact IQ.
Qed.

Lemma only_file_un : forall i n a b c, unchanged a b -> only_file i n b c -> only_file i n a c.
Proof.
  intros i n a b c (A1 & A2 & A3 & A4 & A5 & A6) (B1 & B2 & B3 & B4 & B5 & es & B6 & B7). unfold only_file.
  split; [congruence|]. split; [intros j NJ; rewrite (B2 j NJ); apply A2|]. do 3 (split; [congruence|]).
  exists es. split; [|exact B7]. unfold added in *. congruence.
Qed.

Definition two_world (hi ho : handle) (c : cli) : world :=
  mkWorld (handle_dev (disk c) hi) (handle_dev (disk c) ho) no_dev (s_rng (disk c)) (snd (c_a c)).
Definition after_two (w : world) (hi ho : handle) (c : cli) : cli :=
  set_a (with_rng (w_rng w) (put_handle (w_out w) ho (put_handle (w_in w) hi (disk c))), w_tr w) c.

Lemma on_handles_run : forall {E A} (m : M world E A) hi ho c o w,
  m (two_world hi ho c) = (o, w) -> on_handles m hi ho c = (o, after_two w hi ho c).
Proof.
  intros E A m hi ho c o w H. unfold on_handles. rewrite on_a_run. unfold run_world.
  fold (disk c). change (opt_dev (disk c) None) with no_dev. fold (two_world hi ho c). rewrite H. reflexivity.
Qed.

Lemma with_rng_put : forall d h s, with_rng (s_rng s) (put_handle d h s) = put_handle d h s.
Proof. reflexivity. Qed.

(** ** Strip *)

Lemma strip_path : forall input c o c', strip input c = (o, c') ->
  regular o /\ asks_nothing c c' /\ c_out c' = c_out c
  /\ (no_faults (disk c) -> no_faults (disk c'))
  /\ ((o <> Ok tt /\ unchanged (disk c) (disk c'))
      \/ exists i plan h aad d', stat (disk c) (os_path input) = Some (NFile i)
           /\ (no_faults (disk c) -> plan = [])
           /\ deserialize (mkDev (s_data (disk c) i) 0 plan []) = (Ok (h, aad), d')
           /\ only_header i (get_size (version_of h)) (disk c) (disk c')
           /\ (o = Ok tt -> s_data (disk c') i = zeros (get_size (version_of h))
                              ++ skipn (get_size (version_of h)) (s_data (disk c) i)))
  /\ (no_faults (disk c) -> forall i h aad d', stat (disk c) (os_path input) = Some (NFile i) ->
        deserialize (dev_at (s_data (disk c) i) 0) = (Ok (h, aad), d') -> o = Ok tt).
Proof.
  intros input c o c' H. unfold strip in H. unfold bind at 1 in H. rewrite on_fs_run in H.
  destruct (open_rw (os_path input) (disk c)) as [r s1] eqn:OR. cbn [fst snd] in H.
  destruct (open_rw_any _ _ _ _ OR) as (D & RG & CA & CASES). apply un_disk in D.
  assert (NF1 : no_faults (disk c) -> no_faults s1) by (intros N; rewrite (CA N); exact N).
  destruct CASES as [(i & plan & -> & ST & PL)|(-> & NO)].
  2:{ injection H as <- <-. rewrite set_disk_disk. split; [split; discriminate|]. split; [split; reflexivity|].
      split; [reflexivity|]. split; [exact NF1|]. split; [left; split; [discriminate|exact D]|].
      intros N i h aad d' SI _. destruct (NO N i SI). }
  set (h := mkHandle (os_path input) i 0 plan) in *. set (c1 := set_disk s1 c) in *.
  destruct (header_strip (one_world h c1)) as [ro w] eqn:HS.
  assert (RM : map_err THop header_strip (one_world h c1) = (omap THop ro, w)) by (rewrite map_err_run, HS; reflexivity).
  unfold bind in H. rewrite (on_handle_run _ _ _ _ _ RM) in H.
  pose proof (strip_holds _ _ _ HS) as (_ & _ & HOLD & NOHDR & _). destruct (strip_log _ _ _ HS) as (new & LOG & IN).
  change (w_in (one_world h c1)) with (mkDev (s_data s1 i) 0 plan []) in *.
  rewrite (un_data _ _ _ D) in *. cbn [d_data d_log app d_plan] in *.
  assert (OUT : ro = Ok tt \/ exists e, ro = Err e).
  { destruct (deserialize (mkDev (s_data (disk c) i) 0 plan [])) as [[[hd aad]|e| |] d1] eqn:DS.
    - destruct (HOLD _ _ _ eq_refl) as (_ & _ & _ & X). exact X.
    - right. apply NOHDR. intros ? ? ? X. discriminate X.
    - right. apply NOHDR. intros ? ? ? X. discriminate X.
    - right. apply NOHDR. intros ? ? ? X. discriminate X. }
  assert (X : c' = after_one w h c1 /\ o = omap THop ro).
  { destruct OUT as [->|[e ->]]; cbn [omap] in H; injection H as <- <-; auto. }
  destruct X as [-> ->]. clear H RM.
  assert (DD : disk (after_one w h c1) = with_rng (w_rng w) (put_handle (w_in w) h s1)) by reflexivity.
  assert (DATA : s_data (disk (after_one w h c1)) i = d_data (w_in w)).
  { rewrite DD. cbn [with_rng put_handle with_data s_data]. apply set_data_eq. }
  split; [destruct OUT as [->|[e ->]]; split; discriminate|].
  split; [split; reflexivity|]. split; [reflexivity|].
  split; [intros N; rewrite DD; specialize (NF1 N); exact NF1|].
  split.
  - destruct (deserialize (mkDev (s_data (disk c) i) 0 plan [])) as [[[hd aad]|e| |] d1] eqn:DS.
    + right. destruct (HOLD _ _ _ eq_refl) as (SO & OKD & _). exists i, plan, hd, aad, d1.
      split; [exact ST|]. split; [exact PL|]. split; [exact DS|]. split; [split|].
      * eapply only_file_un; [exact D|]. rewrite DD. apply put_only. rewrite LOG. intros q b I.
        destruct (IN q b I) as (h2 & aad2 & d2 & E & Q). injection E as <- _ _. exact Q.
      * rewrite DATA. exact SO.
      * intros E. rewrite DATA. apply OKD. destruct OUT as [->|[e ->]]; [reflexivity|discriminate E].
    + left. destruct NOHDR as [[e' ->] [A B]]; [intros ? ? ? X; discriminate X|]. split; [discriminate|].
      cbn [d_data d_log] in A, B. eapply un_trans; [exact D|]. rewrite DD. apply put_still; [|exact B].
      rewrite A. symmetry. apply (un_data _ _ _ D).
    + pose proof (deserialize_spec _ _ _ DS) as (_ & _ & _ & []).
    + pose proof (deserialize_spec _ _ _ DS) as (_ & _ & _ & []).
  - intros N j hd aad d' SJ DJ. rewrite ST in SJ. injection SJ as <-. rewrite (PL N) in *.
    destruct (HOLD _ _ _ DJ) as (_ & _ & X & _). rewrite (X eq_refl). reflexivity.
Qed.

(** ** Restore *)

Lemma restore_regular : forall w o w', header_restore w = (o, w') -> o = Ok tt \/ exists e, o = Err e.
Proof.
  intros w o w' H. destruct (restore_any _ _ _ H) as (_ & _ & [(e & -> & _)|[(-> & _ & h & aad & d' & D & S)|(h & aad & d' & b & n & got & _ & _ & _ & _ & _ & _ & _ & -> & _)]]);
    [eauto| |auto].
  exfalso. destruct (parsed_serialize _ _ _ _ D) as [(b & X & _)|(X & _)]; congruence.
Qed.

Lemma restore_forward : forall w h aad d' b, d_plan (w_out w) = [] -> d_pos (w_out w) = 0 ->
  deserialize (w_in w) = (Ok (h, aad), d') -> serialize h = Ok b ->
  all_zero (firstn (get_size (version_of h)) (d_data (w_out w))) = true ->
  exists w', header_restore w = (Ok tt, w').
Proof.
  intros w h aad d' b P PO D S Z. unfold header_restore.
  erewrite bind_ok by (eapply map_err_ok, zoom_eq; exact D). cbn [fst].
  erewrite bind_ok by (eapply map_err_ok, zoom_eq; cbn [w_out]; apply dev_read_ok; exact P).
  rewrite PO, skipn_O. fold (version_of h). rewrite Z. cbn [negb].
  erewrite bind_ok by (eapply map_err_ok, zoom_eq, dev_seek_start_ok; exact P).
  eexists. eapply map_err_ok, zoom_eq. unfold header_write.
  erewrite bind_ok by (unfold lift; rewrite S; reflexivity).
  erewrite bind_ok by (eapply map_err_ok, dev_write_ok; exact P). reflexivity.
Qed.

Definition restorable (s : sys) (input output : string) : Prop :=
  exists i j h aad b, stat s (os_path input) = Some (NFile i) /\ stat s (os_path output) = Some (NFile j)
    /\ header_is (s_data s i) h aad /\ serialize h = Ok b
    /\ all_zero (firstn (get_size (version_of h)) (s_data s j)) = true.

Lemma restore_path : forall input output c o c', restore input output c = (o, c') ->
  regular o /\ asks_nothing c c' /\ c_out c' = c_out c
  /\ (no_faults (disk c) -> no_faults (disk c'))
  /\ (o <> Ok tt -> unchanged (disk c) (disk c'))
  /\ (o = Ok tt -> exists i j plan h aad d' b,
        stat (disk c) (os_path input) = Some (NFile i) /\ stat (disk c) (os_path output) = Some (NFile j)
        /\ deserialize (mkDev (s_data (disk c) i) 0 plan []) = (Ok (h, aad), d') /\ serialize h = Ok b
        /\ List.length b = get_size (version_of h)
        /\ only_file j (List.length b) (disk c) (disk c')
        /\ (exists n, n <= List.length b /\ s_data (disk c') j = write_at (s_data (disk c) j) 0 (firstn n b)
              /\ (no_faults (disk c) -> n = List.length b))
        /\ (no_faults (disk c) -> plan = []
             /\ firstn (List.length b) (s_data (disk c) j)
                = zeros (List.length (firstn (List.length b) (s_data (disk c) j)))))
  /\ (no_faults (disk c) -> restorable (disk c) input output -> o = Ok tt).
Proof.
  intros input output c o c' H. unfold restore in H. unfold bind at 1, up at 1 in H. rewrite map_err_run, storage_run in H.
  destruct (read_file (os_path input) (disk c)) as [r s1] eqn:RF. cbn [fst snd] in H.
  destruct (read_file_any _ _ _ _ RF) as (D & CA & CASES). apply un_disk in D.
  assert (NF1 : no_faults (disk c) -> no_faults s1) by (intros N; rewrite (CA N); exact N).
  assert (QUIT : forall e s2, unchanged (disk c) s2 -> (no_faults (disk c) -> no_faults s2) ->
    (Err e, set_disk s2 c) = (o, c') ->
    regular o /\ asks_nothing c c' /\ c_out c' = c_out c
    /\ (no_faults (disk c) -> no_faults (disk c'))
    /\ (o <> Ok tt -> unchanged (disk c) (disk c')) /\ o <> Ok tt).
  { clear H. intros e s2 U N E. injection E as <- <-. split; [split; discriminate|]. split; [split; reflexivity|].
    split; [reflexivity|]. split; [exact N|]. split; [intros _; exact U|discriminate]. }
  assert (FIN : (regular o /\ asks_nothing c c' /\ c_out c' = c_out c
    /\ (no_faults (disk c) -> no_faults (disk c'))
    /\ (o <> Ok tt -> unchanged (disk c) (disk c')) /\ o <> Ok tt) ->
    (no_faults (disk c) -> ~ restorable (disk c) input output) ->
    regular o /\ asks_nothing c c' /\ c_out c' = c_out c
    /\ (no_faults (disk c) -> no_faults (disk c'))
    /\ (o <> Ok tt -> unchanged (disk c) (disk c'))
    /\ (o = Ok tt -> exists i j plan h aad d' b,
        stat (disk c) (os_path input) = Some (NFile i) /\ stat (disk c) (os_path output) = Some (NFile j)
        /\ deserialize (mkDev (s_data (disk c) i) 0 plan []) = (Ok (h, aad), d') /\ serialize h = Ok b
        /\ List.length b = get_size (version_of h)
        /\ only_file j (List.length b) (disk c) (disk c')
        /\ (exists n, n <= List.length b /\ s_data (disk c') j = write_at (s_data (disk c) j) 0 (firstn n b)
              /\ (no_faults (disk c) -> n = List.length b))
        /\ (no_faults (disk c) -> plan = []
             /\ firstn (List.length b) (s_data (disk c) j)
                = zeros (List.length (firstn (List.length b) (s_data (disk c) j)))))
    /\ (no_faults (disk c) -> restorable (disk c) input output -> o = Ok tt)).
  { intros (A1 & A2 & A3 & A4 & A5 & A6) NR. do 5 (split; [assumption|]). split; [intros X; contradiction|].
    intros N X. destruct (NR N X). }
  destruct r as [fi|e| |]; cbn [omap] in H.
  2:{ apply FIN; [eapply QUIT; eauto|]. intros N (i & j & h & aad & b & A & _).
      destruct CASES as [[X _]|[(j' & pl & X & _)|[X Y]]]; try discriminate X.
      destruct (Y N _ A) as (t & E). discriminate E. }
  2,3: exfalso; destruct CASES as [[X _]|[(i & pl & X & _)|[X _]]]; discriminate X.
  unfold bind at 1 in H. rewrite on_fs_run, set_disk_disk in H.
  destruct (open_rw (os_path output) s1) as [r2 s2] eqn:OR. cbn [fst snd] in H.
  destruct (open_rw_any _ _ _ _ OR) as (D2 & RG & CA2 & CASES2). apply un_disk in D2.
  assert (NF2 : no_faults (disk c) -> no_faults s2) by (intros N; rewrite (CA2 (NF1 N)); apply NF1; exact N).
  assert (U2 : unchanged (disk c) s2) by (eapply un_trans; eauto).
  change (set_disk s2 (set_disk s1 c)) with (set_disk s2 c) in H.
  destruct CASES2 as [(j & plan2 & -> & STJ & PL2)|(-> & NO)].
  2:{ apply FIN; [eapply QUIT; eauto|]. intros N (i & j & h & aad & b & _ & A & _).
      apply (NO (NF1 N) j). rewrite (un_stat _ _ _ D). exact A. }
  rewrite (un_stat _ _ _ D) in STJ.
  destruct CASES as [(X & ST)|[(i & plan & X & ST & PL)|[X _]]]; [| |discriminate X];
    injection X as ->; unfold bind, up in H; rewrite map_err_run in H; cbn [try_handle ret err fst snd omap] in H.
  { apply FIN; [eapply QUIT; eauto|]. intros N (i & j0 & h & aad & b & A & _). congruence. }
  set (hi := mkHandle (os_path input) i 0 plan) in *. set (ho := mkHandle (os_path output) j 0 plan2) in *.
  set (c2 := set_disk s2 c) in *.
  destruct (header_restore (two_world hi ho c2)) as [ro w] eqn:HR.
  assert (RM : map_err THop header_restore (two_world hi ho c2) = (omap THop ro, w)) by (rewrite map_err_run, HR; reflexivity).
  rewrite (on_handles_run _ _ _ _ _ _ RM) in H. injection H as <- <-.
  pose proof (restore_regular _ _ _ HR) as OUT.
  pose proof (restore_holds _ _ _ HR) as (UIN & KEEP & OKS). destruct (restore_log _ _ _ HR) as (new & LOG & IN).
  change (w_in (two_world hi ho c2)) with (mkDev (s_data s2 i) 0 plan []) in *.
  change (w_out (two_world hi ho c2)) with (mkDev (s_data s2 j) 0 plan2 []) in *.
  rewrite !(un_data _ _ _ U2) in *. cbn [d_data d_log app d_plan d_pos] in *.
  destruct UIN as [UI1 UI2]. cbn [d_data d_log] in UI1, UI2.
  set (s3 := put_handle (w_in w) hi s2).
  assert (U3 : unchanged (disk c) s3).
  { eapply un_trans; [exact U2|]. unfold s3. rewrite <- (with_rng_put (w_in w) hi s2). apply put_still; [|exact UI2].
    rewrite UI1. symmetry. apply (un_data _ _ _ U2). }
  assert (DD : disk (after_two w hi ho c2) = with_rng (w_rng w) (put_handle (w_out w) ho s3)) by reflexivity.
  assert (DATA : s_data (disk (after_two w hi ho c2)) j = d_data (w_out w)).
  { rewrite DD. cbn [with_rng put_handle with_data s_data]. apply set_data_eq. }
  split; [destruct OUT as [->|[e ->]]; split; discriminate|].
  split; [split; reflexivity|]. split; [reflexivity|].
  split; [intros N; rewrite DD; specialize (NF2 N); exact NF2|].
  split; [|split].
  - intros NE. destruct KEEP as [K1 K2]; [intros ->; apply NE; reflexivity|]. cbn [d_data d_log] in K1, K2.
    eapply un_trans; [exact U3|]. rewrite DD. apply put_still; [|exact K2].
    rewrite K1. symmetry. apply (un_data _ _ _ U3).
  - intros E. assert (ro = Ok tt) by (destruct OUT as [->|[e ->]]; [reflexivity|discriminate E]). subst ro.
    destruct (OKS eq_refl) as (hd & aad & d' & b & n & got & DS & SR & LB & G1 & G2 & NB & WR & NS & FULL).
    exists i, j, plan, hd, aad, d', b. do 5 (split; [assumption|]). split.
    { eapply only_file_un; [exact U3|]. rewrite DD. apply put_only. rewrite LOG. intros q x I.
      destruct (IN q x I) as (h2 & aad2 & d2 & E2 & Q). rewrite DS in E2. injection E2 as <- _ _. unfold version_of in Q. lia. }
    assert (NSH : no_faults (disk c) -> no_short plan2).
    { intros N. rewrite (PL2 (NF1 N)). intros k []. }
    split.
    { exists n. rewrite DATA. do 2 (split; [assumption|]). intros N. apply NS, NSH, N. }
    intros N. split; [apply PL; exact N|].
    destruct (restore_any _ _ _ HR) as (_ & _ & [(e & X & _)|[(X & _)|(h2 & a2 & d2 & b2 & n2 & got2 & DS2 & SR2 & _ & Z2 & GL & _)]]);
      try discriminate X.
    change (w_in (two_world hi ho c2)) with (mkDev (s_data s2 i) 0 plan []) in DS2.
    change (w_out (two_world hi ho c2)) with (mkDev (s_data s2 j) 0 plan2 []) in Z2, GL.
    rewrite !(un_data _ _ _ U2) in *. rewrite DS in DS2. injection DS2 as <- <- <-.
    cbn [d_data d_pos d_plan] in Z2, GL. specialize (GL (NSH N)). rewrite Nat.sub_0_r, <- LB in GL.
    unfold slice in Z2. rewrite skipn_O in Z2. rewrite firstn_length, <- GL.
    rewrite <- Z2, GL. destruct (Nat.le_ge_cases (List.length b) (List.length (s_data (disk c) j))).
    + rewrite Nat.min_l by assumption. reflexivity.
    + rewrite Nat.min_r by assumption. rewrite firstn_all, firstn_all2 by assumption. reflexivity.
  - intros N (i0 & j0 & h & aad & b & A & B & (d' & C) & S & Z).
    rewrite ST in A. injection A as <-. rewrite STJ in B. injection B as <-.
    destruct (restore_forward (two_world hi ho c2) h aad d' b) as (w' & X).
    + exact (PL2 (NF1 N)).
    + reflexivity.
    + change (w_in (two_world hi ho c2)) with (mkDev (s_data s2 i) 0 plan []).
      rewrite (un_data _ _ _ U2), (PL N). exact C.
    + exact S.
    + change (d_data (w_out (two_world hi ho c2))) with (s_data s2 j). rewrite (un_data _ _ _ U2). exact Z.
    + rewrite HR in X. injection X as -> _. reflexivity.
Qed.

(** ** Dump *)

Definition dump_rest (input output : string) (fi : entry) : M cli tool_error unit :=
  fo <- up (storage (create_or_write (os_path output))) ;;
  hi <- up (try_handle fi) ;;
  ho <- up (try_handle fo) ;;
  on_handles (map_err THop header_dump) hi ho ;;
  up (storage (flush_file fo)).

Lemma dump_eq : forall input output force c,
  dump input output force c
  = (fi <- up (storage (read_file (os_path input))) ;;
     up (check_or_exit output force) ;; dump_rest input output fi) c.
Proof. reflexivity. Qed.

Lemma wrote_empty : forall d d' l, wrote d d' l -> d_data d = [] -> d_pos d = 0 -> d_data d' = l.
Proof. intros d d' l (A & _) E P. rewrite A, E, P. apply write_at_empty. Qed.

(** Both handles after dumping. *)
Lemma dumped : forall hi ho w c s2 i j plan planj, disk c = s2 ->
  hi = mkHandle (h_path hi) i 0 plan -> ho = mkHandle (h_path ho) j 0 planj ->
  d_data (w_in w) = s_data s2 i -> d_log (w_in w) = [] ->
  same_tree s2 (disk (after_two w hi ho c))
  /\ (forall k, k <> j -> s_data (disk (after_two w hi ho c)) k = s_data s2 k)
  /\ s_data (disk (after_two w hi ho c)) j = d_data (w_out w)
  /\ exists es, added s2 (disk (after_two w hi ho c)) es
       /\ es = map (fun x => FWrite j (fst x) (snd x)) (d_log (w_out w)).
Proof.
  intros hi ho w c s2 i j plan planj DC EI EJ DI LI. unfold after_two. rewrite DC. rewrite EI, EJ.
  unfold set_a, disk. cbn [c_a fst]. split; [repeat split|].
  cbn [with_rng put_handle with_data s_data h_ino s_log]. split.
  - intros k NK. rewrite set_data_neq by exact NK. destruct (Nat.eq_dec k i) as [->|NI].
    + rewrite set_data_eq. exact DI.
    + apply set_data_neq. exact NI.
  - split; [apply set_data_eq|]. eexists. split; [|reflexivity]. unfold added.
    cbn [with_rng put_handle with_data s_log h_ino]. rewrite LI. cbn [map]. rewrite app_nil_r. reflexivity.
Qed.

Lemma tree_faults : forall s s', same_tree s s' -> no_faults s -> no_faults s'.
Proof. intros s s' (_ & _ & _ & _ & F & P) N. eapply no_faults_rest; eauto. Qed.

Lemma create_calm : forall s p o s', no_faults s -> create_or_write p s = (o, s') ->
  no_faults s' /\ (forall j, stat s p = Some (NFile j) -> exists h, o = Ok (EFile h) /\ h_ino h = j).
Proof.
  intros s p o s' [NF1 NF2] H. unfold create_or_write, or_else, create_file, call_or, next_fault in H.
  rewrite NF1 in H.
  assert (W : write_file p s = (o, s') -> no_faults s' /\ forall j, stat s p = Some (NFile j) -> exists h, o = Ok (EFile h) /\ h_ino h = j).
  { intros W. destruct (write_file_any _ _ _ _ W) as [(-> & D2 & X)|(i & plan & sa & sb & ST & -> & D2 & -> & D3 & RG & C2)].
    - split; [|intros j SJ; destruct (X NF1 _ SJ)]. unfold write_file, call_or, next_fault in W. rewrite NF1 in W.
      specialize (X NF1). destruct (stat s p) as [[|i|t]|] eqn:SP; try (injection W as <-; split; assumption).
      destruct (X i eq_refl).
    - destruct (C2 (conj NF1 NF2)) as (-> & -> & ->). split; [split; cbn; assumption|]. intros j SJ. rewrite ST in SJ.
      injection SJ as <-. eexists. split; reflexivity. }
  destruct (resolve false s p) as [q|] eqn:R; [|exact (W H)].
  destruct (lookup (s_nodes s) q) eqn:L; [exact (W H)|].
  unfold new_handle, next_plan in H. cbn [s_plans] in H. rewrite NF2 in H. injection H as <- <-.
  split; [split; cbn; auto|]. intros j SJ. rewrite (free_absent _ _ _ R L) in SJ. discriminate.
Qed.

Definition dumped_gen (Q : Prop) (s s' : sys) (input output : string) : Prop :=
  exists i j plan h aad d' b n,
    stat s (os_path input) = Some (NFile i) /\ stat s' (os_path output) = Some (NFile j) /\ i <> j
    /\ deserialize (mkDev (s_data s i) 0 plan []) = (Ok (h, aad), d') /\ serialize h = Ok b
    /\ n <= List.length b /\ s_data s' j = firstn n b
    /\ (Q -> plan = [] /\ n = List.length b).

Lemma dump_rest_any : forall (Q : Prop) input output i plan c o c', (Q -> no_faults (disk c)) ->
  stat (disk c) (os_path input) = Some (NFile i) -> i < s_next (disk c) ->
  (Q -> plan = []) ->
  dump_rest input output (EFile (mkHandle (os_path input) i 0 plan)) c = (o, c') ->
  regular o /\ asks_nothing c c' /\ c_out c' = c_out c
  /\ only_writes (disk c) [os_path output] (disk c')
  /\ (Q -> no_faults (disk c'))
  /\ (o = Ok tt -> dumped_gen Q (disk c) (disk c') input output)
  /\ (Q -> forall h aad d', deserialize (dev_at (s_data (disk c) i) 0) = (Ok (h, aad), d') ->
        ~ In (version_of h) [V1; V2] -> stat (disk c) (os_path output) <> Some (NFile i) ->
        writable (disk c) (os_path output) Force -> o = Ok tt)
  /\ (Q -> stat (disk c) (os_path output) = Some (NFile i) ->
        (exists e, o = Err (THop e)) /\ s_data (disk c') i = []).
Proof.
  intros Q input output i plan c o c' QN ST LT PL H. unfold dump_rest in H.
  unfold bind at 1, up at 1 in H. rewrite map_err_run, storage_run in H.
  destruct (create_or_write (os_path output) (disk c)) as [r s2] eqn:CW. cbn [fst snd] in H.
  destruct (ow_create_or_write _ [os_path output] _ _ _ _ (ow_refl _ _) (or_introl eq_refl) CW) as [OW MW].
  assert (CALM : Q -> _) by (intros N; exact (create_calm _ _ _ _ (QN N) CW)).
  assert (FREE : Q -> writable (disk c) (os_path output) Force -> exists h, r = Ok (EFile h)).
  { intros N [(q & R & L)|(_ & j & SJ)].
    - destruct (create_free _ _ _ (QN N) R L) as (h & s' & E & _). rewrite CW in E. injection E as -> _. eauto.
    - destruct (proj2 (CALM N) j SJ) as (h & -> & _). eauto. }
  destruct (create_or_write_any _ _ _ _ CW) as [(e & -> & SD)|(ho & -> & HP & PO & DE & CWD & TM & RN & OTH & NF & CASES)].
  { cbn [omap] in H. injection H as <- <-. rewrite set_disk_disk. split; [split; discriminate|].
    split; [split; reflexivity|]. split; [reflexivity|]. split; [exact OW|].
    split; [intros N; apply (CALM N)|]. split; [discriminate|]. split.
    - intros N h aad d' _ _ _ WR. destruct (FREE N WR) as (x & X). discriminate X.
    - intros N SJ. destruct (proj2 (CALM N) i SJ) as (x & X & _). discriminate X. }
  specialize (MW ho eq_refl). pose proof (cow_stat _ _ _ _ CW) as STO.
  set (hi := mkHandle (os_path input) i 0 plan) in *. set (c2 := set_disk s2 c) in *. cbn [omap] in H.
  unfold bind, up in H. rewrite !map_err_run in H. cbn [try_handle ret fst snd omap] in H.
  cbn [try_handle ret fst snd omap] in H.
  destruct (header_dump (two_world hi ho c2)) as [ro w] eqn:HD.
  assert (RM : map_err THop header_dump (two_world hi ho c2) = (omap THop ro, w)) by (rewrite map_err_run, HD; reflexivity).
  rewrite (on_handles_run _ _ _ _ _ _ RM) in H.
  destruct (dump_any _ _ _ HD) as ([UI1 UI2] & _ & RES).
  change (w_in (two_world hi ho c2)) with (mkDev (s_data s2 i) 0 plan []) in *.
  change (w_out (two_world hi ho c2)) with (handle_dev s2 ho) in *.
  cbn [d_data d_log d_plan] in UI1, UI2.
  assert (HO : ho = mkHandle (h_path ho) (h_ino ho) 0 (h_plan ho)) by (destruct ho; cbn in PO; subst; reflexivity).
  destruct (dumped hi ho w c2 s2 i (h_ino ho) plan (h_plan ho) eq_refl eq_refl HO UI1 UI2)
    as (TREE & OTH2 & DJ & es & AD & ES).
  set (c3 := after_two w hi ho c2) in *.
  assert (OW3 : only_writes (disk c) [os_path output] (disk c3)).
  { eapply ow_files with (ws := [h_ino ho]); [exact OW|exact TREE| | |].
    - intros j [<-|[]]. exact MW.
    - intros j NJ. apply OTH2. intros ->. apply NJ. left. reflexivity.
    - exists es. split; [exact AD|]. subst es. apply Forall_forall. intros x IX.
      apply in_map_iff in IX as (y & <- & _). left. reflexivity. }
  assert (NF3 : Q -> no_faults (disk c3)).
  { intros N. eapply tree_faults; [exact TREE|]. apply (NF (QN N)). }
  assert (DOUT : d_data (handle_dev s2 ho) = [] /\ d_pos (handle_dev s2 ho) = 0).
  { split; [exact DE|exact PO]. }
  assert (HPL : Q -> d_plan (handle_dev s2 ho) = []) by (intros N; apply (NF (QN N))).
  assert (IJ : stat (disk c) (os_path output) <> Some (NFile i) -> i <> h_ino ho).
  { intros NS E. destruct CASES as [(q & _ & _ & HI & _)|(SO & _)]; [lia|]. apply NS. rewrite SO, E. reflexivity. }
  assert (SAME : i = h_ino ho -> forall p h aad d', deserialize (mkDev (s_data s2 i) 0 p []) <> (Ok (h, aad), d')).
  { intros E p h aad d' D. rewrite E, DE in D. clear - D.
    pose proof (deserialize_spec _ _ _ D) as (_ & _ & _ & SP). cbv zeta in SP. destruct SP as (SP & _).
    cbn [d_data d_pos skipn] in SP. rewrite firstn_nil in SP. destruct (ht_version (h_type h)); discriminate SP. }
  assert (S2I : i <> h_ino ho -> s_data s2 i = s_data (disk c) i) by (intros NI; apply OTH; exact NI).
  destruct RES as [(h & aad & d' & b & n & -> & DS & SR & NB & WR & FULL)|(e & -> & UO & OLD)]; cbn [omap] in H.
  - rewrite map_err_run, storage_run in H.
    destruct (flush_file (EFile ho) (disk c3)) as [rf s4] eqn:FL. cbn [fst snd] in H. injection H as <- <-.
    destruct (flush_file_any _ _ _ _ FL) as (SD4 & NP & ND & CF).
    assert (NIJ : i <> h_ino ho) by (intros E; exact (SAME E _ _ _ _ DS)).
    rewrite (S2I NIJ) in DS. rewrite set_disk_disk.
    assert (DJ4 : s_data s4 (h_ino ho) = firstn n b).
    { destruct SD4 as (_ & -> & _). rewrite DJ. eapply wrote_empty; [exact WR|exact DE|exact PO]. }
    split; [destruct rf; split; try discriminate; contradiction|].
    split; [split; reflexivity|]. split; [reflexivity|]. split; [eapply ow_then_disk; eauto|].
    split; [intros N; destruct (CF (NF3 N)) as [-> _]; exact (NF3 N)|]. split; [|split].
    + intros _. exists i, (h_ino ho), plan, h, aad, d', b, n. split; [exact ST|].
      split. { rewrite (stat_disk _ _ _ SD4). unfold stat. destruct TREE as (TN & TC & _).
               rewrite TN, (resolve_nodes true s2 (disk c3)) by (symmetry; assumption). exact STO. }
      do 4 (split; [assumption|]). split; [exact DJ4|]. intros N. split; [exact (PL N)|]. apply FULL, HPL, N.
    + intros N _ _ _ _ _ _ _. destruct (CF (NF3 N)) as [_ X]. rewrite (X _ eq_refl). reflexivity.
    + intros N SI. exfalso. destruct (proj2 (CALM N) i SI) as (x & X & XI). injection X as <-. congruence.
  - injection H as <- <-. split; [split; discriminate|].
    split; [split; reflexivity|]. split; [reflexivity|]. split; [exact OW3|]. split; [exact NF3|].
    split; [discriminate|]. split.
    + intros N h aad d' D NV NS _. exfalso. apply NV. eapply (OLD (HPL N)). rewrite (S2I (IJ NS)), (PL N). exact D.
    + intros N SI. split; [eauto|]. destruct (proj2 (CALM N) i SI) as (x & X & XI). injection X as <-.
      rewrite <- XI, DJ. destruct UO as [-> _]. exact DE.
Qed.

Lemma resolve_disk : forall f s s' p, same_disk s s' -> resolve f s' p = resolve f s p.
Proof. intros f s s' p (N & _ & _ & C & _). apply resolve_nodes; assumption. Qed.

Lemma ow_start : forall s ts s1 s2, same_disk s s1 -> only_writes s1 ts s2 -> only_writes s ts s2.
Proof.
  intros s ts s1 s2 SD [A1 A2 A3 A4 A5 (es & A6 & A7)]. pose proof SD as (B1 & B2 & B3 & B4 & B5 & B6).
  assert (MW : forall j, may_write s1 ts j <-> may_write s ts j).
  { intros j. unfold may_write. rewrite B3.
    split; (intros [X|(t & I & X)]; [left; exact X|right; exists t; split; [exact I|]]);
      [rewrite <- (stat_disk _ _ _ SD)|rewrite (stat_disk _ _ _ SD)]; exact X. }
  constructor; try congruence; try lia.
  - intros r. rewrite <- B1, <- B3. apply A4.
  - intros j NJ. rewrite A5 by (rewrite MW; exact NJ). congruence.
  - exists es. split; [unfold added in *; congruence|]. eapply Forall_impl; [|exact A7].
    intros e. unfold write_event. destruct e; try (intros []; fail); rewrite ?MW, ?B3; auto.
Qed.

Lemma dump_rest_dir : forall input output p c o c', dump_rest input output (EDir p) c = (o, c') ->
  (exists e, o = Err e) /\ asks_nothing c c'
  /\ only_writes (disk c) [os_path output] (disk c')
  /\ (no_faults (disk c) -> no_faults (disk c')).
Proof.
  intros input output p c o c' H. unfold dump_rest in H.
  unfold bind at 1, up at 1 in H. rewrite map_err_run, storage_run in H.
  destruct (create_or_write (os_path output) (disk c)) as [r s2] eqn:CW. cbn [fst snd] in H.
  destruct (ow_create_or_write _ [os_path output] _ _ _ _ (ow_refl _ _) (or_introl eq_refl) CW) as [OW _].
  assert (X : (exists e, o = Err e) /\ c' = set_disk s2 c).
  { destruct (create_or_write_any _ _ _ _ CW) as [(e & -> & SD)|(ho & -> & _)]; cbn [omap] in H.
    - injection H as <- <-. eauto.
    - unfold bind, up in H. rewrite map_err_run in H. cbn [try_handle err fst snd omap] in H.
      injection H as <- <-. eauto. }
  destruct X as [E ->]. split; [exact E|]. split; [split; reflexivity|]. split; [exact OW|].
  intros N. exact (proj1 (create_calm _ _ _ _ N CW)).
Qed.

Lemma dump_path : forall input output force c o c', inodes_ok (disk c) ->
  dump input output force c = (o, c') ->
  regular o /\ c_tty c' = c_tty c
  /\ only_writes (disk c) [os_path output] (disk c')
  /\ (no_faults (disk c) -> no_faults (disk c'))
  /\ (o = Ok tt -> dumped_header (disk c) (disk c') input output)
  /\ (no_faults (disk c) -> forall i h aad, stat (disk c) (os_path input) = Some (NFile i) ->
        header_is (s_data (disk c) i) h aad ->
        ~ In (version_of h) [V1; V2] -> stat (disk c) (os_path output) <> Some (NFile i) ->
        writable (disk c) (os_path output) force -> o = Ok tt)
  /\ (no_faults (disk c) -> forall i, stat (disk c) (os_path input) = Some (NFile i) ->
        stat (disk c) (os_path output) = Some (NFile i) ->
        (exists e, o = Err e) /\ (force = Force -> s_data (disk c') i = []))
  /\ (forall ls, force = Prompt -> exists_path (disk c) (os_path output) = true ->
        lines (c_stdin c) ls -> (forall n r, ~ dialogue true ls (Some true) n r) ->
        o <> Ok tt /\ unchanged (disk c) (disk c')).
Proof.
  intros input output force c o c' IOK H. rewrite dump_eq in H.
  unfold bind at 1, up at 1 in H. rewrite map_err_run, storage_run in H.
  destruct (read_file (os_path input) (disk c)) as [r s1] eqn:RF. cbn [fst snd] in H.
  destruct (read_file_any _ _ _ _ RF) as (SD & CA & CASES).
  assert (NF1 : no_faults (disk c) -> no_faults s1) by (intros N; rewrite (CA N); exact N).
  set (c1 := set_disk s1 c) in *.
  assert (BAD : forall e c2, disk c2 = s1 -> c_tty c2 = c_tty c -> (Err e, c2) = (o, c') ->
    (no_faults (disk c) -> forall i h aad, stat (disk c) (os_path input) = Some (NFile i) ->
        header_is (s_data (disk c) i) h aad ->
        ~ In (version_of h) [V1; V2] -> stat (disk c) (os_path output) <> Some (NFile i) ->
        ~ writable (disk c) (os_path output) force) ->
    (no_faults (disk c) -> force = Force -> forall i, stat (disk c) (os_path input) <> Some (NFile i)) ->
    regular o /\ c_tty c' = c_tty c
  /\ only_writes (disk c) [os_path output] (disk c')
  /\ (no_faults (disk c) -> no_faults (disk c'))
  /\ (o = Ok tt -> dumped_header (disk c) (disk c') input output)
  /\ (no_faults (disk c) -> forall i h aad, stat (disk c) (os_path input) = Some (NFile i) ->
        header_is (s_data (disk c) i) h aad ->
        ~ In (version_of h) [V1; V2] -> stat (disk c) (os_path output) <> Some (NFile i) ->
        writable (disk c) (os_path output) force -> o = Ok tt)
  /\ (no_faults (disk c) -> forall i, stat (disk c) (os_path input) = Some (NFile i) ->
        stat (disk c) (os_path output) = Some (NFile i) ->
        (exists e, o = Err e) /\ (force = Force -> s_data (disk c') i = []))
  /\ (forall ls, force = Prompt -> exists_path (disk c) (os_path output) = true ->
        lines (c_stdin c) ls -> (forall n r, ~ dialogue true ls (Some true) n r) ->
        o <> Ok tt /\ unchanged (disk c) (disk c'))).
  { intros e c2 D2 T2 E F1 F2. injection E as <- <-. rewrite D2. split; [split; discriminate|].
    split; [exact T2|]. split; [apply ow_disk; exact SD|]. split; [exact NF1|]. split; [discriminate|].
    split; [|split].
    - intros N i h aad A B C D W. destruct (F1 N i h aad A B C D W).
    - intros N i A _. split; [eauto|]. intros EF. destruct (F2 N EF i A).
    - intros ls _ _ _ _. split; [discriminate|]. apply un_disk. exact SD. }
  destruct r as [fi|e| |]; cbn [omap] in H.
  2:{ apply (BAD (TCli (CStorage e)) c1 eq_refl eq_refl H).
      - intros N i h aad A _ _ _ _. destruct CASES as [[X _]|[(j & pl & X & _)|[X Y]]]; try discriminate X.
        destruct (Y N _ A) as (t & E). discriminate E.
      - intros N _ i A. destruct CASES as [[X _]|[(j & pl & X & _)|[X Y]]]; try discriminate X.
        destruct (Y N _ A) as (t & E). discriminate E. }
  2,3: exfalso; destruct CASES as [[X _]|[(i & pl & X & _)|[X _]]]; discriminate X.
  unfold bind at 1, up at 1 in H. rewrite map_err_run in H.
  destruct (check_or_exit output force c1) as [rc c2] eqn:CK. cbn [fst snd] in H.
  destruct (check_or_exit_any _ _ _ _ _ CK) as (CA2 & TT2 & OC & FR2). change (c_tty c1) with (c_tty c) in TT2.
  assert (D2 : disk c2 = s1) by (unfold disk; rewrite CA2; reflexivity).
  assert (FORCE : force = Force -> rc = Ok tt).
  { intros ->. unfold check_or_exit, bind, overwrite_check in CK.
    destruct (exists_path _ _) in CK; unfold get_answer in CK; cbn in CK; injection CK as <- _; reflexivity. }
  assert (GO : no_faults (disk c) -> writable (disk c) (os_path output) force -> rc = Ok tt).
  { intros N [(q & R & L)|(EF & _)]; [|apply FORCE; exact EF]. apply FR2. unfold exists_path.
    change (disk c1) with s1. rewrite (stat_disk _ _ _ SD), (free_absent _ _ _ R L). reflexivity. }
  assert (EX1 : exists_path (disk c) (os_path output) = true -> exists_path (disk c1) (os_path output) = true).
  { unfold exists_path. change (disk c1) with s1. rewrite (stat_disk _ _ _ SD). auto. }
  assert (X : rc = Ok tt \/ exists e, rc = Err e) by (destruct OC as [<-|[<-|[<-|[]]]]; eauto).
  destruct X as [->|(e & ->)]; cbn [omap] in H.
  2:{ apply (BAD (TCli e) c2 D2 TT2 H).
      - intros N i h aad _ _ _ _ W. discriminate (GO N W).
      - intros N EF. discriminate (FORCE EF). }
  destruct CASES as [(X & STD)|[(i & plan & X & ST & PL)|[X _]]]; [| |discriminate X]; injection X as ->.
  { (* a directory: the output is made all the same *)
    destruct (dump_rest_dir _ _ _ _ _ _ H) as ((e & ->) & [_ T3] & OW & NF). rewrite D2 in *.
    split; [split; discriminate|]. split; [congruence|]. split; [exact (ow_start _ _ _ _ SD OW)|].
    split; [auto|]. split; [discriminate|]. split; [|split].
    - intros N i h aad A. congruence.
    - intros N i A. congruence.
    - intros ls EF EX LS ND. exfalso. subst force.
      destruct (check_not_agreed output c1 _ _ ls LS ND (EX1 EX) CK) as [_ [X|X]]; discriminate X. }
  assert (ST1 : stat (disk c2) (os_path input) = Some (NFile i)) by (rewrite D2, (stat_disk _ _ _ SD); exact ST).
  assert (LT : i < s_next (disk c2)).
  { rewrite D2. destruct SD as (_ & _ & -> & _). unfold stat in ST. destruct (resolve true (disk c) (os_path input)); [|discriminate].
    eapply IOK; exact ST. }
  assert (QN : no_faults (disk c) -> no_faults (disk c2)) by (rewrite D2; exact NF1).
  destruct (dump_rest_any _ _ _ _ _ _ _ _ QN ST1 LT PL H) as (A1 & [_ A2] & A3 & A4 & A5 & A6 & A7 & A8).
  rewrite D2 in A4, A6, A7, A8. pose proof (proj1 (proj2 SD)) as DT. rewrite (stat_disk _ _ _ SD), DT in A7. rewrite (stat_disk _ _ _ SD) in A8.
  split; [exact A1|]. split; [congruence|]. split; [exact (ow_start _ _ _ _ SD A4)|].
  split; [exact A5|]. split; [|split; [|split]].
  - intros E. destruct (A6 E) as (i0 & j & pl & h & aad & d' & b & n & B1 & B). rewrite (stat_disk _ _ _ SD), DT in *|-.
    exists i0, j, pl, h, aad, d', b, n. auto.
  - intros N i0 h aad B1 (d' & B2) B3 B4 B5. rewrite ST in B1. injection B1 as <-. eapply A7; eauto.
    destruct B5 as [(q & R & L)|(_ & B5)].
    + left. exists q. rewrite (resolve_disk _ _ _ _ SD). destruct SD as (-> & _). auto.
    + right. split; [reflexivity|]. rewrite (stat_disk _ _ _ SD). exact B5.
  - intros N i0 B1 B2. rewrite ST in B1. injection B1 as <-. destruct (A8 N B2) as [[e ->] B3]. eauto.
  - intros ls EF EX LS ND. exfalso. subst force.
    destruct (check_not_agreed output c1 _ _ ls LS ND (EX1 EX) CK) as [_ [X|X]]; discriminate X.
Qed.

(** ** All three *)

Lemma only_header_stat : forall i n s s' p, only_header i n s s' -> stat s' p = stat s p.
Proof.
  intros i n s s' p ((A & _ & _ & B & _) & _). unfold stat. rewrite A, (resolve_nodes true s s' p A B). reflexivity.
Qed.
Lemma only_file_stat : forall i n s s' p, only_file i n s s' -> stat s' p = stat s p.
Proof.
  intros i n s s' p (A & _ & _ & B & _). unfold stat. rewrite A, (resolve_nodes true s s' p A B). reflexivity.
Qed.

Lemma header_is_wff : forall h hdr body data, well_formed_file h hdr body data ->
  exists h' aad, header_is data h' aad /\ version_of h' = version_of h /\ serialize h' = Ok hdr.
Proof.
  intros h hdr body data W. destruct (wff_aad _ _ _ _ W) as (aad & A).
  pose proof (wff_deserialize _ _ _ _ _ [] W A) as D.
  eexists _, aad. split; [eexists; exact D|]. split; [apply reread_version|]. apply reread_serialize; apply W.
Qed.

Lemma not_old : forall h b, serialize h = Ok b -> ~ In (version_of h) [V1; V2].
Proof.
  intros h b S [X|[X|[]]]; unfold version_of in X; unfold serialize in S; rewrite <- X in S; discriminate S.
Qed.

Lemma header_is_unique : forall data h aad h' aad', header_is data h aad -> header_is data h' aad' ->
  h' = h /\ aad' = aad.
Proof. intros data h aad h' aad' (d & A) (d' & B). rewrite A in B. injection B as <- <- _. auto. Qed.

Lemma round_path : forall c input output force i h hdr body, no_faults (disk c) -> inodes_ok (disk c) ->
  stat (disk c) (os_path input) = Some (NFile i) -> well_formed_file h hdr body (s_data (disk c) i) ->
  stat (disk c) (os_path output) <> Some (NFile i) -> writable (disk c) (os_path output) force ->
  exists c1 c2 c3 j,
    dump input output force c = (Ok tt, c1)
    /\ strip input c1 = (Ok tt, c2)
    /\ restore output input c2 = (Ok tt, c3)
    /\ stat (disk c3) (os_path input) = Some (NFile i)
    /\ stat (disk c3) (os_path output) = Some (NFile j)
    /\ s_data (disk c1) i = s_data (disk c) i /\ s_data (disk c1) j = hdr
    /\ s_data (disk c2) i = zeros (List.length hdr) ++ body /\ s_data (disk c2) j = hdr
    /\ s_data (disk c3) i = s_data (disk c) i /\ s_data (disk c3) j = hdr
    /\ (forall k, k <> j -> k < s_next (disk c) -> s_data (disk c3) k = s_data (disk c) k).
Proof.
  intros c input output force i h hdr body NF IO ST W NE WR.
  destruct (header_is_wff _ _ _ _ W) as (h1 & aad1 & HI & HV & HS). pose proof (not_old _ _ HS) as NV.
  pose proof (wff_size _ _ _ _ W) as SZ. fold (version_of h) in SZ. rewrite <- HV in SZ.
  destruct (dump input output force c) as [o1 c1] eqn:D1.
  destruct (dump_path _ _ _ _ _ _ IO D1) as (_ & _ & OW & NF1 & OK1 & GO1 & _). specialize (NF1 NF).
  rewrite (GO1 NF _ _ _ ST HI NV NE WR) in *. destruct (OK1 eq_refl) as (i' & j & plan & h' & aad' & d' & b & n & A1 & A2 & A3 & A4 & A5 & A6 & A7 & A8).
  destruct (A8 NF) as [-> ->]. rewrite firstn_all in A7. rewrite ST in A1. injection A1 as <-.
  destruct (header_is_unique _ _ _ _ _ HI (ex_intro _ _ A4)) as [-> ->]. rewrite HS in A5. injection A5 as <-.
  assert (LI : i < s_next (disk c)).
  { unfold stat in ST. destruct (resolve true (disk c) (os_path input)); [|discriminate]. eapply IO; exact ST. }
  assert (MW : forall k, k < s_next (disk c) -> k <> j -> ~ may_write (disk c) [os_path output] k).
  { intros k LK NK [X|(t & [<-|[]] & X)]; [lia|]. apply NK.
    rewrite (ow_stat_kept _ _ _ _ _ OW X) in A2. injection A2 as ->. reflexivity. }
  assert (KEEP1 : forall k, k < s_next (disk c) -> k <> j -> s_data (disk c1) k = s_data (disk c) k).
  { intros k LK NK. apply (ow_data _ _ _ OW). apply MW; assumption. }
  pose proof (ow_stat_kept _ _ _ _ _ OW ST) as ST1.
  pose proof (KEEP1 i LI A3) as DI1.
  destruct (strip input c1) as [o2 c2] eqn:D2.
  destruct (strip_path _ _ _ _ D2) as (_ & _ & _ & NF2 & CASES & GO2). specialize (NF2 NF1).
  assert (o2 = Ok tt) by (eapply (GO2 NF1); [exact ST1|rewrite DI1; exact A4]). subst o2.
  destruct CASES as [[X _]|(i2 & plan2 & h2 & aad2 & d2 & B1 & B0 & B2 & B3 & B4)]; [contradiction X; reflexivity|].
  rewrite ST1 in B1. injection B1 as <-. specialize (B4 eq_refl).
  rewrite (B0 NF1), DI1 in B2. destruct (header_is_unique _ _ _ _ _ HI (ex_intro _ _ B2)) as [-> ->].
  rewrite DI1, <- SZ in B4. destruct W as (W1 & W2 & W3). rewrite W3, skipn_app_exact in B4 by reflexivity.
  pose proof (only_header_stat _ _ _ _ (os_path output) B3) as SO. rewrite A2 in SO.
  pose proof (only_header_stat _ _ _ _ (os_path input) B3) as SI. rewrite ST1 in SI.
  assert (DJ2 : s_data (disk c2) j = hdr) by (destruct B3 as ((_ & X & _) & _); rewrite X by auto; exact A7).
  assert (W0 : well_formed_file h hdr [] hdr) by (split; [exact W1|split; [exact W2|now rewrite app_nil_r]]).
  destruct (header_is_wff _ _ _ _ W0) as (h3 & aad3 & HI3 & HV3 & HS3).
  destruct (restore output input c2) as [o3 c3] eqn:D3.
  destruct (restore_path _ _ _ _ _ D3) as (_ & _ & _ & _ & _ & OK3 & GO3).
  assert (o3 = Ok tt).
  { apply (GO3 NF2). exists j, i, h3, aad3, hdr. do 2 (split; [assumption|]). rewrite DJ2. split; [exact HI3|].
    split; [exact HS3|]. rewrite B4, HV3, <- HV, <- SZ, firstn_app_exact by (now rewrite zeros_length). apply all_zero_zeros. }
  subst o3. destruct (OK3 eq_refl) as (j' & i' & pl & h4 & aad4 & d4 & b & E1 & E2 & E3 & E4 & E5 & E6 & (n & E7 & E8 & E9) & E10).
  rewrite SO in E1. injection E1 as <-. rewrite SI in E2. injection E2 as <-.
  destruct (E10 NF2) as [-> _]. rewrite DJ2 in E3. destruct (header_is_unique _ _ _ _ _ HI3 (ex_intro _ _ E3)) as [-> ->].
  rewrite HS3 in E4. injection E4 as <-. rewrite (E9 NF2), firstn_all, B4, write_at_0 in E8.
  rewrite skipn_app_exact in E8 by (now rewrite zeros_length).
  exists c1, c2, c3, j. do 3 (split; [first [reflexivity|assumption]|]).
  split; [rewrite (only_file_stat _ _ _ _ _ E6); exact SI|].
  split; [rewrite (only_file_stat _ _ _ _ _ E6); exact SO|].
  do 4 (split; [assumption|]). split; [congruence|].
  split; [destruct E6 as (_ & X & _); rewrite X by auto; exact DJ2|].
  intros k NK LK. destruct (Nat.eq_dec k i) as [->|NI]; [congruence|].
  destruct E6 as (_ & X & _). rewrite X by exact NI. destruct B3 as ((_ & Y & _) & _). rewrite Y by exact NI.
  apply KEEP1; assumption.
Qed.
