(** Proofs about the limit on open files. *)
From Coq Require Import List Arith NArith ZArith Ascii String Bool Lia.
From Verif Require Import Bytes Outcome IO Primitives Crypto Header Stream KeyModel EncDec.
From Verif Require Import Overwrite Hash FS Erase Archive Cli.
From Verif Require Import FSSpec FSFacts IOFacts ArchiveSpec EraseProofs EraseDirProofs UnpackProofs PackProofs ArchiveWalk.
From Verif Require Import CliSpec CliKeys CliRuns CliProofs CliCommands CliPack SharedCalls NamesSpec NamesProofs NamesCli Limits LimitsSpec.
Import ListNotations.
Local Open Scope nat_scope.
Local Open Scope list_scope.

Section One.
Variable L : limits.

(** ** Enough *)

Hypothesis W : forall p, l_walk L p <= 10.

Lemma next_same : forall used p s, S (used + 10) <= l_open L -> read_next L used p s = read_file p s.
Proof.
  intros used p s E. pose proof (W p) as WP. unfold read_next.
  replace (used + l_walk L p <=? l_open L) with true by (symmetry; apply Nat.leb_le; lia).
  replace (S (used + l_walk L p) <=? l_open L) with true by (symmetry; apply Nat.leb_le; lia).
  destruct (is_dir s p); reflexivity.
Qed.
Lemma all_same : forall ps used s, used + List.length ps + 10 <= l_open L -> read_all_l L used ps s = read_all ps s.
Proof.
  induction ps as [|p ps IH]; intros used s E; [reflexivity|]. cbn [read_all_l read_all List.length] in *.
  transitivity ((e <- read_file p ;; es <- read_all_l L (opens e + used) ps ;; ret (e :: es))%m s).
  { apply first_congr. apply next_same. lia. }
  apply bind_congr. intros e s'. apply first_congr. apply IH.
  destruct e; cbn [opens]; lia.
Qed.
Lemma dir_same : forall used e s, (forall p, e = EDir p -> used + List.length (listing s p) + 10 <= l_open L) ->
  read_dir_l L used e s = read_dir e s.
Proof.
  intros used e s H. destruct e as [h|p]; [reflexivity|]. cbn [read_dir_l read_dir]. unfold call_or.
  destruct (next_fault s) as [b s1] eqn:NF. destruct b; [reflexivity|].
  assert (D : same_disk s s1) by (apply next_fault_spec in NF; exact (proj1 NF)).
  apply all_same. rewrite (listing_disk _ _ p D). apply H. reflexivity.
Qed.

Lemma listing_length : forall s p, List.length (listing s p) <= S (List.length (s_nodes s)).
Proof.
  intros s p. unfold listing. destruct (resolve true s p) as [q|]; [|cbn; lia]. cbn [List.length].
  apply le_n_S. induction (s_nodes s) as [|e t IH]; [cbn; lia|]. cbn [flat_map List.length]. rewrite app_length.
  destruct (strip_prefix q (fst e)) as [[|n r]|]; cbn [List.length]; lia.
Qed.

End One.

Lemma opened_le : forall es, opened_now es <= List.length es.
Proof.
  unfold opened_now. induction es as [|e es IH]; [cbn; lia|]. cbn [filter List.length].
  destruct (negb (entry_is_dir e)); cbn [List.length]; lia.
Qed.
Lemma opened_app : forall a b, opened_now (a ++ b) = opened_now a + opened_now b.
Proof. intros. unfold opened_now. rewrite filter_app, app_length. reflexivity. Qed.
Lemma forall2_length : forall {A B} (R : A -> B -> Prop) l m, Forall2 R l m -> List.length m = List.length l.
Proof. intros A B R l m H. induction H; cbn; congruence. Qed.

Lemma list_all_same : forall L, (forall p, l_walk L p <= 10) -> forall fs used c k,
  Forall (fun e => entry_is_dir e = true) fs -> List.length (s_nodes (disk c)) <= k ->
  used + List.length fs * S k + 10 <= l_open L ->
  list_all L used fs c = each (fun f => if entry_is_dir f then storage (read_dir f) else ret [f]) fs c.
Proof.
  intros L W. induction fs as [|f fs IH]; intros used c k F K E; [reflexivity|]. cbn [list_all each List.length] in *.
  apply Forall_cons_iff in F. destruct F as [D F].
  transitivity ((es <- (if entry_is_dir f then storage (read_dir f) else ret [f]) ;;
      ls <- list_all L (used + opened_now es) fs ;; ret (es :: ls))%m c).
  { apply first_congr. rewrite D. rewrite !storage_run. rewrite dir_same; [reflexivity|exact W|].
    intros p ->. pose proof (listing_length (disk c) p). lia. }
  apply bind_congr_ok. intros es c1 H1. apply first_congr.
  pose proof (proj1 (list_step _ _ _ _ H1)) as SD.
  assert (LE : List.length es <= S k).
  { rewrite D in H1. destruct (storage_inv _ _ _ _ H1) as (r & s1 & RD & EQ & _). destruct f as [h|p]; [discriminate|].
    destruct (read_dir_any _ _ _ _ RD) as (_ & P & _). destruct r as [l|x| |]; try discriminate.
    cbn in EQ. injection EQ as ->. rewrite (forall2_length _ _ _ (P l eq_refl)).
    pose proof (listing_length (disk c) p). lia. }
  apply (IH _ _ k); [exact F| |].
  - destruct SD as [-> _]. exact K.
  - pose proof (opened_le es). lia.
Qed.

Lemma made_nodes : forall p c o c', storage (create_or_write p) c = (o, c') ->
  List.length (s_nodes (disk c')) <= S (List.length (s_nodes (disk c))).
Proof.
  intros p c o c' H. destruct (storage_inv _ _ _ _ H) as (r & s1 & CW & _ & ->). rewrite set_disk_disk.
  destruct (create_or_write_any _ _ _ _ CW) as [(e & _ & (N & _))|(h & _ & _ & _ & _ & _ & _ & _ & _ & _ & NEW)];
    [rewrite N; lia|].
  destruct NEW as [(q & _ & _ & _ & _ & NN & _)|(_ & _ & NN & _)]; rewrite NN; [rewrite app_length; cbn|]; lia.
Qed.
Lemma header_nodes : forall p c o c', open_header p c = (Ok o, c') ->
  List.length (s_nodes (disk c')) <= S (List.length (s_nodes (disk c))).
Proof.
  intros p c o c' H. unfold open_header in H. destruct (cp_header p) as [h|]; [|injection H as <- <-; lia].
  apply bind_inv in H. destruct H as [[u [c1 [H1 H]]]|[[e [_ E]]|[[_ E]|[_ E]]]]; [|discriminate E..].
  destruct (check_or_exit_any _ _ _ _ _ H1) as (CA & _). rewrite <- (disk_a _ _ CA).
  apply bind_inv in H. destruct H as [[e [c2 [H2 H]]]|[[e [_ E]]|[[_ E]|[_ E]]]]; [|discriminate E..].
  injection H as <- <-. eapply made_nodes, H2.
Qed.

Lemma is_file_disk : forall s s' p, same_disk s s' -> is_file s' p = is_file s p.
Proof. intros s s' p D. unfold is_file. rewrite (stat_disk _ _ p D). reflexivity. Qed.

(** No input that is not a file is opened as one. *)
Lemma inputs_dirs : forall s l c es c', same_disk s (disk c) ->
  existsb (fun f => is_file s (os_path f)) l = false ->
  each (fun f => storage (read_file (os_path f))) l c = (Ok es, c') ->
  Forall (fun e => entry_is_dir e = true) es /\ List.length es = List.length l.
Proof.
  intros s. induction l as [|f l IH]; intros c es c' D X H; cbn [each existsb] in *; [injection H as <- <-; split; [constructor|reflexivity]|].
  apply orb_false_iff in X. destruct X as [X1 X2].
  apply bind_inv in H. destruct H as [[e [c1 [H1 H]]]|[[e [_ E]]|[[_ E]|[_ E]]]]; [|discriminate E..].
  apply bind_inv in H. destruct H as [[ys [c2 [H2 H]]]|[[y [_ E]]|[[_ E]|[_ E]]]]; [|discriminate E..].
  injection H as <- <-.
  destruct (IH c1 ys c2 (same_disk_trans _ _ _ D (proj1 (read_step _ _ _ _ H1))) X2 H2) as [F LEN].
  split; [|cbn [List.length]; rewrite LEN; reflexivity]. constructor; [|exact F].
  destruct (storage_inv _ _ _ _ H1) as (r & s1 & RF & E & _).
  destruct (CliRuns.read_file_any _ _ _ _ RF) as (_ & _ & [[-> _]|[(i & plan & -> & ST & _)|[-> _]]]).
  - cbn in E. injection E as ->. reflexivity.
  - rewrite (stat_disk _ _ (os_path f) D) in ST. unfold is_file in X1. rewrite ST in X1. discriminate X1.
  - discriminate E.
Qed.

Lemma pack_cli_enough : forall L V inputs output p pp a c, (forall x, l_walk L x <= 10) ->
  List.length inputs * (3 + List.length (s_nodes (disk c))) + 13 <= l_open L -> pp_erase pp = false ->
  pack_cli_l L V inputs output p pp a c = pack_cli V inputs output p pp a c.
Proof.
  intros L V inputs output p pp a c W E PE. unfold pack_cli_l, pack_cli.
  destruct (existsb (fun f => String.eqb f output) inputs); [reflexivity|].
  apply bind_congr_ok. intros u0 c0 H0.
  assert (A0 : c0 = c /\ existsb (fun f => is_file (disk c) (os_path f)) inputs = false).
  { unfold disk. destruct (existsb (fun f => is_file (fst (c_a c)) (os_path f)) inputs); [discriminate H0|]. injection H0 as _ <-. auto. }
  destruct A0 as [-> NFI].
  apply bind_congr_ok. intros u1 c1 H1.
  assert (A1 : disk c1 = disk c).
  { destruct (check_or_exit_any _ _ _ _ _ H1) as (CA & _). apply disk_a, CA. }
  apply bind_congr_ok. intros fs c2 H2.
  assert (D1 : same_disk (disk c) (disk c1)) by (rewrite A1; apply same_disk_refl).
  destruct (inputs_dirs _ _ _ _ _ D1 NFI H2) as [FD LEN].
  assert (N2 : s_nodes (disk c2) = s_nodes (disk c)).
  { assert (SD : same_disk (disk c1) (disk c2)).
    { eapply each_disk; [|exact H2]. intros x cx ox cx' _. apply read_step. }
    destruct SD as [-> _]. rewrite A1. reflexivity. }
  apply bind_congr_ok. intros raw c3 H3.
  assert (N3 : s_nodes (disk c3) = s_nodes (disk c)).
  { destruct (proj1 (get_secret_any _ _ _ _ _ _ H3)) as [-> _]. exact N2. }
  apply bind_congr_ok. intros fo c4 H4. pose proof (made_nodes _ _ _ _ H4) as N4.
  apply bind_congr_ok. intros fh c5 H5. pose proof (header_nodes _ _ _ _ H5) as N5.
  cbn zeta. set (used := S (match fh with Some _ => 1 | None => 0 end)).
  assert (U : used <= 2) by (unfold used; destruct fh; lia).
  assert (B5 : List.length (s_nodes (disk c5)) <= 2 + List.length (s_nodes (disk c))) by (rewrite N3 in N4; lia).
  transitivity ((lists <- each (fun f => if entry_is_dir f then storage (read_dir f) else ret [f]) fs ;;
    ho <- try_handle fo ;;
    on_a (if same_opt ho (ok_handle fh) then alias V [h_ino ho] else
        map_err CPack
          (if used + opened_now (List.concat lists) <? l_open L then
             pack_execute (ce_E V) (ce_Z V) (ce_pick V)
               (mkPackReq ho (ok_handle fh) (List.concat lists) (pp_compression pp) raw
                          (mkHT V5 a StreamMode) (cp_hashing p))
           else err PkCreateArchive)) ;;
    flush_opt fh ;;
    storage (flush_file fo) ;;
    (if cp_hash p then hash_files V [output] else ret tt) ;;
    (if pp_erase pp then each_ (fun f => secure_erase_l L 1 V f 1%Z (cp_force p)) inputs else ret tt))%m c5).
  { apply first_congr. apply (list_all_same L W fs used c5 (2 + List.length (s_nodes (disk c)))); [exact FD|exact B5|].
    rewrite LEN. cbn [Nat.add] in *. lia. }
  apply bind_congr_ok. intros lists c6 H6.
  assert (TOT : opened_now (List.concat lists) <= List.length fs * (3 + List.length (s_nodes (disk c)))).
  { clear - H6 B5 FD. revert c5 B5 lists c6 H6. induction fs as [|f fs IH]; intros c5 B5 lists c6 H6; cbn [each] in H6.
    - injection H6 as <- <-. cbn. lia.
    - apply Forall_cons_iff in FD. destruct FD as [D FD].
      apply bind_inv in H6. destruct H6 as [[x [c1 [H1 H]]]|[[y [_ X]]|[[_ X]|[_ X]]]]; [|discriminate X..].
      apply bind_inv in H. destruct H as [[ys [c2 [H2 H]]]|[[y [_ X]]|[[_ X]|[_ X]]]]; [|discriminate X..].
      injection H as <- <-. cbn [List.concat List.length]. rewrite opened_app.
      pose proof (proj1 (list_step _ _ _ _ H1)) as SD.
      assert (B1 : List.length (s_nodes (disk c1)) <= 2 + List.length (s_nodes (disk c))) by (destruct SD as [-> _]; exact B5).
      specialize (IH FD c1 B1 ys c2 H2).
      assert (LE : List.length x <= 3 + List.length (s_nodes (disk c))).
      { rewrite D in H1. destruct (storage_inv _ _ _ _ H1) as (r & s1 & RD & EQ & _). destruct f as [h|q]; [discriminate|].
        destruct (read_dir_any _ _ _ _ RD) as (_ & P & _). destruct r as [l|e| |]; try discriminate.
        cbn in EQ. injection EQ as ->. rewrite (forall2_length _ _ _ (P l eq_refl)).
        pose proof (listing_length (disk c5) q). lia. }
      pose proof (opened_le x). cbn [Nat.mul]. lia. }
  apply bind_congr. intros ho c7.
  replace (used + opened_now (List.concat lists) <? l_open L) with true by (symmetry; apply Nat.ltb_lt; rewrite LEN in TOT; lia).
  rewrite PE. reflexivity.
Qed.

(** ** Too many *)

Lemma all_ok : forall L ps used s es s', read_all_l L used ps s = (Ok es, s') ->
  read_all ps s = (Ok es, s') /\ (opened_now es = 0 \/ used + opened_now es <= l_open L).
Proof.
  intros L. induction ps as [|p ps IH]; intros used s es s' H; cbn [read_all_l read_all] in *.
  - injection H as <- <-. split; [reflexivity|left; reflexivity].
  - apply bind_inv in H. destruct H as [[e [s1 [H1 H]]]|[[e [_ E]]|[[_ E]|[_ E]]]]; [|discriminate E..].
    apply bind_inv in H. destruct H as [[r [s2 [H2 H]]]|[[e' [_ E]]|[[_ E]|[_ E]]]]; [|discriminate E..].
    injection H as <- <-. destruct (IH _ _ _ _ H2) as [R2 C2].
    assert (X : read_file p s = (Ok e, s1) /\ (opens e = 0 \/ S used <= l_open L)).
    { unfold read_next in H1. destruct (is_dir s p) eqn:D.
      - destruct (_ <=? _); [|discriminate H1]. split; [exact H1|]. unfold read_file in H1. rewrite D in H1.
        injection H1 as <- _. left. reflexivity.
      - destruct (S _ <=? _) eqn:LE; [|discriminate H1]. apply Nat.leb_le in LE. split; [exact H1|]. right. lia. }
    destruct X as [R1 C1]. split.
    + rewrite (bind_ok _ _ _ _ _ R1), (bind_ok _ _ _ _ _ R2). reflexivity.
    + unfold opened_now in *. cbn [filter]. destruct e as [h|q]; cbn [entry_is_dir negb List.length opens] in *; [|exact C2].
      right. destruct C1 as [C1|C1]; [discriminate|]. destruct C2 as [C2|C2]; lia.
Qed.

Lemma files_counted : forall s p q rs es, resolve true s p = Some q -> lookup (s_nodes s) q = Some NDir ->
  NoDup rs -> (forall r, In r rs -> r <> [] /\ (exists i, In (q ++ r, NFile i) (s_nodes s) /\ lookup (s_nodes s) (q ++ r) = Some (NFile i))
     /\ forall a b, r = a ++ b -> a <> [] -> b <> [] -> lookup (s_nodes s) (q ++ a) = Some NDir) ->
  Forall2 (opened s) (listing s p) es -> List.length rs <= opened_now es.
Proof.
  intros s p q rs es R L ND F P.
  assert (INC : forall r, In r rs -> In (sub p r) (map entry_path (filter (fun e => negb (entry_is_dir e)) es))).
  { intros r I. destruct (F r I) as (NE & (i & IN & LK) & DIRS).
    assert (ST : stat s (sub p r) = Some (NFile i)).
    { unfold stat, sub. rewrite (resolve_below true s p q r R L NE DIRS); [exact LK|].
      right. intros t. rewrite LK. discriminate. }
    assert (IL : In (sub p r) (listing s p)).
    { unfold listing. rewrite R. right. apply in_flat_map. exists (q ++ r, NFile i). split; [exact IN|].
      cbn [fst]. rewrite strip_self. destruct r as [|n r]; [congruence|]. left. reflexivity. }
    clear - P IL ST. induction P as [|x e ps es [O1 [O2 O3]] P IH]; [destruct IL|]. cbn [filter].
    destruct IL as [->|IL].
    - unfold is_dir in O2. rewrite ST in O2. rewrite O2. left. exact O1.
    - specialize (IH IL). destruct (negb (entry_is_dir e)); [right; exact IH|exact IH]. }
  unfold opened_now. rewrite <- (map_length entry_path). rewrite <- (map_length (sub p) rs).
  apply NoDup_incl_length.
  - clear - ND. induction ND as [|r rs NI ND IH]; cbn [map]; [constructor|]. constructor; [|exact IH].
    intros X. apply in_map_iff in X. destruct X as (r' & EQ & X). unfold sub in EQ. injection EQ as EQ.
    apply app_inv_head in EQ. assert (r' = r); [|subst; contradiction].
    clear - EQ. revert r EQ. induction r' as [|n r' IH]; intros [|m r] EQ; try discriminate; [reflexivity|].
    cbn in EQ. injection EQ as -> EQ. f_equal. apply IH, EQ.
  - intros x X. apply in_map_iff in X. destruct X as (r & <- & X). apply INC, X.
Qed.

(** What [tree_ok] and [files_in] give, also later. *)
Lemma files_later : forall s s' q rs, tree_ok s -> lookup (s_nodes s) q = Some NDir -> files_in s q rs -> later s s' ->
  forall r, In r rs -> r <> [] /\ (exists i, In (q ++ r, NFile i) (s_nodes s') /\ lookup (s_nodes s') (q ++ r) = Some (NFile i))
     /\ forall a b, r = a ++ b -> a <> [] -> b <> [] -> lookup (s_nodes s') (q ++ a) = Some NDir.
Proof.
  intros s s' q rs (ND & NR & PAR) L [_ F] LT r I. destruct (F r I) as (i & l & AP).
  assert (LK : lookup (s_nodes s) (q ++ r) = Some (NFile i)).
  { unfold at_place in AP. destruct (lookup (s_nodes s) (q ++ r)) as [[|j|t]|]; try discriminate. injection AP as -> _. reflexivity. }
  assert (IN : In (q ++ r, NFile i) (s_nodes s)).
  { destruct (q ++ r) as [|y z] eqn:E; [cbn in LK; discriminate|]. apply find_in. exact LK. }
  split. { intros ->. rewrite app_nil_r in LK. congruence. }
  split. { exists i. split; [apply (lt_in _ _ LT), IN|apply (lt_grown _ _ LT), LK]. }
  intros a b E NA NB. apply (lt_grown _ _ LT). subst r.
  assert (UP : forall b, b <> [] -> forall n, In (q ++ a ++ b, n) (s_nodes s) -> lookup (s_nodes s) (q ++ a) = Some NDir).
  { clear - ND NR PAR NA. induction b as [|x b IH] using rev_ind; intros NB n IN; [congruence|].
    assert (P : lookup (s_nodes s) (q ++ a ++ b) = Some NDir).
    { apply (PAR _ x). rewrite <- !app_assoc. apply (in_map fst) in IN. exact IN. }
    destruct b as [|y b]; [rewrite app_nil_r in P; exact P|].
    apply (IH ltac:(discriminate) NDir).
    destruct (q ++ a ++ y :: b) as [|u v] eqn:E.
    - apply app_eq_nil in E. destruct E as [_ E]. apply app_eq_nil in E. destruct E. congruence.
    - apply find_in. exact P. }
  exact (UP b NB _ IN).
Qed.

Lemma dir_counted : forall L used s s' p q rs es s1, tree_ok s -> later s s' ->
  resolve true s p = Some q -> lookup (s_nodes s) q = Some NDir -> files_in s q rs ->
  read_dir_l L used (EDir p) s' = (Ok es, s1) ->
  List.length rs <= opened_now es /\ (opened_now es = 0 \/ used + opened_now es <= l_open L).
Proof.
  intros L used s s' p q rs es s1 TO LT R LK F H. cbn [read_dir_l] in H.
  apply call_or_inv in H. destruct H as [s2 [D [_ [_ [_ [[X _]|H]]]]]]; [discriminate X|].
  apply all_ok in H. destruct H as [H C]. apply read_all_any in H. destruct H as (D2 & P & _).
  specialize (P es eq_refl).
  assert (LT2 : later s s2) by (eapply later_disk; eassumption).
  assert (N : List.length rs <= opened_now es).
  { apply (files_counted s2 p q); [|apply (lt_grown _ _ LT2), LK|apply F|exact (files_later _ _ _ _ TO LK F LT2)|].
    - eapply resolve_grown_some; [exact (lt_grown _ _ LT2)|exact (lt_cwd _ _ LT2)|exact R|exact LK].
    - exact P. }
  exact (conj N C).
Qed.
Lemma counted : forall L used rs es, rs <> [] ->
  List.length (rs : list cpath) <= opened_now es /\ (opened_now es = 0 \/ used + opened_now es <= l_open L) ->
  used + List.length rs <= l_open L.
Proof. intros L used rs es NE [A B]. destruct rs; [congruence|]. cbn [List.length] in *. lia. Qed.

Lemma list_all_in : forall L s fs used c ls c', later s (disk c) -> list_all L used fs c = (Ok ls, c') ->
  forall p, In (EDir p) fs -> exists used' c1 es s1, used <= used' /\ later s (disk c1)
    /\ read_dir_l L used' (EDir p) (disk c1) = (Ok es, s1).
Proof.
  intros L s. induction fs as [|f fs IH]; intros used c ls c' LT H p I; [destruct I|]. cbn [list_all] in H.
  apply bind_inv in H. destruct H as [[es [c1 [H1 H]]]|[[e [_ E]]|[[_ E]|[_ E]]]]; [|discriminate E..].
  apply bind_inv in H. destruct H as [[r [c2 [H2 H]]]|[[e' [_ E]]|[[_ E]|[_ E]]]]; [|discriminate E..].
  destruct I as [->|I].
  - cbn [entry_is_dir] in H1. destruct (storage_inv _ _ _ _ H1) as (o & s1 & RD & E & _).
    destruct o as [l|x| |]; try discriminate E. exists used, c, l, s1. auto.
  - assert (LT1 : later s (disk c1)).
    { destruct f as [h|q]; cbn [entry_is_dir] in H1; [injection H1 as <- <-; exact LT|].
      destruct (storage_inv _ _ _ _ H1) as (o & s1 & RD & E & ->). rewrite set_disk_disk.
      cbn [read_dir_l] in RD. apply call_or_inv in RD. destruct RD as [s2 [D [_ [_ [_ [[-> [-> _]]|RD]]]]]]; [exact (later_disk _ _ _ LT D)|].
      destruct o as [l|x| |]; try discriminate E. apply all_ok in RD. destruct RD as [RD _].
      apply read_all_any in RD. destruct RD as (D2 & _). eapply later_disk; [eapply later_disk; eassumption|exact D2]. }
    destruct (IH _ _ _ _ LT1 H2 p I) as (u & d & es' & s1 & LE & X). exists u, d, es', s1. split; [lia|exact X].
Qed.

Lemma run_enough : forall L V given c, (forall x, l_walk L x <= 10) -> not_given given "erase" ->
  List.length (given "input"%string) * (3 + List.length (s_nodes (disk c))) + 13 <= l_open L ->
  run_command_l L V CmdPack given c = run_command V CmdPack given c.
Proof.
  intros L V given c W NG B. cbn [run_command_l run_command]. unfold pack_cmd_l, pack_cmd.
  destruct (pack_handler_cases V given c) as (p & pp & n & R & PO & PE & _).
  rewrite !(bind_ok _ _ _ _ _ R). cbn [fst snd].
  unfold algorithm_of. rewrite !bind_assoc.
  apply bind_congr_ok. intros b c1 H1. rewrite contains_optional in H1 by reflexivity. injection H1 as <- <-.
  apply bind_congr_ok. intros al c2 H2. injection H2 as <- <-.
  apply bind_congr_ok. intros inputs c3 H3.
  assert (I : c_a c3 = c_a c /\ inputs = given "input"%string).
  { unfold get_params, bind, get_many in H3.
    change (find_arg (mkMatches (args_of CmdPack) given) "input") with (Some (mkArg "input" None true true [])) in H3.
    cbn in H3. destruct (given "input"%string) as [|x l] eqn:GI; [discriminate|]. cbn in H3. injection H3 as <- <-. split; reflexivity. }
  destruct I as [C3 ->].
  apply bind_congr_ok. intros output c4 H4.
  assert (C4 : c_a c4 = c_a c3).
  { unfold get_param, bind, get_one in H4.
    change (find_arg (mkMatches (args_of CmdPack) given) "output") with (Some (required "output")) in H4.
    cbn in H4. destruct (given "output"%string) as [|x l]; [discriminate|]. cbn in H4. injection H4 as <- <-. reflexivity. }
  apply pack_cli_enough; [exact W| |].
  - rewrite (disk_a c c4); [exact B|congruence].
  - destruct (pp_erase pp); [|reflexivity]. exfalso. apply (proj1 PE eq_refl). exact NG.
Qed.

(** ** Erasing *)

Lemma read_dir_disk : forall L used e s o s', read_dir_l L used e s = (o, s') ->
  same_disk s s' /\ o <> Panic /\ o <> Diverge.
Proof.
  assert (ALL : forall L ps used s o s', read_all_l L used ps s = (o, s') -> same_disk s s' /\ o <> Panic /\ o <> Diverge).
  { intros L. induction ps as [|p ps IH]; intros used s o s' H; cbn [read_all_l] in H.
    - injection H as <- <-. split; [apply same_disk_refl|]. split; discriminate.
    - assert (N : forall r t, read_next L used p s = (r, t) -> same_disk s t /\ r <> Panic /\ r <> Diverge).
      { intros r t N. unfold read_next in N. destruct (is_dir s p); destruct (_ <=? _);
          try (injection N as <- <-; split; [apply same_disk_refl|split; discriminate]);
          apply EraseDirProofs.read_file_any in N; destruct N as (A & _ & B); exact (conj A B). }
      apply bind_inv in H. destruct H as [[e [s1 [H1 H]]]|[[e [H1 E]]|[[H1 E]|[H1 E]]]]; apply N in H1; destruct H1 as (D & X & Y);
        try congruence.
      + apply bind_inv in H. destruct H as [[r [s2 [H2 H]]]|[[r [H2 E]]|[[H2 E]|[H2 E]]]]; apply IH in H2; destruct H2 as (D2 & X2 & Y2);
          try congruence.
        * injection H as <- <-. split; [exact (same_disk_trans _ _ _ D D2)|split; discriminate].
        * subst o. split; [exact (same_disk_trans _ _ _ D D2)|split; discriminate].
      + subst o. split; [exact D|split; discriminate]. }
  intros L used e s o s' H. destruct e as [h|p]; cbn [read_dir_l] in H.
  - injection H as <- <-. split; [apply same_disk_refl|]. split; discriminate.
  - apply call_or_inv in H. destruct H as [s1 [D [_ [_ [_ [[-> [-> _]]|H]]]]]]; [split; [exact D|split; discriminate]|].
    apply ALL in H. destruct H as [D2 H]. split; [exact (same_disk_trans _ _ _ D D2)|exact H].
Qed.

Lemma list_all_count : forall L s ds fs, tree_ok s ->
  Forall2 (fun e d => exists p, e = EDir p /\ resolve true s p = Some (fst d) /\ lookup (s_nodes s) (fst d) = Some NDir
                       /\ files_in s (fst d) (snd d)) fs ds ->
  forall used c ls c', later s (disk c) -> list_all L used fs c = (Ok ls, c') ->
  all_files ds = 0 \/ used + all_files ds <= l_open L.
Proof.
  intros L s ds fs TO F2. induction F2 as [|e d fs ds (p & -> & R & LK & F) F2 IH]; intros used c ls c' LT H; [left; reflexivity|].
  cbn [list_all entry_is_dir] in H.
  apply bind_inv in H. destruct H as [[es [c1 [H1 H]]]|[[e [_ E]]|[[_ E]|[_ E]]]]; [|discriminate E..].
  apply bind_inv in H. destruct H as [[r [c2 [H2 H]]]|[[e' [_ E]]|[[_ E]|[_ E]]]]; [|discriminate E..].
  destruct (storage_inv _ _ _ _ H1) as (o & s1 & RD & E & ->).
  destruct o as [l|x| |]; try discriminate E. cbn in E. injection E as ->.
  destruct (dir_counted _ _ _ _ _ _ _ _ _ TO LT R LK F RD) as [N C].
  assert (LT1 : later s (disk (set_disk s1 c))).
  { rewrite set_disk_disk. apply read_dir_disk in RD. exact (later_disk _ _ _ LT (proj1 RD)). }
  specialize (IH _ _ _ _ LT1 H2).
  unfold all_files in *. cbn [map List.concat]. rewrite app_length. lia.
Qed.

Lemma pack_cli_few : forall L V inputs output p pp a c c', tree_ok (disk c) ->
  pack_cli_l L V inputs output p pp a c = (Ok tt, c') ->
  forall ds, dirs_with_files (disk c) inputs ds -> all_files ds <> 0 -> all_files ds < l_open L.
Proof.
  intros L V inputs output p pp a c c' TO H ds DS NE. unfold pack_cli_l in H.
  destruct (existsb _ inputs) in H; [discriminate H|].
  set (s := disk c) in *.
  apply bind_inv in H. destruct H as [[u0 [c0 [H0 H]]]|[[e [_ E]]|[[_ E]|[_ E]]]]; [|discriminate E..].
  assert (S0 : disk c0 = s).
  { destruct (existsb _ inputs) in H0; [discriminate|]. injection H0 as _ <-. reflexivity. }
  apply bind_inv in H. destruct H as [[u1 [c1 [H1 H]]]|[[e [_ E]]|[[_ E]|[_ E]]]]; [|discriminate E..].
  assert (L1 : later s (disk c1)).
  { destruct (check_or_exit_any _ _ _ _ _ H1) as (CA & _). rewrite (disk_a _ _ CA), S0. apply later_refl. }
  apply bind_inv in H. destruct H as [[fs [c2 [H2 H]]]|[[e [_ E]]|[[_ E]|[_ E]]]]; [|discriminate E..].
  assert (IF : Forall2 (fun e d => exists p, e = EDir p /\ resolve true s p = Some (fst d) /\ lookup (s_nodes s) (fst d) = Some NDir
                       /\ files_in s (fst d) (snd d)) fs ds).
  { clear - DS L1 H2. revert c1 L1 fs c2 H2. unfold dirs_with_files in DS.
    induction DS as [|f d inputs ds (R & LK & F) DS IH]; intros c1 L1 fs c2 H2; cbn [each] in H2.
    - injection H2 as <- <-. constructor.
    - apply bind_inv in H2. destruct H2 as [[e [c3 [H1 H]]]|[[e [_ E]]|[[_ E]|[_ E]]]]; [|discriminate E..].
      apply bind_inv in H. destruct H as [[ys [c4 [H2 H]]]|[[y [_ E]]|[[_ E]|[_ E]]]]; [|discriminate E..].
      injection H as <- <-.
      pose proof (later_disk _ _ _ L1 (proj1 (read_step _ _ _ _ H1))) as L3.
      constructor; [|exact (IH c3 L3 ys c4 H2)].
      exists (os_path f). split; [|auto].
      destruct (storage_inv _ _ _ _ H1) as (r & s1 & RF & E & _).
      assert (SD : stat (disk c1) (os_path f) = Some NDir).
      { unfold stat. rewrite (resolve_grown_some true s (disk c1) _ (fst d) NDir (lt_grown _ _ L1) (lt_cwd _ _ L1) R LK).
        apply (lt_grown _ _ L1), LK. }
      destruct (CliRuns.read_file_any _ _ _ _ RF) as (_ & _ & [[-> _]|[(i & plan & -> & X & _)|[-> _]]]).
      + cbn in E. injection E as ->. reflexivity.
      + rewrite SD in X. discriminate X.
      + discriminate E. }
  assert (L2 : later s (disk c2)).
  { eapply later_disk; [exact L1|]. eapply each_disk; [|exact H2]. intros x cx ox cx' _. apply read_step. }
  apply bind_inv in H. destruct H as [[raw [c3 [H3 H]]]|[[e [_ E]]|[[_ E]|[_ E]]]]; [|discriminate E..].
  assert (L3 : later s (disk c3)).
  { eapply later_disk; [exact L2|]. exact (proj1 (get_secret_any _ _ _ _ _ _ H3)). }
  assert (MK : forall p c o c', later s (disk c) -> storage (create_or_write p) c = (o, c') -> later s (disk c')).
  { intros p0 x o x' LX SX. destruct (storage_inv _ _ _ _ SX) as (r0 & s1 & CW & _ & ->). rewrite set_disk_disk. eapply later_made; eassumption. }
  apply bind_inv in H. destruct H as [[fo [c4 [H4 H]]]|[[e [_ E]]|[[_ E]|[_ E]]]]; [|discriminate E..].
  pose proof (MK _ _ _ _ L3 H4) as L4.
  apply bind_inv in H. destruct H as [[fh [c5 [H5 H]]]|[[e [_ E]]|[[_ E]|[_ E]]]]; [|discriminate E..].
  assert (L5 : later s (disk c5)).
  { unfold open_header in H5. destruct (cp_header p) as [h|]; [|injection H5 as <- <-; exact L4].
    apply bind_inv in H5. destruct H5 as [[u [d [G1 G]]]|[[e [_ E]]|[[_ E]|[_ E]]]]; [|discriminate E..].
    destruct (check_or_exit_any _ _ _ _ _ G1) as (CA & _).
    apply bind_inv in G. destruct G as [[e [d2 [G2 G]]]|[[e [_ E]]|[[_ E]|[_ E]]]]; [|discriminate E..].
    injection G as <- <-. eapply MK; [|exact G2]. rewrite (disk_a _ _ CA). exact L4. }
  cbn zeta in H.
  apply bind_inv in H. destruct H as [[lists [c6 [H6 _]]]|[[e [_ E]]|[[_ E]|[_ E]]]]; [|discriminate E..].
  destruct (list_all_count _ _ _ _ TO IF _ _ _ _ L5 H6) as [X|X]; [congruence|lia].
Qed.

Lemma run_few : forall L V given c c', tree_ok (disk c) ->
  run_command_l L V CmdPack given c = (Ok tt, c') ->
  forall ds, dirs_with_files (disk c) (given "input"%string) ds -> all_files ds <> 0 -> all_files ds < l_open L.
Proof.
  intros L V given c c' TO H ds DS NE. cbn [run_command_l] in H. unfold pack_cmd_l in H.
  destruct (pack_handler_cases V given c) as (p & pp & n & PR & PO & _).
  rewrite (bind_ok _ _ _ _ _ PR) in H. cbn [fst snd] in H.
  unfold algorithm_of in H. rewrite bind_assoc in H.
  erewrite bind_ok in H by (apply contains_optional; reflexivity).
  erewrite bind_ok in H by reflexivity.
  apply bind_inv in H. destruct H as [[inputs [c3 [H3 H]]]|[[e [_ E]]|[[_ E]|[_ E]]]]; [|discriminate E..].
  apply bind_inv in H. destruct H as [[output [c4 [H4 H]]]|[[e [_ E]]|[[_ E]|[_ E]]]]; [|discriminate E..].
  assert (X : c3 = printed n c /\ inputs = given "input"%string).
  { unfold get_params, bind, get_many in H3.
    change (find_arg (mkMatches (args_of CmdPack) given) "input") with (Some (mkArg "input" None true true [])) in H3.
    cbn in H3. destruct (given "input"%string) as [|x l]; [discriminate|]. cbn in H3. injection H3 as <- <-. auto. }
  destruct X as [-> ->].
  assert (X : c4 = printed n c).
  { unfold get_param, bind, get_one in H4.
    change (find_arg (mkMatches (args_of CmdPack) given) "output") with (Some (required "output")) in H4.
    cbn in H4. destruct (given "output"%string) as [|x l]; [discriminate|]. cbn in H4. injection H4 as _ <-. auto. }
  subst c4. assert (D : disk (printed n c) = disk c) by reflexivity. rewrite <- D in DS, TO.
  eapply pack_cli_few; eassumption.
Qed.

Lemma erase_dir_many : forall L used sched p passes s q rs o s', tree_ok s ->
  resolve true s p = Some q -> lookup (s_nodes s) q = Some NDir -> files_in s q rs -> rs <> [] ->
  l_open L < used + List.length rs ->
  erase_dir_execute_l L used sched (EDir p) passes s = (o, s') -> o = Err EdReadDirEntries /\ same_disk s s'.
Proof.
  intros L used sched p passes s q rs o s' TO R LK F NE M H. unfold erase_dir_execute_l in H. cbn [entry_is_dir negb] in H.
  apply bind_inv in H. destruct H as [[fs [s1 [H1 H]]]|[[e [H1 E]]|[[H1 E]|[H1 E]]]].
  - exfalso. unfold map_err in H1. destruct (read_dir_l L used (EDir p) s) as [r s2] eqn:RD. destruct r as [es|x| |]; try discriminate.
    pose proof (counted _ _ _ _ NE (dir_counted _ _ _ _ _ _ _ _ _ TO (later_refl s) R LK F RD)) as X. lia.
  - subst o. unfold map_err in H1. destruct (read_dir_l L used (EDir p) s) as [r s2] eqn:RD. apply read_dir_disk in RD.
    destruct RD as [D _]. destruct r as [es|x| |]; try discriminate. injection H1 as <- <-. auto.
  - exfalso. unfold map_err in H1. destruct (read_dir_l L used (EDir p) s) as [r s2] eqn:RD. apply read_dir_disk in RD.
    destruct r as [es|x| |]; try discriminate. destruct RD as (_ & X & _). congruence.
  - exfalso. unfold map_err in H1. destruct (read_dir_l L used (EDir p) s) as [r s2] eqn:RD. apply read_dir_disk in RD.
    destruct r as [es|x| |]; try discriminate. destruct RD as (_ & _ & X). congruence.
Qed.

Lemma tree_disk : forall s s', tree_ok s -> same_disk s s' -> tree_ok s'.
Proof. intros s s' T [N _]. unfold tree_ok. rewrite N. exact T. Qed.
Lemma files_disk : forall s s' q rs, files_in s q rs -> same_disk s s' -> files_in s' q rs.
Proof.
  intros s s' q rs [ND F] (N & D & _). split; [exact ND|]. intros r I. destruct (F r I) as (i & l & AP). exists i, l.
  unfold at_place in *. rewrite N, D. exact AP.
Qed.

Lemma secure_erase_many : forall L used V f passes force c q rs o c', tree_ok (disk c) ->
  resolve true (disk c) (os_path f) = Some q -> lookup (s_nodes (disk c)) q = Some NDir -> files_in (disk c) q rs -> rs <> [] ->
  l_open L < used + List.length rs ->
  secure_erase_l L used V f passes force c = (o, c') -> o <> Ok tt /\ same_disk (disk c) (disk c').
Proof.
  intros L used V f passes force c q rs o c' TO R LK F NE M H. unfold secure_erase_l in H.
  apply bind_inv in H. destruct H as [[e [c1 [H1 H]]]|[[e [H1 ->]]|[[H1 ->]|[H1 ->]]]];
    pose proof (proj1 (read_step _ _ _ _ H1)) as D; try (split; [discriminate|exact D]).
  destruct (storage_inv _ _ _ _ H1) as (r & s1 & RF & E & _).
  assert (ED : e = EDir (os_path f)).
  { destruct (CliRuns.read_file_any _ _ _ _ RF) as (_ & _ & [[-> _]|[(i & plan & -> & ST & _)|[-> _]]]).
    - cbn in E. injection E as ->. reflexivity.
    - unfold stat in ST. rewrite R, LK in ST. discriminate ST.
    - discriminate E. }
  subst e. cbn [entry_is_dir] in H.
  apply bind_inv in H. destruct H as [[b [c2 [H2 H]]]|[[e [H2 ->]]|[[H2 ->]|[H2 ->]]]];
    pose proof (disk_a _ _ (proj1 (get_answer_any _ _ _ _ _ _ H2))) as D2; try (split; [discriminate|rewrite D2; exact D]).
  destruct b; [|injection H as <- <-; split; [discriminate|rewrite D2; exact D]].
  rewrite on_fs_run in H. injection H as <- <-. rewrite set_disk_disk.
  assert (D3 : same_disk (disk c) (disk c2)) by (rewrite D2; exact D).
  rewrite map_err_run. cbn [fst snd].
  destruct (erase_dir_execute_l L used (ce_sched V) (EDir (os_path f)) passes (disk c2)) as [o s'] eqn:EX.
  assert (X : o = Err EdReadDirEntries /\ same_disk (disk c2) s').
  { eapply erase_dir_many; [exact (tree_disk _ _ TO D3)| | |exact (files_disk _ _ _ _ F D3)|exact NE|exact M|exact EX].
    - rewrite (resolve_disk true _ _ _ D3). exact R.
    - destruct D3 as [-> _]. exact LK. }
  destruct X as [-> X]. cbn [fst snd]. split; [discriminate|exact (same_disk_trans _ _ _ D3 X)].
Qed.

Lemma erase_any_run : forall V g c input, given g "input" input ->
  exists n, forall k : string -> Z -> force_mode -> M cli cli_error unit,
    (pf <- erase_params V (mkMatches (args_of CmdErase) g) ;;
     input <- get_param V "input" (mkMatches (args_of CmdErase) g) ;;
     k input (fst pf) (snd pf)) c
    = k input (passes_of (g "passes"%string))
        (match g "force"%string with [] => Prompt | _ => Force end) (printed n c).
Proof.
  intros V g c input GI. unfold erase_params.
  set (m := mkMatches (args_of CmdErase) g).
  assert (PA : exists n, (p <- contains_id V m "passes" ;;
     (if p : bool then
               v <- get_one V m "passes" ;; s <- lift_opt CMissing v ;;
               match parse_i32 s with
               | Some n => ret n
               | None => say NWarn ;; ret 1%Z
               end
             else say NWarn ;; ret 1%Z)) c = (Ok (passes_of (g "passes"%string)), printed n c)).
  { unfold contains_id, get_one. cbn [find_arg find m m_args args_of a_id required optional defaulted String.eqb
       Ascii.eqb Bool.eqb m_given a_default]. unfold bind, ret, lift_opt.
    destruct (g "passes"%string) as [|v vs].
    - exists []. rewrite printed_nil. reflexivity.
    - cbn [passes_of]. unfold ret, say. destruct (parse_i32 v) as [z|].
      + exists []. rewrite printed_nil. reflexivity.
      + exists [NWarn]. reflexivity. }
  destruct PA as [n PA]. exists n. intros k. rewrite bind_assoc.
  transitivity (bind (bind (contains_id V m "passes") (fun p : bool => if p then
               v <- get_one V m "passes" ;; s <- lift_opt CMissing v ;;
               match parse_i32 s with
               | Some n => ret n
               | None => say NWarn ;; ret 1%Z
               end
             else say NWarn ;; ret 1%Z))
       (fun passes => bind (bind (forcemode V m) (fun force => ret (passes, force)))
          (fun pf => bind (get_param V "input" m) (fun input => k input (fst pf) (snd pf)))) c).
  { rewrite bind_assoc. apply bind_congr. intros x s'. rewrite bind_assoc. reflexivity. }
  rewrite (bind_ok _ _ _ _ _ PA). rewrite bind_assoc.
  erewrite bind_ok by (apply forcemode_run; reflexivity).
  erewrite bind_ok by reflexivity.
  erewrite bind_ok by (apply (get_param_run V CmdErase g "input" input); [reflexivity|exact GI]).
  reflexivity.
Qed.

Lemma run_erase_many : forall L V g c f q rs o c', tree_ok (disk c) -> given g "input" f ->
  resolve true (disk c) (os_path f) = Some q -> lookup (s_nodes (disk c)) q = Some NDir -> files_in (disk c) q rs -> rs <> [] ->
  l_open L < List.length rs ->
  run_command_l L V CmdErase g c = (o, c') -> o <> Ok tt /\ same_disk (disk c) (disk c').
Proof.
  intros L V g c f q rs o c' TO G R LK F NE M H. cbn [run_command_l] in H. unfold erase_cmd_l in H.
  destruct (erase_any_run V g c f G) as [n X]. rewrite (X (fun i p f => secure_erase_l L 0 V i p f)) in H. clear X.
  change (disk c) with (disk (printed n c)) in *.
  exact (secure_erase_many L 0 V f _ _ (printed n c) q rs o c' TO R LK F NE M H).
Qed.

Lemma run_erase_enough : forall L V g c f, (forall x, l_walk L x <= 10) -> given g "input" f ->
  List.length (s_nodes (disk c)) + 11 <= l_open L ->
  run_command_l L V CmdErase g c = run_command V CmdErase g c.
Proof.
  intros L V g c f W G B. cbn [run_command_l run_command]. unfold erase_cmd_l, erase_cmd.
  destruct (erase_any_run V g c f G) as [n X].
  rewrite (X (fun i p f => secure_erase_l L 0 V i p f)), (X (fun i p f => secure_erase V i p f)). clear X.
  unfold secure_erase_l, secure_erase. apply bind_congr_ok. intros e c1 H1.
  destruct (entry_is_dir e); [|reflexivity].
  apply bind_congr_ok. intros b c2 H2. destruct b; [|reflexivity].
  rewrite !on_fs_run. rewrite !map_err_run.
  assert (Y : erase_dir_execute_l L 0 (ce_sched V) e (passes_of (g "passes"%string)) (disk c2)
    = erase_dir_execute (ce_sched V) e (passes_of (g "passes"%string)) (disk c2)).
  { unfold erase_dir_execute_l, erase_dir_execute. destruct (negb (entry_is_dir e)); [reflexivity|].
    apply first_congr. unfold map_err. rewrite dir_same; [reflexivity|exact W|].
    intros p _. pose proof (listing_length (disk c2) p) as LL.
    pose proof (proj1 (proj1 (read_step _ _ _ _ H1))) as N.
    rewrite (disk_a _ _ (proj1 (get_answer_any _ _ _ _ _ _ H2))) in *. rewrite N in LL.
    change (disk (printed n c)) with (disk c) in LL. lia. }
  rewrite Y. reflexivity.
Qed.

(** ** What is lost *)

Lemma list_all_any : forall L fs used c o c', list_all L used fs c = (o, c') ->
  same_disk (disk c) (disk c') /\ ((exists ls, o = Ok ls) \/ exists e, o = Err (CStorage e)).
Proof.
  intros L. induction fs as [|f fs IH]; intros used c o c' H; cbn [list_all] in H.
  - injection H as <- <-. split; [apply same_disk_refl|left; eauto].
  - assert (ONE : forall r d, (if entry_is_dir f then storage (read_dir_l L used f) else ret [f]) c = (r, d) ->
      same_disk (disk c) (disk d) /\ ((exists l, r = Ok l) \/ exists e, r = Err (CStorage e))).
    { intros r d X. destruct (entry_is_dir f).
      - destruct (storage_inv _ _ _ _ X) as (w & s1 & RD & -> & ->). rewrite set_disk_disk. apply read_dir_disk in RD.
        destruct RD as (D & NP & ND). split; [exact D|]. destruct w as [l|e| |]; try congruence; [left|right]; cbn; eauto.
      - injection X as <- <-. split; [apply same_disk_refl|left; eauto]. }
    apply bind_inv in H. destruct H as [[es [c1 [H1 H]]]|[[e [H1 ->]]|[[H1 ->]|[H1 ->]]]]; apply ONE in H1;
      destruct H1 as (D & [[l X]|[x X]]); try discriminate X.
    + apply bind_inv in H. destruct H as [[r [c2 [H2 H]]]|[[e [H2 ->]]|[[H2 ->]|[H2 ->]]]]; apply IH in H2;
        destruct H2 as (D2 & [[l2 X2]|[x2 X2]]); try discriminate X2.
      * injection H as <- <-. split; [exact (same_disk_trans _ _ _ D D2)|left; eauto].
      * split; [exact (same_disk_trans _ _ _ D D2)|]. right. injection X2 as ->. eauto.
    + split; [exact D|]. right. injection X as ->. eauto.
Qed.

Lemma pack_cli_lost : forall L V inputs output p pp a c c1, tree_ok (disk c) ->
  pack_cli V inputs output p pp a c = (Ok tt, c1) ->
  forall f q rs i, In f inputs -> resolve true (disk c) (os_path f) = Some q ->
  lookup (s_nodes (disk c)) q = Some NDir -> files_in (disk c) q rs -> rs <> [] ->
  l_open L <= List.length rs -> stat (disk c) (os_path output) = Some (NFile i) ->
  exists e c', pack_cli_l L V inputs output p pp a c = (Err (CStorage e), c') /\ s_data (disk c') i = [].
Proof.
  intros L V inputs output p pp a c cx TO H f q rs i IN R LK F NE M ST. unfold pack_cli in H. unfold pack_cli_l.
  destruct (existsb (fun f => String.eqb f output) inputs); [discriminate H|].
  set (s := disk c) in *.
  apply bind_inv in H. destruct H as [[u0 [c0 [H0 H]]]|[[e [_ E]]|[[_ E]|[_ E]]]]; [|discriminate E..].
  assert (S0 : disk c0 = s).
  { destruct (existsb _ inputs) in H0; [discriminate|]. injection H0 as _ <-. reflexivity. }
  rewrite (bind_ok _ _ _ _ _ H0).
  apply bind_inv in H. destruct H as [[u1 [c1 [H1 H]]]|[[e [_ E]]|[[_ E]|[_ E]]]]; [|discriminate E..].
  assert (S1 : same_disk s (disk c1)).
  { destruct (check_or_exit_any _ _ _ _ _ H1) as (CA & _). rewrite (disk_a _ _ CA), S0. apply same_disk_refl. }
  pose proof (later_disk _ _ _ (later_refl s) S1) as L1.
  rewrite (bind_ok _ _ _ _ _ H1).
  apply bind_inv in H. destruct H as [[fs [c2 [H2 H]]]|[[e [_ E]]|[[_ E]|[_ E]]]]; [|discriminate E..].
  rewrite (bind_ok _ _ _ _ _ H2).
  assert (IF : In (EDir (os_path f)) fs).
  { destruct (each_in _ (fun c => later s (disk c)) _ _ _ _
      (fun x c o c' I X => later_disk _ _ _ I (proj1 (read_step x c o c' X))) L1 H2 f IN) as (d1 & y & d2 & ID & FF & J).
    destruct (storage_inv _ _ _ _ FF) as (r & s1 & RF & E & _).
    assert (SD : stat (disk d1) (os_path f) = Some NDir).
    { unfold stat. rewrite (resolve_grown_some true s (disk d1) _ q NDir (lt_grown _ _ ID) (lt_cwd _ _ ID) R LK).
      apply (lt_grown _ _ ID), LK. }
    destruct (CliRuns.read_file_any _ _ _ _ RF) as (_ & _ & [[-> _]|[(k & plan & -> & X & _)|[-> _]]]).
    - cbn in E. injection E as ->. exact J.
    - rewrite SD in X. discriminate X.
    - discriminate E. }
  assert (S2 : same_disk s (disk c2)).
  { eapply same_disk_trans; [exact S1|]. eapply each_disk; [|exact H2]. intros x cy ox cx' _. apply read_step. }
  apply bind_inv in H. destruct H as [[raw [c3 [H3 H]]]|[[e [_ E]]|[[_ E]|[_ E]]]]; [|discriminate E..].
  rewrite (bind_ok _ _ _ _ _ H3).
  assert (S3 : same_disk s (disk c3)).
  { eapply same_disk_trans; [exact S2|]. exact (proj1 (get_secret_any _ _ _ _ _ _ H3)). }
  pose proof (later_disk _ _ _ (later_refl s) S3) as L3.
  assert (MK : forall p c o c', later s (disk c) -> storage (create_or_write p) c = (o, c') -> later s (disk c')).
  { intros p0 x o x' LX SX. destruct (storage_inv _ _ _ _ SX) as (r0 & s1 & CW & _ & ->). rewrite set_disk_disk. eapply later_made; eassumption. }
  apply bind_inv in H. destruct H as [[fo [c4 [H4 H]]]|[[e [_ E]]|[[_ E]|[_ E]]]]; [|discriminate E..].
  rewrite (bind_ok _ _ _ _ _ H4).
  pose proof (MK _ _ _ _ L3 H4) as L4.
  assert (E4 : s_data (disk c4) i = []).
  { destruct (storage_inv _ _ _ _ H4) as (r & s1 & CW & E & ->). rewrite set_disk_disk.
    destruct (create_or_write_any _ _ _ _ CW) as [(e & -> & _)|(h & _ & _ & _ & Z & _ & _ & _ & _ & _ & NEW)]; [discriminate E|].
    pose proof ST as ST3. rewrite <- (stat_disk _ _ (os_path output) S3) in ST3.
    destruct NEW as [(x & RX & LX & _)|(SX & _)].
    - rewrite (free_absent _ _ _ RX LX) in ST3. discriminate ST3.
    - rewrite SX in ST3. injection ST3 as <-. exact Z. }
  apply bind_inv in H. destruct H as [[fh [c5 [H5 H]]]|[[e [_ E]]|[[_ E]|[_ E]]]]; [|discriminate E..].
  rewrite (bind_ok _ _ _ _ _ H5).
  assert (L5 : later s (disk c5) /\ s_data (disk c5) i = []).
  { unfold open_header in H5. destruct (cp_header p) as [h|]; [|injection H5 as <- <-; exact (conj L4 E4)].
    apply bind_inv in H5. destruct H5 as [[u [d [G1 G]]]|[[e [_ E]]|[[_ E]|[_ E]]]]; [|discriminate E..].
    destruct (check_or_exit_any _ _ _ _ _ G1) as (CA & _).
    apply bind_inv in G. destruct G as [[e [d2 [G2 G]]]|[[e [_ E]]|[[_ E]|[_ E]]]]; [|discriminate E..].
    injection G as <- <-. split; [eapply MK; [|exact G2]; rewrite (disk_a _ _ CA); exact L4|].
    destruct (storage_inv _ _ _ _ G2) as (r & s1 & CW & E & ->). rewrite set_disk_disk.
    destruct (create_or_write_any _ _ _ _ CW) as [(e' & -> & _)|(w & _ & _ & _ & Z & _ & _ & _ & OTHER & _)]; [discriminate E|].
    destruct (Nat.eq_dec i (h_ino w)) as [->|N]; [exact Z|]. rewrite (OTHER _ N), (disk_a _ _ CA). exact E4. }
  destruct L5 as [L5 E5].
  clear H. cbn zeta.
  destruct (list_all L (S match fh with Some _ => 1 | None => 0 end) fs c5) as [o c6] eqn:H6.
  destruct (list_all_any _ _ _ _ _ _ H6) as (D6 & [[ls ->]|[e ->]]).
  - exfalso. destruct (list_all_in _ _ _ _ _ _ _ L5 H6 _ IF) as (used' & d & es & s1 & LE & LD & RD).
    pose proof (counted _ _ _ _ NE (dir_counted _ _ _ _ _ _ _ _ _ TO LD R LK F RD)) as X. lia.
  - exists e, c6. rewrite (bind_err _ _ _ _ _ H6). split; [reflexivity|].
    destruct D6 as (_ & -> & _). exact E5.
Qed.

Lemma pack_l_run : forall L V g c output, g "input"%string <> [] -> given g "output" output ->
  exists p pp n, run_command V CmdPack g c = pack_cli V (g "input"%string) output p pp (algorithm_asked g) (printed n c)
    /\ run_command_l L V CmdPack g c = pack_cli_l L V (g "input"%string) output p pp (algorithm_asked g) (printed n c).
Proof.
  intros L V g c output NE GO. cbn [run_command run_command_l]. unfold pack_cmd, pack_cmd_l.
  destruct (pack_handler_cases V g c) as (p & pp & n & PR & PO & _). exists p, pp, n.
  rewrite !(bind_ok _ _ _ _ _ PR). cbn [fst snd].
  assert (AL : algorithm_of V (mkMatches (args_of CmdPack) g) (printed n c) = (Ok (algorithm_asked g), printed n c)).
  { unfold algorithm_of. erewrite bind_ok by (apply contains_optional; reflexivity). unfold algorithm_asked.
    destruct (g "aes"%string); reflexivity. }
  rewrite !(bind_ok _ _ _ _ _ AL).
  assert (IN : get_params V "input" (mkMatches (args_of CmdPack) g) (printed n c) = (Ok (g "input"%string), printed n c)).
  { unfold get_params, bind, get_many.
    change (find_arg (mkMatches (args_of CmdPack) g) "input") with (Some (mkArg "input" None true true [])).
    cbn. destruct (g "input"%string) as [|x l]; [congruence|]. reflexivity. }
  rewrite !(bind_ok _ _ _ _ _ IN).
  split; erewrite bind_ok by (apply (get_param_run V CmdPack g "output" output); [reflexivity|exact GO]); reflexivity.
Qed.

Lemma run_lost : forall L V g c c1 output, tree_ok (disk c) -> given g "output" output ->
  run_command V CmdPack g c = (Ok tt, c1) ->
  forall f q rs i, In f (g "input"%string) -> resolve true (disk c) (os_path f) = Some q ->
  lookup (s_nodes (disk c)) q = Some NDir -> files_in (disk c) q rs -> rs <> [] ->
  l_open L <= List.length rs -> stat (disk c) (os_path output) = Some (NFile i) ->
  exists e c', run_command_l L V CmdPack g c = (Err (CStorage e), c') /\ s_data (disk c') i = [].
Proof.
  intros L V g c c1 output TO GO H f q rs i IN R LK F NE M ST.
  assert (NI : g "input"%string <> []) by (intros X; rewrite X in IN; destruct IN).
  destruct (pack_l_run L V g c output NI GO) as (p & pp & n & E1 & E2). rewrite E1 in H. rewrite E2. clear E1 E2.
  change (disk c) with (disk (printed n c)) in *.
  exact (pack_cli_lost L V _ output p pp _ (printed n c) c1 TO H f q rs i IN R LK F NE M ST).
Qed.
