(** The commands call the library on empty outputs. *)
From Coq Require Import List Arith NArith ZArith Lia Bool String.
From Verif Require Import Bytes Outcome IO Primitives Crypto Header EncDec.
From Verif Require Import FS Archive Cli Shared SharedSpec IOFacts FSFacts CliSpec CliKeys CliRuns.
Import ListNotations.
Local Open Scope nat_scope.

Lemma bind_congr_ok : forall {S E A B} (m : M S E A) (f g : A -> M S E B) s,
  (forall x s', m s = (Ok x, s') -> f x s' = g x s') -> bind m f s = bind m g s.
Proof. intros S E A B m f g s H. unfold bind. destruct (m s) as [[| | |] s1]; auto. Qed.
Lemma first_congr : forall {S E A B} (m m' : M S E A) (f : A -> M S E B) s, m s = m' s -> bind m f s = bind m' f s.
Proof. intros S E A B m m' f s H. unfold bind. rewrite H. reflexivity. Qed.

Lemma opened_empty : forall p c e c', storage (create_or_write p) c = (Ok e, c') ->
  exists h, e = EFile h /\ h_pos h = 0 /\ s_data (disk c') (h_ino h) = []
  /\ forall j, s_data (disk c) j = [] -> s_data (disk c') j = [].
Proof.
  intros p c e c' H. destruct (storage_inv _ _ _ _ H) as (r & s & CW & O & ->).
  destruct (create_or_write_any _ _ _ _ CW) as [(e1 & -> & _)|(h & -> & _ & PO & DE & _ & _ & _ & D & _)];
    cbn [omap] in O; [discriminate|]. injection O as ->. exists h. split; [reflexivity|]. split; [exact PO|].
  change (disk (set_disk s c)) with s. split; [exact DE|].
  intros j J. destruct (Nat.eq_dec j (h_ino h)) as [->|N]; [exact DE|]. rewrite D; auto.
Qed.
Lemma read_at_start : forall p c e c', storage (read_file p) c = (Ok e, c') -> forall h, e = EFile h -> h_pos h = 0.
Proof.
  intros p c e c' H h ->. destruct (storage_inv _ _ _ _ H) as (r & s & RF & O & ->).
  destruct (read_file_any _ _ _ _ RF) as (_ & _ & [(-> & _)|[(i & plan & -> & _)|(-> & _)]]); cbn [omap] in O; try discriminate.
  injection O as ->. reflexivity.
Qed.
Lemma header_empty : forall p c e c', open_header p c = (Ok e, c') ->
  (forall g, ok_handle e = Some g -> h_pos g = 0 /\ s_data (disk c') (h_ino g) = [])
  /\ (forall j, s_data (disk c) j = [] -> s_data (disk c') j = []).
Proof.
  intros p c e c' H. unfold open_header in H. destruct (cp_header p) as [hp|].
  - apply bind_inv in H as [(u & c1 & H1 & H)|[(x & _ & X)|[(_ & X)|(_ & X)]]]; try discriminate X.
    destruct (check_or_exit_any _ _ _ _ _ H1) as (CA & _).
    apply bind_inv in H as [(e2 & c2 & H2 & H)|[(x & _ & X)|[(_ & X)|(_ & X)]]]; try discriminate X.
    unfold ret in H. injection H as <- <-.
    destruct (opened_empty _ _ _ _ H2) as (h & -> & P & D & K). split.
    + intros g G. injection G as <-. auto.
    + intros j J. apply K. unfold disk. rewrite CA. exact J.
  - unfold ret in H. injection H as <- <-. split; [discriminate|auto].
Qed.
Lemma handle_of : forall e c h c', try_handle e c = (Ok h, c') -> e = EFile h /\ c' = c.
Proof. intros [g|q] c h c' H; cbn in H; inversion H; auto. Qed.

Lemma encrypt_calls : forall lib1 lib2 V,
  (forall req hi ho hh a, v5_request req -> er_detached req = is_some hh ->
     h_pos hi = 0 -> h_pos ho = 0 -> (forall g, hh = Some g -> h_pos g = 0) -> emptied (fst a) ho hh ->
     lib1 req hi ho hh a = lib2 req hi ho hh a) ->
  forall input output p al c,
  encrypt_stream_by lib1 V input output p al c = encrypt_stream_by lib2 V input output p al c.
Proof.
  intros lib1 lib2 V L input output p al c. unfold encrypt_stream_by.
  destruct (String.eqb input output); [reflexivity|].
  apply bind_congr_ok. intros u c1 _. apply bind_congr_ok. intros fi c2 RI.
  apply bind_congr_ok. intros raw c3 _. apply bind_congr_ok. intros fo c4 CO.
  apply bind_congr_ok. intros fh c5 OH. apply bind_congr_ok. intros hi c6 TI. apply bind_congr_ok. intros ho c7 TO.
  apply handle_of in TI as (-> & ->). apply handle_of in TO as (-> & ->).
  apply first_congr.
  destruct (opened_empty _ _ _ _ CO) as (h & HE & P & D & _). injection HE as <-.
  destruct (header_empty _ _ _ _ OH) as (HG & K).
  assert (X : lib1 (mkEncReq (is_some (ok_handle fh)) raw (mkHT V5 al StreamMode) (cp_hashing p)) hi ho (ok_handle fh) (c_a c5)
            = lib2 (mkEncReq (is_some (ok_handle fh)) raw (mkHT V5 al StreamMode) (cp_hashing p)) hi ho (ok_handle fh) (c_a c5)).
  { apply L; auto.
    - reflexivity.
    - eapply read_at_start; eauto.
    - intros g G. apply HG. exact G.
    - split; [apply K; exact D|]. intros g G. apply HG. exact G. }
  unfold on_a, zoom. rewrite X. reflexivity.
Qed.

Lemma decrypt_calls : forall lib1 lib2 V,
  (forall raw hi ho hh a, h_pos hi = 0 -> h_pos ho = 0 -> (forall g, hh = Some g -> h_pos g = 0) ->
     s_data (fst a) (h_ino ho) = [] -> lib1 raw hi ho hh a = lib2 raw hi ho hh a) ->
  forall input output p c,
  decrypt_stream_by lib1 V input output p c = decrypt_stream_by lib2 V input output p c.
Proof.
  intros lib1 lib2 V L input output p c. unfold decrypt_stream_by.
  destruct (String.eqb input output); [reflexivity|].
  apply bind_congr_ok. intros u c1 _. apply bind_congr_ok. intros fi c2 RI.
  apply bind_congr_ok. intros fh c3 RH. apply bind_congr_ok. intros raw c4 _. apply bind_congr_ok. intros fo c5 CO.
  apply bind_congr_ok. intros hi c6 TI. apply bind_congr_ok. intros ho c7 TO.
  apply handle_of in TI as (-> & ->). apply handle_of in TO as (-> & ->).
  apply first_congr.
  destruct (opened_empty _ _ _ _ CO) as (h & HE & P & D & _). injection HE as <-.
  assert (X : lib1 raw hi ho (ok_handle fh) (c_a c5) = lib2 raw hi ho (ok_handle fh) (c_a c5)).
  { apply L; auto.
    - eapply read_at_start; eauto.
    - intros g G. unfold read_header in RH. destruct (cp_header p) as [hp|].
      + apply bind_inv in RH as [(e & c2' & R2 & RH)|[(x & _ & X)|[(_ & X)|(_ & X)]]]; try discriminate X.
        unfold ret in RH. injection RH as <- <-. destruct e as [g'|q]; [|discriminate]. injection G as <-.
        eapply read_at_start; eauto.
      + unfold ret in RH. injection RH as <- <-. discriminate. }
  unfold on_a, zoom. rewrite X. reflexivity.
Qed.
