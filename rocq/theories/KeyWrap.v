(** Wrapping of master keys, and which files can be managed. *)
From Coq Require Import List Arith NArith ZArith Lia Bool.
From Verif Require Import Bytes Outcome IO Primitives Crypto Header Stream KeyModel EncDec KeyOps HeaderOps.
From Verif Require Import BytesFacts IOSpec IOFacts HeaderSpec HeaderFacts HeaderProofs.
From Verif Require Import StreamSpec StreamFacts StreamProofs FileSpec FileFacts FileProofs.
From Verif Require Import KeySpec KeyFacts KeyProofs DecSim KeyResults.
Local Open Scope nat_scope.

Lemma vec_to_arr_length : forall n v, length (vec_to_arr n v) = n.
Proof. intros n v. unfold vec_to_arr. rewrite app_length, firstn_length, zeros_length. lia. Qed.

Lemma vec_to_arr_pad : forall n v, vec_to_arr n v = firstn n (v ++ zeros n).
Proof.
  intros n v. unfold vec_to_arr. rewrite firstn_app. f_equal.
  - destruct (Nat.le_ge_cases n (length v)); [now rewrite Nat.min_l by lia|].
    rewrite Nat.min_r by lia. rewrite !firstn_all2 by lia. reflexivity.
  - unfold zeros. rewrite firstn_repeat. f_equal. lia.
Qed.

(** [wrap_holds]: C55 *)
Lemma wrap_holds :
  (forall n v, vec_to_arr n v = firstn n (v ++ zeros n) /\ length (vec_to_arr n v) = n
     /\ (length v = n -> vec_to_arr n v = v))
  /\ (forall E mk pw ha salt key nonce a tr, env_ok E -> length mk = 32 -> length salt = 16 ->
        hash E ha pw salt = Ok key -> length nonce = get_nonce_len a MemoryMode ->
        exists enc tr',
          encrypt_master_key E mk key nonce a tr = (Ok enc, tr') /\ length enc = 48
          /\ let k := mkSlot ha enc nonce salt in
             fst (try_keyslot E a pw k tr') = Ok mk
             /\ fst (search_keyslots E a pw 0 [k] tr') = Ok (mk, 0)
             /\ fst (decrypt_v5_master_key_with_index E [k] pw a tr')
                = (if bytes_eqb mk (zeros 32) then Err KIncorrectKey else Ok (mk, 0))).
Proof.
  split.
  - intros n v. split; [apply vec_to_arr_pad|]. split; [apply vec_to_arr_length|].
    intros <-. rewrite vec_to_arr_pad. apply firstn_app_exact. reflexivity.
  - intros E mk pw ha salt key nonce a tr HE Lm Ls Hh Ln.
    assert (Lk : length key = 32) by (eapply hash_length; eauto).
    destruct (encrypt_master_key_ok E mk key nonce a tr HE Lk Ln Lm) as (enc & He & Le & R).
    eexists enc, _. split; [exact R|]. split; [exact Le|]. cbv zeta.
    set (k := mkSlot ha enc nonce salt). set (tr' := tr ++ _).
    assert (Dk : aead_dec E a key nonce [] enc = Some mk) by (eapply aead_correct; eauto).
    assert (Sz : Forall (slot_sized a) [k]).
    { constructor; [|constructor]. repeat split; assumption. }
    assert (F : found E a pw [k] 0 key mk k).
    { split; [reflexivity|]. split; [exact Hh|]. split; [exact Dk|]. intros j k' Hj. lia. }
    assert (Sk : fst (search_keyslots E a pw 0 [k] tr') = Ok (mk, 0)).
    { destruct (search_spec E a pw [k] 0 tr' HE Sz) as [(j & k' & key' & mk' & A & B & C & D & L & ->)|[(j & k' & A & B & _)|(A & _)]].
      - destruct j as [|j]; [|destruct j; discriminate A]. cbn [nth_error] in A. injection A as <-.
        cbn [k ks_hash ks_salt ks_nonce ks_enc] in C, D.
        assert (key' = key) by congruence. subst key'. assert (mk' = mk) by congruence. subst mk'. reflexivity.
      - destruct j as [|j]; [|destruct j; discriminate A]. cbn [nth_error] in A. injection A as <-.
        cbn [k ks_hash ks_salt] in B. congruence.
      - exfalso. apply (shut_not_open E a pw k mk (A k (or_introl eq_refl))). exists key. auto. }
    split; [|split; [exact Sk|]].
    + destruct (try_keyslot_spec E a pw k tr' HE (Forall_inv Sz)) as [(key' & mk' & A & B & _ & ->)|(X & _)].
      * cbn [fst]. cbn [k ks_hash ks_salt ks_nonce ks_enc] in A, B. assert (key' = key) by congruence. subst key'.
        assert (mk' = mk) by congruence. now subst.
      * exfalso. apply (X mk). exists key. auto.
    + unfold decrypt_v5_master_key_with_index, bind. destruct (search_keyslots E a pw 0 [k] tr') as (o, t). cbn [fst] in Sk. subst o.
      cbn [fst]. unfold MASTER_KEY_LEN. destruct (bytes_eqb mk (zeros 32)); reflexivity.
Qed.

(** [usable_holds]: C56, for every master key but one *)
Lemma usable_holds : forall E op w h slots i mk, env_ok E -> d_plan (w_in w) = [] ->
  v5_header (w_in w) h slots ->
  first_open E (ht_algorithm (h_type h)) (op_old op) slots i mk -> kdf_accepts E (op_old op) slots ->
  mk <> zeros 32 ->
  (forall x y ha, op = OpAdd x y ha -> length slots < 4) ->
  (forall new ha, op_new op = Some (new, ha) -> exists key, hash E ha new (draw (w_rng w) 0 16) = Ok key) ->
  fst (run_op E op w) = Ok tt.
Proof.
  intros E op w h slots i mk HE Hp Hv F K Nz A N.
  destruct (run_op E op w) as (o, w') eqn:R. cbn [fst].
  destruct (first_open_found _ _ _ _ _ _ F K) as (key & k & Fd).
  assert (P : op_pre E op (w_in w) (w_rng w) h slots i key mk k).
  { split; [exact Hv|]. split; [exact Fd|]. split; [exact Nz|]. split; assumption. }
  destruct (op_cases E op w o w' HE R) as (_ & _ & _ & [(e & -> & _ & X)|[(_ & X & _)|(_ & h' & s' & i' & key' & mk' & k' & new & b & n & _ & _ & _ & _ & _ & _ & _ & _ & X & _)]]).
  - exfalso. eapply X; eauto.
  - exact X.
  - destruct X as [X|(_ & _ & X)]; [exact X|contradiction].
Qed.
