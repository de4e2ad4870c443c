(** [utf8] accepts exactly the encoded texts. *)
From Coq Require Import List Arith NArith ZArith Lia Bool.
From Verif Require Import Bytes BytesFacts Cli CliSpec.
Import ListNotations.
Local Open Scope N_scope.
Local Open Scope list_scope.

Lemma between_spec lo hi n : n < 256 ->
  Bool.reflect (lo <= n <= hi) (between lo hi (byte_of_N n)).
Proof.
  intros H. unfold between. rewrite to_byte_of_N by exact H.
  apply iff_reflect. rewrite andb_true_iff, !N.leb_le. reflexivity.
Qed.
Ltac btw := unfold tail_byte; repeat
  match goal with
  | |- context [between ?lo ?hi (byte_of_N ?n)] =>
      let H := fresh in
      destruct (between_spec lo hi n) as [H|H]; [lia| |]; try (exfalso; lia)
  end; cbn [andb].

(** The digits of a number in base 64 *)
Lemma digits64 c : exists q2 r2 r1, q2 = c / 4096 /\ c / 64 mod 64 = r2 /\ c mod 64 = r1
  /\ r1 < 64 /\ r2 < 64 /\ c = 4096 * q2 + 64 * r2 + r1.
Proof.
  exists (c / 4096), (c / 64 mod 64), (c mod 64).
  pose proof (N.mod_lt c 64). pose proof (N.mod_lt (c / 64) 64).
  pose proof (N.div_mod c 64). pose proof (N.div_mod (c / 64) 64).
  rewrite N.div_div in * by lia. change (64 * 64) with 4096 in *. repeat split; try lia.
Qed.

Lemma utf8_encoding c r : scalar_value c -> utf8 (encoded_char c ++ r) = utf8 r.
Proof.
  intros S. unfold encoded_char, scalar_value in *.
  destruct (digits64 c) as (q2 & r2 & r1 & E2 & E1 & E0 & L1 & L2 & Q).
  assert (Q1 : c / 64 = 64 * q2 + r2).
  { pose proof (N.div_mod (c / 64) 64). rewrite N.div_div in * by lia. change (64 * 64) with 4096 in *. lia. }
  destruct (digits64 q2) as (_ & r4 & r3 & _ & E4 & E3 & L3 & L4 & _).
  assert (Q3 : q2 = 64 * (c / 262144) + r3).
  { pose proof (N.div_mod q2 64). rewrite E2 in *. rewrite N.div_div in * by lia.
    change (4096 * 64) with 262144 in *. lia. }
  rewrite <- E2, E3, E1, E0, Q1. clear E2 E1 E0 E3 E4 Q1. generalize dependent (c / 262144). intros q3 Q3.
  destruct (N.ltb_spec c 128); [|destruct (N.ltb_spec c 2048); [|destruct (N.ltb_spec c 65536)]];
    cbn [map app utf8]; btw; reflexivity.
Qed.
Lemma text_utf8 l : is_text l -> utf8 l = true.
Proof.
  intros (cs & F & ->). induction F as [|c cs Hc F IH]; cbn [flat_map]; [reflexivity|].
  now rewrite utf8_encoding.
Qed.

Lemma div64 q r : r < 64 -> (64 * q + r) / 64 = q.
Proof. intros H. symmetry. apply N.div_unique with r; lia. Qed.
Lemma mod64 q r : r < 64 -> (64 * q + r) mod 64 = r.
Proof. intros H. symmetry. apply N.mod_unique with q; lia. Qed.
Lemma enc1 c : c < 128 -> encoded_char c = [byte_of_N c].
Proof. intros H. unfold encoded_char. apply N.ltb_lt in H. rewrite H. reflexivity. Qed.
Lemma enc2 q r : 2 <= q < 32 -> r < 64 ->
  encoded_char (64 * q + r) = [byte_of_N (192 + q); byte_of_N (128 + r)].
Proof.
  intros Hq Hr. unfold encoded_char. rewrite div64, mod64 by exact Hr.
  destruct (N.ltb_spec (64 * q + r) 128); [lia|]. destruct (N.ltb_spec (64 * q + r) 2048); [|lia].
  reflexivity.
Qed.
Lemma enc3 q s r : s < 64 -> r < 64 -> 32 <= 64 * q + s < 1024 ->
  encoded_char (64 * (64 * q + s) + r) = [byte_of_N (224 + q); byte_of_N (128 + s); byte_of_N (128 + r)].
Proof.
  intros Hs Hr Hq. unfold encoded_char. change 4096 with (64 * 64). rewrite <- N.div_div by lia.
  rewrite !div64, !mod64 by assumption.
  destruct (N.ltb_spec (64 * (64 * q + s) + r) 128); [lia|].
  destruct (N.ltb_spec (64 * (64 * q + s) + r) 2048); [lia|].
  destruct (N.ltb_spec (64 * (64 * q + s) + r) 65536); [|lia]. reflexivity.
Qed.
Lemma enc4 q t s r : t < 64 -> s < 64 -> r < 64 -> 16 <= 64 * q + t ->
  encoded_char (64 * (64 * (64 * q + t) + s) + r)
  = [byte_of_N (240 + q); byte_of_N (128 + t); byte_of_N (128 + s); byte_of_N (128 + r)].
Proof.
  intros Ht Hs Hr Hq. unfold encoded_char. change 262144 with (64 * 64 * 64). change 4096 with (64 * 64).
  rewrite <- !N.div_div by lia. rewrite !div64, !mod64 by assumption.
  set (c := 64 * (64 * (64 * q + t) + s) + r).
  destruct (N.ltb_spec c 128); [lia|]. destruct (N.ltb_spec c 2048); [lia|].
  destruct (N.ltb_spec c 65536); [lia|]. reflexivity.
Qed.
Lemma text_app c r : scalar_value c -> is_text r -> is_text (encoded_char c ++ r).
Proof. intros S (cs & F & ->). exists (c :: cs). split; [constructor; assumption|reflexivity]. Qed.
Lemma between_iff lo hi b : between lo hi b = true <-> lo <= Byte.to_N b <= hi.
Proof. unfold between. rewrite andb_true_iff, !N.leb_le. reflexivity. Qed.
Lemma between_not lo hi b : between lo hi b = false <-> ~ (lo <= Byte.to_N b <= hi).
Proof. rewrite <- between_iff. destruct (between lo hi b); split; congruence. Qed.

Ltac facts := unfold tail_byte in *; repeat
  match goal with
  | H : (_ && _)%bool = true |- _ => apply andb_true_iff in H as [H ?]
  | H : between _ _ _ = true |- _ => apply between_iff in H
  | H : between _ _ _ = false |- _ => apply between_not in H
  end.
Lemma utf8_text : forall n l, (length l <= n)%nat -> utf8 l = true -> is_text l.
Proof.
  induction n as [|n IH]; intros [|a l] L U; try (exists []; split; [constructor|reflexivity]);
    cbn [length] in L; [lia|].
  cbn [utf8] in U.
  destruct (between 0 127 a) eqn:A.
  { facts. replace (a :: l) with (encoded_char (Byte.to_N a) ++ l)
      by (rewrite enc1, byte_of_to_N by lia; reflexivity).
    apply text_app; [left; lia|]. apply IH; [lia|exact U]. }
  destruct l as [|b l]; [discriminate|]. cbn [length] in L.
  destruct (between 194 223 a) eqn:A2.
  { facts. set (q := Byte.to_N a - 192). set (r := Byte.to_N b - 128).
    replace (a :: b :: l) with (encoded_char (64 * q + r) ++ l).
    - apply text_app; [left; lia|]. apply IH; [lia|assumption].
    - rewrite enc2 by lia. replace (192 + q) with (Byte.to_N a) by lia.
      replace (128 + r) with (Byte.to_N b) by lia. now rewrite !byte_of_to_N. }
  destruct l as [|c l]; [discriminate|]. cbn [length] in L.
  destruct (between 224 239 a) eqn:A3.
  { destruct (between 224 224 a) eqn:A4; [|destruct (between 237 237 a) eqn:A5]; facts.
    all: set (q := Byte.to_N a - 224); set (s := Byte.to_N b - 128); set (r := Byte.to_N c - 128).
    all: replace (a :: b :: c :: l) with (encoded_char (64 * (64 * q + s) + r) ++ l)
      by (rewrite enc3 by lia; replace (224 + q) with (Byte.to_N a) by lia;
          replace (128 + s) with (Byte.to_N b) by lia; replace (128 + r) with (Byte.to_N c) by lia;
          rewrite !byte_of_to_N; reflexivity).
    all: apply text_app; [unfold scalar_value; lia|apply IH; [lia|assumption]]. }
  destruct l as [|d l]; [discriminate|]. cbn [length] in L.
  destruct (between 240 244 a) eqn:A6; [|discriminate].
  destruct (between 240 240 a) eqn:A4; [|destruct (between 244 244 a) eqn:A5]; facts.
  all: set (q := Byte.to_N a - 240); set (t := Byte.to_N b - 128);
       set (s := Byte.to_N c - 128); set (r := Byte.to_N d - 128).
  all: replace (a :: b :: c :: d :: l) with (encoded_char (64 * (64 * (64 * q + t) + s) + r) ++ l)
      by (rewrite enc4 by lia; replace (240 + q) with (Byte.to_N a) by lia;
          replace (128 + t) with (Byte.to_N b) by lia; replace (128 + s) with (Byte.to_N c) by lia;
          replace (128 + r) with (Byte.to_N d) by lia;
          rewrite !byte_of_to_N; reflexivity).
  all: apply text_app; [unfold scalar_value; lia|apply IH; [lia|assumption]].
Qed.
Lemma utf8_iff l : utf8 l = true <-> is_text l.
Proof. split; [exact (utf8_text _ l (le_n _))|apply text_utf8]. Qed.
Lemma utf8_no l : utf8 l = false <-> ~ is_text l.
Proof. rewrite <- utf8_iff. destruct (utf8 l); split; congruence. Qed.
