(* from_utf8 accepts exactly the UTF-8 encodings of scalar value sequences. *)
From Coq Require Import ZArith Lia ZifyBool ZifyNat ZifyN.
From Verif Require Import Base G_Enums M_Raw Spec L_Base.
Local Open Scope N_scope.
Ltac Zify.zify_post_hook ::= Z.div_mod_to_equations.

Ltac decide_ifs :=
  repeat match goal with
  | |- context[if ?x then _ else _] =>
      first [ replace x with true by (unfold within, is_cont; lia)
            | replace x with false by (unfold within, is_cont; lia) ]
  end.

Lemma from_utf8_encode c r : scalar c -> from_utf8 (utf8_encode c ++ r) = from_utf8 r.
Proof.
  intros Hc. unfold scalar in Hc. unfold utf8_encode.
  destruct (N.ltb_spec c 0x80).
  { cbn [app from_utf8]. decide_ifs. reflexivity. }
  destruct (N.ltb_spec c 0x800).
  { cbn [app from_utf8]. decide_ifs.
    replace (is_cont (128 + c mod 64)) with true by (unfold is_cont; lia). reflexivity. }
  destruct (N.ltb_spec c 0x10000).
  { cbn [app from_utf8].
    replace (224 + c / 4096 <? 128) with false by lia.
    replace (within 194 223 (224 + c / 4096)) with false by (unfold within; lia).
    replace (within 224 239 (224 + c / 4096)) with true by (unfold within; lia).
    replace (is_cont (128 + c mod 64)) with true by (unfold is_cont; lia).
    rewrite andb_true_r.
    destruct (N.eqb_spec (224 + c / 4096) 224).
    { replace (within 160 191 (128 + c / 64 mod 64)) with true by (unfold within; lia). reflexivity. }
    destruct (N.eqb_spec (224 + c / 4096) 237).
    { replace (within 128 159 (128 + c / 64 mod 64)) with true by (unfold within; lia). reflexivity. }
    replace (is_cont (128 + c / 64 mod 64)) with true by (unfold is_cont; lia). reflexivity. }
  cbn [app from_utf8].
  replace (240 + c / 262144 <? 128) with false by lia.
  replace (within 194 223 (240 + c / 262144)) with false by (unfold within; lia).
  replace (within 224 239 (240 + c / 262144)) with false by (unfold within; lia).
  replace (within 240 244 (240 + c / 262144)) with true by (unfold within; lia).
  replace (is_cont (128 + c mod 64)) with true by (unfold is_cont; lia).
  replace (is_cont (128 + c / 64 mod 64)) with true by (unfold is_cont; lia).
  rewrite !andb_true_r.
  destruct (N.eqb_spec (240 + c / 262144) 240).
  { replace (within 144 191 (128 + c / 4096 mod 64)) with true by (unfold within; lia). reflexivity. }
  destruct (N.eqb_spec (240 + c / 262144) 244).
  { replace (within 128 143 (128 + c / 4096 mod 64)) with true by (unfold within; lia). reflexivity. }
  replace (is_cont (128 + c / 4096 mod 64)) with true by (unfold is_cont; lia). reflexivity.
Qed.

Lemma utf8_from cs : Forall scalar cs -> from_utf8 (flat_map utf8_encode cs) = true.
Proof.
  induction 1 as [|c cs Hc _ IH]; [reflexivity|].
  cbn [flat_map]. rewrite from_utf8_encode by assumption. exact IH.
Qed.

Lemma encode_1 b : b < 0x80 -> utf8_encode b = [b].
Proof. intros H. unfold utf8_encode. destruct (N.ltb_spec b 128); [reflexivity|lia]. Qed.

Lemma encode_2 b0 b1 : 0xC2 <= b0 <= 0xDF -> 0x80 <= b1 <= 0xBF ->
  utf8_encode ((b0 - 0xC0) * 64 + (b1 - 0x80)) = [b0; b1].
Proof.
  intros H0 H1. set (c := (b0 - 192) * 64 + (b1 - 128)). unfold utf8_encode.
  destruct (N.ltb_spec c 128); [lia|]. destruct (N.ltb_spec c 2048); [|lia].
  assert (c / 64 = b0 - 192) by lia. assert (c mod 64 = b1 - 128) by lia.
  f_equal; [lia|]. f_equal; lia.
Qed.

Lemma encode_3 b0 b1 b2 : 0xE0 <= b0 <= 0xEF -> 0x80 <= b1 <= 0xBF -> 0x80 <= b2 <= 0xBF ->
  (b0 = 0xE0 -> 0xA0 <= b1) ->
  utf8_encode ((b0 - 0xE0) * 4096 + (b1 - 0x80) * 64 + (b2 - 0x80)) = [b0; b1; b2].
Proof.
  intros H0 H1 H2 H3. set (c := (b0 - 224) * 4096 + (b1 - 128) * 64 + (b2 - 128)). unfold utf8_encode.
  destruct (N.ltb_spec c 128); [lia|]. destruct (N.ltb_spec c 2048); [lia|].
  destruct (N.ltb_spec c 65536); [|lia].
  assert (c / 4096 = b0 - 224) by lia. assert (c mod 64 = b2 - 128) by lia.
  assert (c / 64 mod 64 = b1 - 128) by lia.
  f_equal; [lia|]. f_equal; [lia|]. f_equal; lia.
Qed.

Lemma encode_4 b0 b1 b2 b3 : 0xF0 <= b0 <= 0xF4 -> 0x80 <= b1 <= 0xBF -> 0x80 <= b2 <= 0xBF -> 0x80 <= b3 <= 0xBF ->
  (b0 = 0xF0 -> 0x90 <= b1) ->
  utf8_encode ((b0 - 0xF0) * 262144 + (b1 - 0x80) * 4096 + (b2 - 0x80) * 64 + (b3 - 0x80)) = [b0; b1; b2; b3].
Proof.
  intros H0 H1 H2 H3 H4.
  set (c := (b0 - 240) * 262144 + (b1 - 128) * 4096 + (b2 - 128) * 64 + (b3 - 128)). unfold utf8_encode.
  destruct (N.ltb_spec c 128); [lia|]. destruct (N.ltb_spec c 2048); [lia|].
  destruct (N.ltb_spec c 65536); [lia|].
  assert (c / 262144 = b0 - 240) by lia. assert (c mod 64 = b3 - 128) by lia.
  assert (c / 64 mod 64 = b2 - 128) by lia. assert (c / 4096 mod 64 = b1 - 128) by lia.
  f_equal; [lia|]. f_equal; [lia|]. f_equal; [lia|]. f_equal; lia.
Qed.

Lemma utf8_cons c l : scalar c -> utf8 l -> utf8 (utf8_encode c ++ l).
Proof. intros Hc [cs [Hcs ->]]. exists (c :: cs). split; [constructor; assumption|reflexivity]. Qed.

Lemma from_utf8_utf8 n l : (length l <= n)%nat -> from_utf8 l = true -> utf8 l.
Proof.
  revert l; induction n as [|n IH]; intros l Hn H.
  { destruct l; [|cbn in Hn; lia]. exists []. split; [constructor|reflexivity]. }
  destruct l as [|b0 r0]; [exists []; split; [constructor|reflexivity]|].
  cbn [from_utf8] in H. cbn [length] in Hn.
  destruct (N.ltb_spec b0 128) as [H0|H0].
  { change (b0 :: r0) with ([b0] ++ r0). rewrite <- (encode_1 b0 H0).
    apply utf8_cons; [left; lia|]. apply IH; [lia|exact H]. }
  destruct (within 194 223 b0) eqn:W2.
  { destruct r0 as [|b1 r1]; [discriminate|]. apply andb_true_iff in H. destruct H as [H1 H].
    unfold within, is_cont in *.
    change (b0 :: b1 :: r1) with ([b0; b1] ++ r1). rewrite <- (encode_2 b0 b1) by lia.
    apply utf8_cons; [left; lia|]. apply IH; [cbn [length] in Hn; lia|exact H]. }
  destruct (within 224 239 b0) eqn:W3.
  { destruct r0 as [|b1 [|b2 r2]]; try discriminate.
    apply andb_true_iff in H. destruct H as [H1 H]. apply andb_true_iff in H1. destruct H1 as [H1 H2].
    unfold within, is_cont in *.
    change (b0 :: b1 :: b2 :: r2) with ([b0; b1; b2] ++ r2).
    assert (B1 : 128 <= b1 <= 191 /\ (b0 = 224 -> 160 <= b1) /\ (b0 = 237 -> b1 <= 159)).
    { destruct (N.eqb_spec b0 224); [lia|]. destruct (N.eqb_spec b0 237); lia. }
    rewrite <- (encode_3 b0 b1 b2) by lia.
    apply utf8_cons.
    - unfold scalar. destruct (N.eqb_spec b0 237); lia.
    - apply IH; [cbn [length] in Hn; lia|exact H]. }
  destruct (within 240 244 b0) eqn:W4; [|discriminate].
  destruct r0 as [|b1 [|b2 [|b3 r3]]]; try discriminate.
  apply andb_true_iff in H. destruct H as [H1 H]. apply andb_true_iff in H1. destruct H1 as [H1 H3].
  apply andb_true_iff in H1. destruct H1 as [H1 H2].
  unfold within, is_cont in *.
  change (b0 :: b1 :: b2 :: b3 :: r3) with ([b0; b1; b2; b3] ++ r3).
  assert (B1 : 128 <= b1 <= 191 /\ (b0 = 240 -> 144 <= b1) /\ (b0 = 244 -> b1 <= 143)).
  { destruct (N.eqb_spec b0 240); [lia|]. destruct (N.eqb_spec b0 244); lia. }
  rewrite <- (encode_4 b0 b1 b2 b3) by lia.
  apply utf8_cons.
  - unfold scalar. lia.
  - apply IH; [cbn [length] in Hn; lia|exact H].
Qed.

Lemma from_utf8_iff l : from_utf8 l = true <-> utf8 l.
Proof.
  split.
  - apply (from_utf8_utf8 (length l)). lia.
  - intros [cs [H ->]]. apply utf8_from, H.
Qed.
