(* Lemmas about displayed texts: numerals can be read back, and the texts around
   them do not interfere. *)
From Coq Require Import String Ascii.
From Coq Require Import ZArith Lia ZifyBool ZifyNat ZifyN.
From Verif Require Import Base G_Enums M_Raw M_Display S_Text L_Hardware.
Local Open Scope string_scope.
Local Open Scope N_scope.
Ltac Zify.zify_post_hook ::= Z.div_mod_to_equations.

Definition upper (d : N) : ascii := ascii_of_N (if d <? 10 then 48 + d else 55 + d).
Definition lower (d : N) : ascii := ascii_of_N (if d <? 10 then 48 + d else 87 + d).
Lemma upper_value d : d < 16 -> digit_value (upper d) = Some d.
Proof.
  intros H. assert (A : forallb (fun d => match digit_value (upper d) with Some e => e =? d | None => false end) (below 16) = true)
    by (vm_compute; reflexivity).
  rewrite forallb_forall in A. specialize (A d (below_in 16 d H)).
  destruct (digit_value (upper d)); [|discriminate]. f_equal; lia.
Qed.
Lemma lower_value d : d < 16 -> digit_value (lower d) = Some d.
Proof.
  intros H. assert (A : forallb (fun d => match digit_value (lower d) with Some e => e =? d | None => false end) (below 16) = true)
    by (vm_compute; reflexivity).
  rewrite forallb_forall in A. specialize (A d (below_in 16 d H)).
  destruct (digit_value (lower d)); [|discriminate]. f_equal; lia.
Qed.
Lemma upper_zero d : d < 16 -> upper d = "0"%char -> d = 0.
Proof. intros H E. pose proof (upper_value d H) as V. rewrite E in V. vm_compute in V. congruence. Qed.
Lemma lower_zero d : d < 16 -> lower d = "0"%char -> d = 0.
Proof. intros H E. pose proof (lower_value d H) as V. rewrite E in V. vm_compute in V. congruence. Qed.

(* digits read back *)
Lemma digits_read f base n acc : 2 <= base <= 16 -> n < base ^ N.of_nat (S f) ->
  read_from base 0 (digits (S f) base n acc) = read_from base n acc.
Proof.
  intros HB. revert n acc. induction f as [|f IH]; intros n acc H.
  - cbn [digits]. change (digit (n mod base)) with (String (upper (n mod base)) EmptyString). cbn [append].
    change (N.of_nat 1) with 1 in H. rewrite N.pow_1_r in H.
    assert (E : n / base = 0) by (apply N.div_small; exact H). rewrite E. cbn [N.eqb].
    cbn [read_from]. rewrite N.mod_small by exact H. rewrite upper_value by lia.
    destruct (N.ltb_spec n base); [|lia]. f_equal; lia.
  - remember (S f) as g. cbn [digits]. change (digit (n mod base)) with (String (upper (n mod base)) EmptyString). cbn [append].
    assert (M : n mod base < base) by (apply N.mod_lt; lia).
    assert (D : n = base * (n / base) + n mod base) by (apply N.div_mod; lia).
    destruct (N.eqb_spec (n / base) 0) as [E|E].
    + cbn [read_from]. rewrite upper_value by lia. destruct (N.ltb_spec (n mod base) base); [|lia]. f_equal; nia.
    + subst g. rewrite IH.
      * cbn [read_from]. rewrite upper_value by lia. destruct (N.ltb_spec (n mod base) base); [|lia]. f_equal; nia.
      * apply N.div_lt_upper_bound; [lia|]. rewrite <- N.pow_succ_r'. rewrite <- Nnat.Nat2N.inj_succ. exact H.
Qed.
Lemma digits_head f base n acc : 2 <= base <= 16 -> n < base ^ N.of_nat (S f) -> n <> 0 ->
  exists d s, digits (S f) base n acc = String (upper d) s /\ d < 16 /\ d <> 0.
Proof.
  intros HB. revert n acc. induction f as [|f IH]; intros n acc H HN.
  - cbn [digits]. change (N.of_nat 1) with 1 in H. rewrite N.pow_1_r in H. rewrite (N.div_small n base) by exact H. cbn [N.eqb].
    exists (n mod base), acc. split; [reflexivity|]. rewrite N.mod_small by exact H. lia.
  - remember (S f) as g. cbn [digits]. destruct (N.eqb_spec (n / base) 0) as [E|E].
    + exists (n mod base), acc. split; [reflexivity|]. assert (n < base) by (apply N.div_small_iff in E; lia).
      rewrite N.mod_small by assumption. lia.
    + subst g. apply IH; [|exact E]. apply N.div_lt_upper_bound; [lia|].
      rewrite <- N.pow_succ_r', <- Nnat.Nat2N.inj_succ. exact H.
Qed.
Lemma digits_zero base : 2 <= base -> digits 64 base 0 "" = "0".
Proof. intros H. cbn [digits]. rewrite N.div_0_l, N.mod_0_l by lia. reflexivity. Qed.
Lemma digits_numeral base n : 2 <= base <= 16 -> n < base ^ 64 -> numeral base (digits 64 base n "") n.
Proof.
  intros HB HN. change 64%nat with (S 63). change 64 with (N.of_nat (S 63)) in HN.
  destruct (N.eq_dec n 0) as [->|NZ].
  - rewrite digits_zero by lia. split; [split; [discriminate|]|left; reflexivity].
    cbn [read_from]. change (digit_value "0") with (Some 0). cbv iota. rewrite (proj2 (N.ltb_lt 0 base)) by lia. reflexivity.
  - destruct (digits_head 63 base n "" HB HN NZ) as [d [s [E [D1 D2]]]]. split; [split|].
    + rewrite E. discriminate.
    + rewrite digits_read by assumption. reflexivity.
    + right. intros t T. rewrite E in T. injection T as T _. apply D2, upper_zero; assumption.
Qed.
Lemma show_dec_numeral n : n < 10 ^ 64 -> numeral 10 (show_dec n) n.
Proof. intros H. apply digits_numeral; [lia|exact H]. Qed.
Lemma show_hex_numeral n : n < 16 ^ 64 -> numeral 16 (show_hex n) n.
Proof. intros H. apply digits_numeral; [lia|exact H]. Qed.
Lemma show_bin_numeral n : n < 2 ^ 64 -> numeral 2 (show_bin n) n.
Proof. intros H. apply digits_numeral; [lia|exact H]. Qed.

Lemma digits_low_read f n acc : n < 16 ^ N.of_nat (S f) ->
  read_from 16 0 (digits_low (S f) n acc) = read_from 16 n acc.
Proof.
  revert n acc. induction f as [|f IH]; intros n acc H.
  - cbn [digits_low]. change (digit_low (n mod 16)) with (String (lower (n mod 16)) EmptyString). cbn [append].
    change (16 ^ N.of_nat 1) with 16 in H. rewrite (N.div_small n 16) by exact H. cbn [N.eqb read_from].
    rewrite N.mod_small by exact H. rewrite lower_value by lia. destruct (N.ltb_spec n 16); [|lia]. f_equal.
  - remember (S f) as g. cbn [digits_low]. change (digit_low (n mod 16)) with (String (lower (n mod 16)) EmptyString). cbn [append].
    destruct (N.eqb_spec (n / 16) 0) as [E|E].
    + cbn [read_from]. rewrite lower_value by lia. destruct (N.ltb_spec (n mod 16) 16); [|lia]. f_equal; lia.
    + subst g. rewrite IH.
      * cbn [read_from]. rewrite lower_value by lia. destruct (N.ltb_spec (n mod 16) 16); [|lia]. f_equal; lia.
      * apply N.div_lt_upper_bound; [lia|]. rewrite <- N.pow_succ_r', <- Nnat.Nat2N.inj_succ. exact H.
Qed.
Lemma digits_low_head f n acc : n < 16 ^ N.of_nat (S f) -> n <> 0 ->
  exists d s, digits_low (S f) n acc = String (lower d) s /\ d < 16 /\ d <> 0.
Proof.
  revert n acc. induction f as [|f IH]; intros n acc H HN.
  - cbn [digits_low]. change (16 ^ N.of_nat 1) with 16 in H. rewrite (N.div_small n 16) by exact H. cbn [N.eqb].
    exists (n mod 16), acc. split; [reflexivity|]. rewrite N.mod_small by exact H. lia.
  - remember (S f) as g. cbn [digits_low]. destruct (N.eqb_spec (n / 16) 0) as [E|E].
    + exists (n mod 16), acc. split; [reflexivity|]. lia.
    + subst g. apply IH; [|exact E]. apply N.div_lt_upper_bound; [lia|].
      rewrite <- N.pow_succ_r', <- Nnat.Nat2N.inj_succ. exact H.
Qed.
Lemma show_hex_low_numeral n : n < 16 ^ 64 -> numeral 16 (show_hex_low n) n.
Proof.
  intros HN. unfold show_hex_low. change 64%nat with (S 63). change 64 with (N.of_nat (S 63)) in HN.
  destruct (N.eq_dec n 0) as [->|NZ].
  - vm_compute. split; [split; [discriminate|reflexivity]|left; reflexivity].
  - destruct (digits_low_head 63 n "" HN NZ) as [d [s [E [D1 D2]]]]. split; [split|].
    + rewrite E. discriminate.
    + rewrite digits_low_read by assumption. reflexivity.
    + right. intros t T. rewrite E in T. injection T as T _. apply D2, lower_zero; assumption.
Qed.

(* padding *)
Lemma zeros_read base n s : 2 <= base -> read_from base 0 (zeros n ++ s) = read_from base 0 s.
Proof.
  intros H. induction n as [|n IH]; [reflexivity|]. cbn [zeros append read_from].
  change (digit_value "0") with (Some 0). cbv iota. rewrite (proj2 (N.ltb_lt 0 base)) by lia. exact IH.
Qed.
Lemma append_length s t : String.length (s ++ t) = (String.length s + String.length t)%nat.
Proof. induction s as [|c s IH]; [reflexivity|]. cbn. f_equal. exact IH. Qed.
Lemma zeros_length n : String.length (zeros n) = n.
Proof. induction n as [|n IH]; [reflexivity|]. cbn. f_equal. exact IH. Qed.
Lemma pad_padded base w s n : 2 <= base -> numeral base s n -> padded base w (pad w s) n.
Proof.
  intros HB H. unfold pad, padded. pose proof H as [[H1 H2] _]. split.
  - split; [|rewrite zeros_read by exact HB; exact H2]. intros E. apply H1.
    destruct (zeros (w - String.length s)); [exact E|discriminate].
  - rewrite append_length, zeros_length.
    destruct (Compare_dec.le_lt_dec (String.length s) w) as [L|L]; [left; lia|right].
    split; [lia|]. replace (w - String.length s)%nat with O by lia. exact H.
Qed.
(* a bound on the number makes the width exact *)
Lemma reads_bound base s n : 2 <= base -> read_from base 0 s = Some n -> n < base ^ N.of_nat (String.length s).
Proof.
  intros HB. assert (G : forall s a, read_from base a s = Some n -> n < (a + 1) * base ^ N.of_nat (String.length s)).
  { clear s. induction s as [|c s IH]; intros a E.
    - cbn in E. injection E as <-. cbn. lia.
    - cbn [read_from] in E. destruct (digit_value c) as [d|]; [|discriminate].
      destruct (N.ltb_spec d base); [|discriminate]. apply IH in E.
      cbn [String.length]. rewrite Nnat.Nat2N.inj_succ, N.pow_succ_r'. eapply N.lt_le_trans; [exact E|].
      rewrite N.mul_assoc. apply N.mul_le_mono_r. nia. }
  intros E. apply G in E. lia.
Qed.
Lemma numeral_length base s n w : 2 <= base -> numeral base s n -> n < base ^ N.of_nat w -> (1 <= w)%nat -> (String.length s <= w)%nat.
Proof.
  intros HB [[H1 H2] H3] HN HW.
  destruct s as [|c s]; [congruence|]. destruct H3 as [E|H3]; [rewrite E; exact HW|].
  cbn [read_from] in H2. destruct (digit_value c) as [d|] eqn:V; [|discriminate].
  destruct (N.ltb_spec d base); [|discriminate].
  assert (D : d <> 0).
  { intros ->. apply (H3 s). f_equal.
    assert (A : forall k, k < 256 -> digit_value (ascii_of_N k) = Some 0 -> k = 48).
    { intros k HK E. assert (B : forallb (fun k => match digit_value (ascii_of_N k) with Some 0 => k =? 48 | _ => true end) (below 256) = true)
        by (vm_compute; reflexivity).
      rewrite forallb_forall in B. specialize (B k (below_in 256 k HK)). rewrite E in B. lia. }
    assert (HC : N_of_ascii c < 256).
    { destruct c as [[] [] [] [] [] [] [] []]; vm_compute; reflexivity. }
    specialize (A (N_of_ascii c) HC). rewrite ascii_N_embedding in A. rewrite <- (ascii_N_embedding c), (A V). reflexivity. }
  assert (G : forall s a, read_from base a s = Some n -> a * base ^ N.of_nat (String.length s) <= n).
  { clear. induction s as [|c s IH]; intros a E.
    - cbn in E. injection E as <-. cbn. lia.
    - cbn [read_from] in E. destruct (digit_value c) as [d|]; [|discriminate].
      destruct (N.ltb_spec d base); [|discriminate]. apply IH in E.
      cbn [String.length]. rewrite Nnat.Nat2N.inj_succ, N.pow_succ_r'. etransitivity; [|exact E].
      rewrite N.mul_assoc. apply N.mul_le_mono_r. lia. }
  apply G in H2. cbn [String.length].
  destruct (Compare_dec.le_lt_dec (S (String.length s)) w) as [L|L]; [exact L|exfalso].
  assert (base ^ N.of_nat w <= base ^ N.of_nat (String.length s)) by (apply N.pow_le_mono_r; lia). nia.
Qed.
Lemma pad_length base s n w : 2 <= base -> numeral base s n -> n < base ^ N.of_nat w -> (1 <= w)%nat -> String.length (pad w s) = w.
Proof.
  intros HB HN HW H1. pose proof (numeral_length base s n w HB HN HW H1). unfold pad. rewrite append_length, zeros_length. lia.
Qed.

(* ---------------------------------------------------------- text splitting *)

Fixpoint all_digits (s : string) : bool :=
  match s with EmptyString => true | String c s => match digit_value c with Some _ => all_digits s | None => false end end.
Definition no_digit_first (s : string) : bool :=
  match s with EmptyString => true | String c _ => match digit_value c with Some _ => false | None => true end end.
Lemma reads_all_digits base s a n : read_from base a s = Some n -> all_digits s = true.
Proof.
  revert a. induction s as [|c s IH]; intros a H; [reflexivity|]. cbn in *.
  destruct (digit_value c); [|discriminate]. destruct (n0 <? base); [|discriminate]. eapply IH, H.
Qed.
Lemma split_digits a b c d : all_digits a = true -> all_digits b = true -> no_digit_first c = true -> no_digit_first d = true ->
  a ++ c = b ++ d -> a = b /\ c = d.
Proof.
  revert b. induction a as [|x a IH]; intros [|y b] HA HB HC HD E; cbn in E.
  - split; [reflexivity|exact E].
  - subst c. cbn in HB, HC. destruct (digit_value y); discriminate.
  - subst d. cbn in HA, HD. destruct (digit_value x); discriminate.
  - injection E as -> E. cbn in HA, HB. destruct (digit_value y); [|discriminate].
    destruct (IH b HA HB HC HD E) as [-> ->]. split; reflexivity.
Qed.
(* two numerals followed by something else *)
Lemma split_reads base a b m n c d : reads base a m -> reads base b n -> no_digit_first c = true -> no_digit_first d = true ->
  a ++ c = b ++ d -> m = n /\ c = d.
Proof.
  intros [_ A] [_ B] HC HD E.
  destruct (split_digits a b c d (reads_all_digits _ _ _ _ A) (reads_all_digits _ _ _ _ B) HC HD E) as [-> ->].
  split; [congruence|reflexivity].
Qed.
Lemma append_nil s : s ++ "" = s.
Proof. induction s as [|c s IH]; [reflexivity|]. cbn. f_equal. exact IH. Qed.
Lemma same_reads base a m n : reads base a m -> reads base a n -> m = n.
Proof. intros [_ A] [_ B]. congruence. Qed.
Lemma append_assoc a b c : (a ++ b) ++ c = a ++ (b ++ c).
Proof. induction a as [|x a IH]; [reflexivity|]. cbn. f_equal. exact IH. Qed.
Lemma prefix_cancel p a b : p ++ a = p ++ b -> a = b.
Proof. induction p as [|x p IH]; intros H; [exact H|]. cbn in H. injection H. exact IH. Qed.

Lemma show_dec_reads n : n < 10 ^ 64 -> reads 10 (show_dec n) n.
Proof. intros H. apply show_dec_numeral, H. Qed.
Lemma show_hex_reads n : n < 16 ^ 64 -> reads 16 (show_hex n) n.
Proof. intros H. apply show_hex_numeral, H. Qed.
Lemma pad_hex_reads w n : n < 16 ^ 64 -> reads 16 (pad w (show_hex n)) n.
Proof. intros H. apply (pad_padded 16 w _ _ ltac:(lia) (show_hex_numeral n H)). Qed.
Lemma pad_hex_low_reads w n : n < 16 ^ 64 -> reads 16 (pad w (show_hex_low n)) n.
Proof. intros H. apply (pad_padded 16 w _ _ ltac:(lia) (show_hex_low_numeral n H)). Qed.
Lemma pad_dec_reads w n : n < 10 ^ 64 -> reads 10 (pad w (show_dec n)) n.
Proof. intros H. apply (pad_padded 10 w _ _ ltac:(lia) (show_dec_numeral n H)). Qed.
Lemma show_dec_inj m n : m < 10 ^ 64 -> n < 10 ^ 64 -> show_dec m = show_dec n -> m = n.
Proof. intros HM HN E. apply (same_reads 10 (show_dec m)); [apply show_dec_reads, HM|rewrite E; apply show_dec_reads, HN]. Qed.
