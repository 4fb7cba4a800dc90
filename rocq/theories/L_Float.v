(* The quotient that the model of `x as f32 / 10.0` computes is the one of IEEE 754, as
   specified in the standard library (Coq.Floats.SpecFloat). *)
From Coq Require Import String.
From Coq Require Import ZArith Lia ZifyBool ZifyNat ZifyN.
From Coq Require Import Floats.SpecFloat.
From Verif Require Import Base M_Display S_Text S_Float L_Text L_Texts L_Texts2.
Local Open Scope Z_scope.
Ltac Zify.zify_post_hook ::= Z.div_mod_to_equations.

Lemma digits_size p : digits2_pos p = Pos.size p.
Proof. induction p; cbn; congruence. Qed.
Lemma digits_between p d : 0 < d -> 2 ^ (d - 1) <= Z.pos p < 2 ^ d -> Z.pos (digits2_pos p) = d.
Proof.
  intros D [L H]. rewrite digits_size.
  assert (A : Z.pos p < 2 ^ Z.pos (Pos.size p)) by (rewrite <- Pos2Z.inj_pow; apply Pos2Z.pos_lt_pos, Pos.size_gt).
  assert (B : 2 ^ (Z.pos (Pos.size p)) <= 2 * Z.pos p).
  { rewrite <- Pos2Z.inj_pow. change (2 * Z.pos p) with (Z.pos p~0). apply Pos2Z.pos_le_pos, Pos.size_le. }
  assert (C : d - 1 < Z.pos (Pos.size p)) by (apply (Z.pow_lt_mono_r_iff 2); lia).
  assert (E : Z.pos (Pos.size p) < d + 1).
  { apply (Z.pow_lt_mono_r_iff 2); [lia|lia|]. rewrite Z.pow_add_r by lia. lia. }
  lia.
Qed.
Lemma digits_of q d : 0 < d -> 2 ^ (d - 1) <= q < 2 ^ d -> Zdigits2 q = d.
Proof.
  intros D Q. assert (0 < 2 ^ (d - 1)) by (apply Z.pow_pos_nonneg; lia).
  destruct q as [|p|p]; [lia| |lia]. cbn [Zdigits2]. now apply digits_between.
Qed.

Lemma fexp_mid e : -125 <= e -> fexp 24 128 e = e - 24.
Proof. unfold fexp, emin. lia. Qed.

(* the second half of rounding, when the mantissa does not grow to 25 digits *)
Lemma finish m e : 2 ^ 23 <= m < 2 ^ 24 -> -149 <= e <= 100 ->
  (let '(mrs'', e'') := shr_fexp 24 128 m e loc_Exact in
   match shr_m mrs'' with
   | Z0 => S754_zero false
   | Zpos m => if Zle_bool e'' (128 - 24) then S754_finite false m e'' else S754_infinity false
   | _ => S754_nan
   end) = S754_finite false (Z.to_pos m) e.
Proof.
  intros R E. unfold shr_fexp. rewrite (digits_of m 24) by lia. rewrite fexp_mid by lia.
  replace (24 + e - 24 - e) with 0 by lia. cbn [shr shr_record_of_loc shr_m].
  destruct m as [|p|p]; [lia| |lia]. replace (e <=? 128 - 24) with true by (symmetry; lia). reflexivity.
Qed.

Lemma round_24 q e l : 2 ^ 23 <= q < 2 ^ 24 -> -149 <= e <= 100 ->
  2 ^ 23 <= round_nearest_even q l < 2 ^ 24 ->
  binary_round_aux 24 128 false q e l = S754_finite false (Z.to_pos (round_nearest_even q l)) e.
Proof.
  intros Q E R. unfold binary_round_aux. unfold shr_fexp at 1.
  rewrite (digits_of q 24) by lia. rewrite fexp_mid by lia. replace (24 + e - 24 - e) with 0 by lia. cbn [shr].
  assert (M : shr_m (shr_record_of_loc q l) = q) by (destruct l as [|[]]; reflexivity).
  assert (L : loc_of_shr_record (shr_record_of_loc q l) = l) by (destruct l as [|[]]; reflexivity).
  rewrite M, L. now apply finish.
Qed.

Definition halved (q : Z) (l : location) : location :=
  match Z.odd q, l with
  | true, loc_Exact => loc_Inexact Eq
  | true, _ => loc_Inexact Gt
  | false, loc_Exact => loc_Exact
  | false, _ => loc_Inexact Lt
  end.
Lemma round_25 q e l : 2 ^ 24 <= q < 2 ^ 25 -> -149 <= e <= 99 ->
  2 ^ 23 <= round_nearest_even (q / 2) (halved q l) < 2 ^ 24 ->
  binary_round_aux 24 128 false q e l = S754_finite false (Z.to_pos (round_nearest_even (q / 2) (halved q l))) (e + 1).
Proof.
  intros Q E R. unfold binary_round_aux. unfold shr_fexp at 1.
  rewrite (digits_of q 25) by lia. rewrite fexp_mid by lia. replace (25 + e - 24 - e) with 1 by lia. cbn [shr SpecFloat.iter_pos].
  assert (M : shr_m (shr_1 (shr_record_of_loc q l)) = q / 2).
  { destruct q as [|[p|p|]|]; try lia; destruct l as [|[]]; cbn [shr_record_of_loc shr_1 shr_m]; lia. }
  assert (L : loc_of_shr_record (shr_1 (shr_record_of_loc q l)) = halved q l).
  { destruct q as [|[p|p|]|]; try lia; destruct l as [|[]]; reflexivity. }
  rewrite M, L. apply finish; [exact R|lia].
Qed.

(* a number below 2^24 is held exactly *)
Lemma as_f32_exact x n : 0 <= n <= 23 -> 2 ^ n <= Z.of_N x < 2 ^ (n + 1) ->
  as_f32 x = S754_finite false (Z.to_pos (Z.of_N x * 2 ^ (23 - n))) (n - 23).
Proof.
  intros N X. unfold as_f32. destruct x as [|p]; [cbn [Z.of_N] in X; assert (0 < 2 ^ n) by (apply Z.pow_pos_nonneg; lia); lia|].
  cbn [Z.of_N binary_normalize] in *. unfold binary_round.
  rewrite (digits_between p (n + 1)) by (replace (n + 1 - 1) with n by lia; lia).
  rewrite fexp_mid by lia. replace (n + 1 + 0 - 24) with (n - 23) by lia.
  assert (A : shl_align p 0 (n - 23) = (Z.to_pos (Z.pos p * 2 ^ (23 - n)), n - 23)).
  { unfold shl_align. destruct (Z.eq_dec n 23) as [->|Ne].
    - change (23 - 23) with 0. cbn. now rewrite Pos.mul_1_r.
    - destruct (n - 23 - 0) as [|d|d] eqn:D; [lia|lia|]. f_equal. apply Pos2Z.inj.
      rewrite Z2Pos.id by (assert (0 < 2 ^ (23 - n)) by (apply Z.pow_pos_nonneg; lia); nia).
      rewrite shift_pos_correct, Z.pow_pos_fold. replace (23 - n) with (Z.pos d) by lia. lia. }
  rewrite A. assert (B : 2 ^ 23 <= Z.pos p * 2 ^ (23 - n) < 2 ^ 24).
  { replace (2 ^ 24) with (2 ^ (n + 1) * 2 ^ (23 - n)) by (rewrite <- Z.pow_add_r by lia; f_equal; lia).
    replace (2 ^ 23) with (2 ^ n * 2 ^ (23 - n)) by (rewrite <- Z.pow_add_r by lia; f_equal; lia).
    assert (0 < 2 ^ (23 - n)) by (apply Z.pow_pos_nonneg; lia).
    split; [apply Z.mul_le_mono_nonneg_r|apply Z.mul_lt_mono_pos_r]; lia. }
  set (m := Z.pos p * 2 ^ (23 - n)) in *. rewrite Z2Pos.id by lia. now apply round_24; [|lia|].
Qed.

Lemma ten_f32 : as_f32 10 = S754_finite false 10485760 (-20).
Proof. reflexivity. Qed.

Lemma quotient m n : 0 <= n <= 23 -> 2 ^ 23 <= m < 2 ^ 24 ->
  SFdiv_core_binary 24 128 m (n - 23) 10485760 (-20) =
  (m * 16 / 10, n - 27, if Z.eqb (m * 16 mod 10) 0 then loc_Exact else loc_Inexact (Z.compare (2 * (m * 16 mod 10)) 10)).
Proof.
  intros N M. unfold SFdiv_core_binary. rewrite (digits_of m 24) by lia.
  change (Zdigits2 10485760) with 24. rewrite fexp_mid by lia.
  replace (24 + (n - 23) - (24 + -20) - 24) with (n - 27) by lia.
  replace (Z.min (n - 27) (n - 23 - -20)) with (n - 27) by lia.
  replace (n - 23 - -20 - (n - 27)) with 24 by lia. rewrite Z.shiftl_mul_pow2 by lia.
  replace (Z.div_eucl (m * 2 ^ 24) 10485760) with ((m * 2 ^ 24) / 10485760, (m * 2 ^ 24) mod 10485760)
    by (unfold Z.div, Z.modulo; destruct (Z.div_eucl (m * 2 ^ 24) 10485760); reflexivity).
  replace (m * 2 ^ 24) with ((m * 16) * 2 ^ 20) by lia. change 10485760 with (10 * 2 ^ 20).
  rewrite Z.div_mul_cancel_r by lia. rewrite Z.mul_mod_distr_r by lia.
  f_equal. unfold new_location. change (Z.even (10 * 2 ^ 20)) with true. unfold new_location_even.
  set (r := (m * 16) mod 10). replace (Zeq_bool (r * 2 ^ 20) 0) with (r =? 0).
  2: { destruct (r =? 0) eqn:E; symmetry; [apply Zeq_is_eq_bool|]; [lia|].
       destruct (Zeq_bool (r * 2 ^ 20) 0) eqn:F; [apply Zeq_is_eq_bool in F; lia|reflexivity]. }
  destruct (r =? 0); [reflexivity|]. f_equal. rewrite Z.mul_assoc. rewrite <- Zmult_compare_compat_r by lia. reflexivity.
Qed.

Lemma even_parity a : N.even a = Z.even (Z.of_N a).
Proof. destruct a as [|[]]; reflexivity. Qed.

Theorem tenth_is_ieee x : (0 < x < 2 ^ 24)%N ->
  div_f32 (as_f32 x) (as_f32 10) =
  S754_finite false (N.succ_pos (N.pred (fst (f32_tenth x)))) (- Z.of_N (snd (f32_tenth x))) /\
  (fst (f32_tenth x) <> 0)%N.
Proof.
  intros X. pose proof (N.log2_spec x) as L. destruct L as [L H]; [lia|].
  assert (N23 : (N.log2 x <= 23)%N).
  { apply N.lt_succ_r. apply (N.pow_lt_mono_r_iff 2); lia. }
  unfold f32_tenth. cbv zeta. set (n := N.log2 x) in *.
  assert (XA : 2 ^ Z.of_N n <= Z.of_N x < 2 ^ (Z.of_N n + 1)).
  { rewrite <- N2Z.inj_succ in * || idtac. split.
    - change 2 with (Z.of_N 2). rewrite <- N2Z.inj_pow. lia.
    - replace (Z.of_N n + 1) with (Z.of_N (N.succ n)) by lia. change 2 with (Z.of_N 2). rewrite <- N2Z.inj_pow. lia. }
  rewrite (as_f32_exact x (Z.of_N n)) by (try exact XA; lia). rewrite ten_f32.
  set (m := Z.of_N x * 2 ^ (23 - Z.of_N n)).
  assert (MB : 2 ^ 23 <= m < 2 ^ 24).
  { unfold m.
    replace (2 ^ 24) with (2 ^ (Z.of_N n + 1) * 2 ^ (23 - Z.of_N n)) by (rewrite <- Z.pow_add_r by lia; f_equal; lia).
    replace (2 ^ 23) with (2 ^ Z.of_N n * 2 ^ (23 - Z.of_N n)) by (rewrite <- Z.pow_add_r by lia; f_equal; lia).
    assert (0 < 2 ^ (23 - Z.of_N n)) by (apply Z.pow_pos_nonneg; lia).
    split; [apply Z.mul_le_mono_nonneg_r|apply Z.mul_lt_mono_pos_r]; lia. }
  unfold div_f32, SFdiv. rewrite Z2Pos.id by lia. rewrite quotient by lia.
  assert (K : forall j, Z.of_N (x * 2 ^ (23 - n + j)) = m * 2 ^ Z.of_N j).
  { intros j. unfold m. rewrite N2Z.inj_mul, N2Z.inj_pow. rewrite <- Z.mul_assoc, <- Z.pow_add_r by lia.
    do 3 f_equal. lia. }
  replace (26 - n)%N with (23 - n + 3)%N by lia.
  pose proof (K 3%N) as K3. pose proof (K 4%N) as K4. cbn [Z.of_N] in K3, K4.
  change (2 ^ 3) with 8 in K3. change (2 ^ 4) with 16 in K4.
  replace (23 - n + 3 + 1)%N with (23 - n + 4)%N by lia.
  remember (x * 2 ^ (23 - n + 3))%N as a eqn:EA. remember (x * 2 ^ (23 - n + 4))%N as b eqn:EB.
  clearbody m. clear K L H XA X.
  change (10 * 2 ^ 23)%N with 83886080%N. change (2 ^ 23) with 8388608 in *. change (2 ^ 24) with 16777216 in *.
  destruct (a <? 83886080)%N eqn:C.
  - assert (Q : 2 ^ 23 <= m * 16 / 10 < 2 ^ 24) by (change (2 ^ 23) with 8388608; change (2 ^ 24) with 16777216; lia).
    rewrite <- EB. clear EA EB. cbn [fst snd]. assert (V : Z.of_N (nearest_even b 10) = round_nearest_even (m * 16 / 10)
        (if m * 16 mod 10 =? 0 then loc_Exact else loc_Inexact (2 * (m * 16 mod 10) ?= 10))).
    { unfold nearest_even. rewrite even_parity.
      replace (Z.of_N (b / 10)%N) with (m * 16 / 10) by lia.
      assert (R : Z.of_N (b mod 10) = m * 16 mod 10) by lia.
      destruct (m * 16 mod 10 =? 0) eqn:Z0.
      - replace (2 * (b mod 10) <? 10)%N with true by (symmetry; lia). cbn [orb round_nearest_even]. lia.
      - destruct (Z.compare_spec (2 * (m * 16 mod 10)) 10) as [E|E|E]; cbn [round_nearest_even].
        + replace (2 * (b mod 10) <? 10)%N with false by (symmetry; lia).
          replace (2 * (b mod 10) =? 10)%N with true by (symmetry; lia). cbn [orb andb].
          destruct (Z.even (m * 16 / 10)); lia.
        + replace (2 * (b mod 10) <? 10)%N with true by (symmetry; lia). cbn [orb]. lia.
        + replace (2 * (b mod 10) <? 10)%N with false by (symmetry; lia).
          replace (2 * (b mod 10) =? 10)%N with false by (symmetry; lia). cbn [orb andb]. lia. }
    assert (W : 2 ^ 23 <= Z.of_N (nearest_even b 10) < 2 ^ 24).
    { unfold nearest_even. change (2 ^ 23) with 8388608. change (2 ^ 24) with 16777216.
      change (2 ^ 23) with 8388608 in Q. change (2 ^ 24) with 16777216 in Q.
      destruct ((2 * (b mod 10) <? 10) || ((2 * (b mod 10) =? 10) && N.even (b / 10)))%N eqn:S; lia. }
    cbn [xorb]. rewrite round_24; [|exact Q|lia|rewrite <- V; exact W]. rewrite <- V.
    change (2 ^ 23) with 8388608 in W. split; [|lia]. f_equal; [|lia].
    destruct (nearest_even b 10) as [|p]; [lia|]. cbn [Z.of_N Z.to_pos]. destruct p; cbn; try reflexivity; symmetry; apply Pos.succ_pred_double || (cbn; apply Pos.succ_pred; lia).
  - assert (Q : 2 ^ 24 <= m * 16 / 10 < 2 ^ 25) by (change (2 ^ 24) with 16777216; change (2 ^ 25) with 33554432; lia).
    rewrite <- EA. clear EA EB. cbn [fst snd]. assert (V : Z.of_N (nearest_even a 10) = round_nearest_even (m * 16 / 10 / 2)
        (halved (m * 16 / 10) (if m * 16 mod 10 =? 0 then loc_Exact else loc_Inexact (2 * (m * 16 mod 10) ?= 10)))).
    { unfold nearest_even, halved. rewrite even_parity.
      assert (E : Z.of_N (a / 10)%N = m * 16 / 10 / 2) by lia. rewrite E.
      destruct (Z.odd (m * 16 / 10)) eqn:O; rewrite Zodd_mod in O; apply Zeq_bool_eq in O || apply Zeq_bool_neq in O;
        destruct (m * 16 mod 10 =? 0) eqn:Z0; cbn [round_nearest_even].
      - replace (2 * (a mod 10) <? 10)%N with false by (symmetry; lia).
        replace (2 * (a mod 10) =? 10)%N with true by (symmetry; lia). cbn [orb andb].
        destruct (Z.even (m * 16 / 10 / 2)); lia.
      - replace (2 * (a mod 10) <? 10)%N with false by (symmetry; lia).
        replace (2 * (a mod 10) =? 10)%N with false by (symmetry; lia). cbn [orb andb]. lia.
      - replace (2 * (a mod 10) <? 10)%N with true by (symmetry; lia). cbn [orb]. lia.
      - replace (2 * (a mod 10) <? 10)%N with true by (symmetry; lia). cbn [orb]. lia. }
    assert (W : 2 ^ 23 <= Z.of_N (nearest_even a 10) < 2 ^ 24).
    { unfold nearest_even. change (2 ^ 23) with 8388608. change (2 ^ 24) with 16777216.
      destruct ((2 * (a mod 10) <? 10) || ((2 * (a mod 10) =? 10) && N.even (a / 10)))%N eqn:S; lia. }
    cbn [xorb]. rewrite round_25; [|exact Q|lia|rewrite <- V; exact W]. rewrite <- V.
    change (2 ^ 23) with 8388608 in W. split; [|lia]. f_equal; [|lia].
    destruct (nearest_even a 10) as [|p]; [lia|]. cbn [Z.of_N Z.to_pos]. destruct p; cbn; try reflexivity; symmetry; apply Pos.succ_pred_double || (cbn; apply Pos.succ_pred; lia).
Qed.

Lemma nearest_even_near a b : (0 < b)%N ->
  2 * Z.abs (Z.of_N a - Z.of_N (nearest_even a b) * Z.of_N b) < Z.of_N b \/
  2 * Z.abs (Z.of_N a - Z.of_N (nearest_even a b) * Z.of_N b) = Z.of_N b /\ Z.even (Z.of_N (nearest_even a b)) = true.
Proof.
  intros B. unfold nearest_even. pose proof (N.div_mod a b ltac:(lia)) as D. pose proof (N.mod_lt a b ltac:(lia)) as R.
  set (q := (a / b)%N) in *. set (r := (a mod b)%N) in *. clearbody q r.
  assert (A : Z.of_N a = Z.of_N q * Z.of_N b + Z.of_N r) by (rewrite D; lia).
  destruct ((2 * r <? b)%N) eqn:L; cbn [orb].
  - left. rewrite A. replace (Z.of_N q * Z.of_N b + Z.of_N r - Z.of_N q * Z.of_N b) with (Z.of_N r) by lia. lia.
  - destruct ((2 * r =? b)%N) eqn:T; cbn [andb].
    + right. destruct (N.even q) eqn:V.
      * split; [|now rewrite <- even_parity]. rewrite A. replace (Z.of_N q * Z.of_N b + Z.of_N r - Z.of_N q * Z.of_N b) with (Z.of_N r) by lia. lia.
      * split.
        -- rewrite A, N2Z.inj_add. replace (Z.of_N q * Z.of_N b + Z.of_N r - (Z.of_N q + Z.of_N 1) * Z.of_N b) with (Z.of_N r - Z.of_N b) by (cbn; lia). lia.
        -- rewrite <- even_parity. rewrite N.even_add. rewrite V. reflexivity.
    + left. rewrite A, N2Z.inj_add. replace (Z.of_N q * Z.of_N b + Z.of_N r - (Z.of_N q + Z.of_N 1) * Z.of_N b) with (Z.of_N r - Z.of_N b) by (cbn; lia). lia.
Qed.

Theorem show_is_one_decimal x : (x < 65536 -> x <> 0 ->
  one_decimal (div_f32 (as_f32 x) (as_f32 10)) (show_f32_1 (f32_tenth x)))%N.
Proof.
  intros H Z. destruct (tenth_is_ieee x) as [E NZ]; [change (2 ^ 24)%N with 16777216%N; lia|].
  rewrite E. cbn [one_decimal]. split; [lia|].
  exists x. split.
  - pose proof (tenth_exact x H Z) as T. destruct (f32_tenth x) as [m k]. cbn [fst snd] in *. rewrite <- T.
    unfold nearest_tenths. rewrite Z.opp_involutive.
    replace (2 ^ Z.of_N k)%Z with (Z.of_N (2 ^ k)) by (rewrite N2Z.inj_pow; reflexivity).
    replace (10 * Z.pos (N.succ_pos (N.pred m)))%Z with (Z.of_N (10 * m)).
    + apply nearest_even_near. assert (2 ^ k <> 0)%N by (apply N.pow_nonzero; lia). lia.
    + rewrite N2Z.inj_mul. f_equal. change (Z.pos (N.succ_pos (N.pred m))) with (Z.of_N (N.pos (N.succ_pos (N.pred m)))).
      rewrite N.succ_pos_spec. lia.
  - rewrite tenths_ok by assumption. do 2 eexists. split; [reflexivity|].
    split; apply show_dec_numeral, dec_room; change (2 ^ 64)%N with 18446744073709551616%N; lia.
Qed.
