(* C56 continued: the floating point arithmetic behind the texts of voltages and slot
   pitches, against IEEE 754 as the standard library specifies it. *)
From Coq Require Import String.
From Coq Require Import NArith ZArith Lia.
From Coq Require Import Floats.SpecFloat.
From Verif Require Import Base M_Processor M_SystemSlots M_Display S_Text S_Float L_Hardware L_Float.
Local Open Scope string_scope.
Local Open Scope N_scope.

(* A pitch shows the IEEE quotient of the stored word by ten, rounded to one decimal. *)
Theorem C56_pitch_ieee : forall w, w < 65536 -> w <> 0 ->
  exists s, SlotPitch_display w = s ++ " mm" /\ one_decimal (div_f32 (as_f32 w) (as_f32 10)) s.
Proof.
  intros w H NZ. unfold SlotPitch_display. rewrite (proj2 (N.eqb_neq w 0) NZ).
  eexists. split; [reflexivity|]. now apply show_is_one_decimal.
Qed.
Print Assumptions C56_pitch_ieee.
Example C56_pitch_ieee_example :
  div_f32 (as_f32 1251) (as_f32 10) = S754_finite false 16397107 (-17) /\
  one_decimal (S754_finite false 16397107 (-17)) "125.1".
Proof.
  split; [vm_compute; reflexivity|]. split; [lia|]. exists 1251. split; [left; vm_compute; reflexivity|].
  exists "125", "1". split; [reflexivity|].
  split; (split; [split; [discriminate|vm_compute; reflexivity]|right; intros t; discriminate]).
Qed.

(* So does a current voltage, for the low seven bits of the stored byte. *)
Theorem C56_voltage_ieee : forall k, 128 <= k -> k < 256 ->
  exists s, Voltage_display (Voltage_from k) = "Current voltage: " ++ s ++ " V" /\
  one_decimal (div_f32 (as_f32 (k - 128)) (as_f32 10)) s.
Proof.
  intros k H1 H2.
  assert (E : Voltage_from k = Voltage_Current (k - 128)).
  { pose proof (by_bytes (fun k => (k <? 128) || match Voltage_from k with Voltage_Current v => v =? k - 128 | _ => false end)
      ltac:(vm_compute; reflexivity) k H2) as e. cbv beta in e. rewrite (proj2 (N.ltb_ge k 128) H1) in e. cbn [orb] in e.
    destruct (Voltage_from k); try discriminate. apply N.eqb_eq in e. congruence. }
  rewrite E. cbn [Voltage_display]. eexists. split; [reflexivity|].
  destruct (k - 128 =? 0) eqn:Z.
  - apply N.eqb_eq in Z. rewrite Z. reflexivity.
  - apply N.eqb_neq in Z. apply show_is_one_decimal; lia.
Qed.
Print Assumptions C56_voltage_ieee.
Example C56_voltage_ieee_example : div_f32 (as_f32 18) (as_f32 10) = S754_finite false 15099494 (-23) /\
  Voltage_display (Voltage_from 0x92) = "Current voltage: 1.8 V".
Proof. split; vm_compute; reflexivity. Qed.
(* the quotient is not exact: 1.8 has no 32-bit float *)
Theorem C56_quotient_exact_refuted : exists k m e, 128 <= k < 256 /\
  div_f32 (as_f32 (k - 128)) (as_f32 10) = S754_finite false m (- e) /\ (10 * Z.pos m <> Z.of_N (k - 128) * 2 ^ e)%Z.
Proof. exists 0x92, 15099494%positive, 23%Z. repeat split; vm_compute; congruence. Qed.
Print Assumptions C56_quotient_exact_refuted.
