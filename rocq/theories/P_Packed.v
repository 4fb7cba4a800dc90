(* Properties C50 and C51: fields that share a byte or word, and versions. *)
From Coq Require Import String.
From Coq Require Import ZArith Lia ZifyBool ZifyNat ZifyN.
From Verif Require Import Base G_Enums M_Raw M_Entry M_Enclosure M_Processor M_Cache M_SystemSlots
  Spec S_Decode S_Enums S_System S_Hardware L_Base L_Enums L_Decode L_System L_Enclosure L_Hardware L_Cache L_Slots P_System.
Local Open Scope N_scope.
Ltac Zify.zify_post_hook ::= Z.div_mod_to_equations.

(* --------------------------------------------------------------------- C50 *)

(* the word a cache configuration stands for; bits 4 and 10-15 are reserved *)
Definition configuration_word (x : CacheConfiguration) : N :=
  match level x with
  | CacheLevel_L1 => 0 | CacheLevel_L2 => 1 | CacheLevel_L3 => 2 | CacheLevel_L4 => 3
  | CacheLevel_L5 => 4 | CacheLevel_L6 => 5 | CacheLevel_L7 => 6 | CacheLevel_L8 => 7
  end + (if socketed x then 8 else 0) +
  32 * match location x with
  | CacheLocation_Internal => 0 | CacheLocation_External => 1 | CacheLocation_Reserved => 2 | CacheLocation_Unknown => 3
  end + (if enabled_at_boot_time x then 128 else 0) +
  256 * match operational_mode x with
  | CacheOperationalMode_WriteThrough => 0 | CacheOperationalMode_WriteBack => 1
  | CacheOperationalMode_ValuesWithMemoryAddress => 2 | CacheOperationalMode_Unknown => 3
  end.

Lemma configuration_low w : CacheConfiguration_from w = CacheConfiguration_from (w mod 1024).
Proof.
  destruct (configuration_total (w mod 1024)) as [x E]. rewrite E. apply configuration_from.
  apply configuration_from in E. unfold configuration_means in *.
  change 1024 with (2 ^ 10) in E. rewrite !N.mod_pow2_bits_low in E by lia. change (2 ^ 10) with 1024 in E.
  replace (w mod 1024 mod 8) with (w mod 8) in E by lia.
  replace (w mod 1024 / 32 mod 4) with (w / 32 mod 4) in E by lia.
  replace (w mod 1024 / 256 mod 4) with (w / 256 mod 4) in E by lia. exact E.
Qed.
Lemma configuration_back w x : CacheConfiguration_from w = Val x -> configuration_word x = N.land w 0x3EF.
Proof.
  assert (L : N.land w 0x3EF = N.land (w mod 1024) 0x3EF).
  { change 1024 with (2 ^ 10). rewrite <- N.land_ones, <- N.land_assoc. reflexivity. }
  rewrite configuration_low, L. assert (H : w mod 1024 < 1024) by (apply N.mod_lt; discriminate).
  revert H. generalize (w mod 1024). clear w L. intros k H E.
  assert (A : forallb (fun k => match CacheConfiguration_from k with Val x => configuration_word x =? N.land k 0x3EF | _ => false end)
                      (below 1024) = true) by (vm_compute; reflexivity).
  rewrite forallb_forall in A. specialize (A k (below_in 1024 k H)). rewrite E in A. apply N.eqb_eq, A.
Qed.

(* A cache configuration keeps every bit of its word but the reserved ones. *)
Theorem C50_cache_configuration : forall w x, CacheConfiguration_from w = Val x -> configuration_word x = N.land w 0x3EF.
Proof. exact configuration_back. Qed.
Print Assumptions C50_cache_configuration.
(* ... so two words that differ elsewhere give different configurations *)
Theorem C50_cache_configuration_injective : forall w1 w2,
  CacheConfiguration_from w1 = CacheConfiguration_from w2 <-> N.land w1 0x3EF = N.land w2 0x3EF.
Proof.
  intros w1 w2. destruct (configuration_total w1) as [x1 E1]. destruct (configuration_total w2) as [x2 E2]. split.
  - intros E. rewrite <- (configuration_back w1 x1 E1). rewrite E1, E2 in E. injection E as ->. apply configuration_back, E2.
  - intros E. assert (K : forall w, CacheConfiguration_from w = CacheConfiguration_from (N.land w 0x3EF)).
    { intros w. rewrite (configuration_low w), (configuration_low (N.land w 0x3EF)).
      assert (L : N.land w 0x3EF mod 1024 = N.land (w mod 1024) 0x3EF).
      { change 1024 with (2 ^ 10). rewrite <- !N.land_ones, <- !N.land_assoc. f_equal. }
      rewrite L. assert (H : w mod 1024 < 1024) by (apply N.mod_lt; discriminate). revert H. generalize (w mod 1024). clear.
      intros k H. destruct (configuration_total (N.land k 0x3EF)) as [x X]. rewrite X.
      apply configuration_from. apply configuration_from in X. unfold configuration_means in *.
      assert (A : forallb (fun k => (k mod 8 =? N.land k 0x3EF mod 8) && Bool.eqb (N.testbit k 3) (N.testbit (N.land k 0x3EF) 3) &&
         (k / 32 mod 4 =? N.land k 0x3EF / 32 mod 4) && Bool.eqb (N.testbit k 7) (N.testbit (N.land k 0x3EF) 7) &&
         (k / 256 mod 4 =? N.land k 0x3EF / 256 mod 4)) (below 1024) = true) by (vm_compute; reflexivity).
      rewrite forallb_forall in A. specialize (A k (below_in 1024 k H)).
      rewrite !andb_true_iff, !N.eqb_eq, !Bool.eqb_true_iff in A. destruct A as [[[[-> ->] ->] ->] ->]. exact X. }
    rewrite (K w1), (K w2), E. reflexivity.
Qed.
Print Assumptions C50_cache_configuration_injective.

(* cache sizes and the processor voltage lose nothing *)
Theorem C50_cache_size_injective : forall w1 w2, w1 < 65536 -> w2 < 65536 -> CacheSize_from w1 = CacheSize_from w2 -> w1 = w2.
Proof.
  intros w1 w2 H1 H2. rewrite !CacheSize_from_means by assumption. unfold size_means.
  destruct (N.ltb_spec w1 0x8000), (N.ltb_spec w2 0x8000); intros E; first [discriminate E|injection E; lia].
Qed.
Print Assumptions C50_cache_size_injective.
Theorem C50_cache_size2_injective : forall w1 w2, w1 < 2 ^ 32 -> w2 < 2 ^ 32 -> CacheSize2_from w1 = CacheSize2_from w2 -> w1 = w2.
Proof.
  intros w1 w2 H1 H2. rewrite !CacheSize2_from_means by assumption. unfold size2_means.
  destruct (N.ltb_spec w1 0x80000000), (N.ltb_spec w2 0x80000000); intros E; first [discriminate E|injection E; lia].
Qed.
Print Assumptions C50_cache_size2_injective.
Theorem C50_voltage_injective : forall k1 k2, k1 < 256 -> k2 < 256 -> Voltage_from k1 = Voltage_from k2 -> k1 = k2.
Proof.
  intros k1 k2 H1 H2. rewrite !Voltage_from_means by assumption. unfold voltage_means.
  destruct (N.leb_spec 128 k1), (N.leb_spec 128 k2), (N.ltb_spec k1 8), (N.ltb_spec k2 8); intros E; first [discriminate E|injection E; lia].
Qed.
Print Assumptions C50_voltage_injective.

(* The type and the lock of an enclosure determine its byte at offset 5. *)
Theorem C50_enclosure_type_and_lock : forall c r1 r2 s1 s2,
  all_bytes (data r1) -> all_bytes (data r2) -> 5 <= len (data r1) -> 5 <= len (data r2) ->
  Enclosure_fits c r1 -> Enclosure_fits c r2 ->
  Enclosure_try_from c r1 = Val (Ok s1) -> Enclosure_try_from c r2 = Val (Ok s2) ->
  enclosure_chassis_lock s1 = enclosure_chassis_lock s2 -> enclosure_enclosure_type s1 = enclosure_enclosure_type s2 ->
  exists k, field_is r1 0x05 1 k /\ field_is r2 0x05 1 k.
Proof.
  intros c r1 r2 s1 s2 B1 B2 L1 L2 F1 F2 E1 E2 HL HT.
  apply Enclosure_ok in E1; [|assumption..]. apply Enclosure_ok in E2; [|assumption..].
  destruct E1 as [_ _ [k1 [A1 K1]] [k1' [A1' T1]] _ _ _ _ _ _ _ _ _ _ _ _].
  destruct E2 as [_ _ [k2 [A2 K2]] [k2' [A2' T2]] _ _ _ _ _ _ _ _ _ _ _ _].
  unfold field_is in *. assert (k1' = k1) by congruence. assert (k2' = k2) by congruence. subst k1' k2'.
  assert (k1 < 256) by (apply (field_lt r1 5 1); assumption). assert (k2 < 256) by (apply (field_lt r2 5 1); assumption).
  rewrite T1, T2, <- !EnclosureType_from_meaning in HT.
  apply (f_equal EnclosureType_number) in HT. rewrite !EnclosureType_number_from in HT.
  exists k1. split; [exact A1|]. rewrite A2. f_equal. rewrite K1, K2 in HL. lia.
Qed.
Print Assumptions C50_enclosure_type_and_lock.

(* Device and function numbers and peer devices are proved in P_Hardware
   (C30_function_round_trip, C30_device_round_trip); as injectivity: *)
Theorem C50_function_injective : forall k1 k2, k1 < 256 -> k2 < 256 ->
  DeviceAndFunctionNumber_from k1 = DeviceAndFunctionNumber_from k2 -> k1 = k2.
Proof. intros k1 k2 H1 H2 E. rewrite <- (function_round k1 H1), <- (function_round k2 H2), E. reflexivity. Qed.
Print Assumptions C50_function_injective.
Theorem C50_device_injective : forall l1 l2 d, all_bytes l1 -> all_bytes l2 -> len l1 = 5 -> len l2 = 5 ->
  Device_from l1 = Val d -> Device_from l2 = Val d -> l1 = l2.
Proof. intros l1 l2 d B1 B2 L1 L2 E1 E2. rewrite <- (device_round l1 d B1 L1 E1). apply device_round; assumption. Qed.
Print Assumptions C50_device_injective.

Example C50_example : exists x d, CacheConfiguration_from 0x01A9 = Val x /\ configuration_word x = 0x01A9 /\
  CacheSize_from 0x8004 = Granularity64K 4 /\ CacheSize2_from 0x80000004 = Granularity64K_2 4 /\
  Voltage_from 0x92 = Voltage_Current 18 /\ Voltage_from 0x05 = Voltage_Legacy 5 /\
  Device_from [1; 0; 6; 0x10; 8] = Val d.
Proof. do 2 eexists. repeat split; vm_compute; reflexivity. Qed.
Example C50_example_enclosure : exists s, Enclosure_try_from ex_strict ex_enclosure = Val (Ok s) /\
  all_bytes (data ex_enclosure) /\ 5 <= len (data ex_enclosure) /\ Enclosure_fits ex_strict ex_enclosure.
Proof.
  eexists. split; [vm_compute; reflexivity|]. split; [apply all_bytes_dec; vm_compute; reflexivity|].
  split; [vm_compute; discriminate|]. intros _ [n [m [A [B C]]]]. vm_compute in A, B. injection A as <-. injection B as <-.
  vm_compute in C. apply C. reflexivity.
Qed.

(* --------------------------------------------------------------------- C51 *)

(* The comparison operators are the lexicographic order on (major, minor) ... *)
Theorem C51_lexicographic : forall a b,
  (version_lt a b = true <-> major a < major b \/ (major a = major b /\ minor a < minor b)) /\
  (version_gt a b = true <-> version_lt b a = true) /\
  (version_le a b = true <-> version_lt a b = true \/ a = b) /\
  (version_ge a b = true <-> version_gt a b = true \/ a = b) /\
  (version_eq a b = true <-> a = b).
Proof.
  intros [a1 a2] [b1 b2]. unfold version_ge, version_gt, version_le, version_lt, version_eq. cbn [major minor].
  assert (EQ : forall x y z w, {| major := x; minor := y |} = {| major := z; minor := w |} <-> x = z /\ y = w)
    by (intros; split; [intros E; injection E; auto|intros [-> ->]; reflexivity]).
  rewrite !EQ. lia.
Qed.
Print Assumptions C51_lexicographic.

(* ... a strict total order *)
Theorem C51_total_order : forall a b c,
  version_lt a a = false /\
  (version_lt a b = true -> version_lt b c = true -> version_lt a c = true) /\
  (version_lt a b = true \/ a = b \/ version_lt b a = true).
Proof.
  intros [a1 a2] [b1 b2] [c1 c2]. unfold version_lt. cbn [major minor]. split; [lia|]. split; [lia|].
  destruct (N.lt_trichotomy a1 b1) as [H|[-> |H]]; [left; lia| |right; right; lia].
  destruct (N.lt_trichotomy a2 b2) as [H|[-> |H]]; [left; lia|right; left; reflexivity|right; right; lia].
Qed.
Print Assumptions C51_total_order.

(* Making a version from a pair keeps numbers below 256 and cuts others: 258.1 is 2.1 *)
Theorem C51_from_pair_cuts : forall a b, version_of a b = {| major := a mod 256; minor := b mod 256 |}.
Proof. reflexivity. Qed.
Print Assumptions C51_from_pair_cuts.
Theorem C51_from_pair : forall a b, a < 256 -> b < 256 -> version_of a b = {| major := a; minor := b |}.
Proof. intros a b HA HB. unfold version_of, cast. rewrite !N.mod_small by (cbn; lia). reflexivity. Qed.
Print Assumptions C51_from_pair.
Theorem C51_from_pair_ordered_refuted : exists a b a' b', a < a' /\ version_of a b = version_of a' b'.
Proof. exists 2, 1, 258, 1. split; [reflexivity|vm_compute; reflexivity]. Qed.
Print Assumptions C51_from_pair_ordered_refuted.

Example C51_example : version_lt (version_of 2 9) (version_of 3 0) = true /\ version_lt (version_of 2 9) (version_of 2 10) = true /\
  version_ge (version_of 3 1) (version_of 3 1) = true /\ version_gt (version_of 3 1) (version_of 3 1) = false.
Proof. repeat split. Qed.
