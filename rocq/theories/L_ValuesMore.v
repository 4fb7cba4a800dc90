(* Lemmas for property C77: which values with parts come out. *)
From Coq Require Import ZArith Lia ZifyBool ZifyNat ZifyN.
From Verif Require Import Base G_Enums M_Raw M_Processor M_Cache M_Enclosure M_SystemEventLog M_PortableBattery S_Enums S_Values L_Base L_Hardware L_Values L_Battery.
Ltac Zify.zify_post_hook ::= Z.div_mod_to_equations.
Local Open Scope N_scope.

Lemma voltage_values x : comes_out Voltage_from 256 x <->
  match x with Voltage_Legacy b => b < 8 | Voltage_Current v => v < 128 | Voltage_Undefined v => 8 <= v < 128 end.
Proof.
  split.
  - intros [k [L <-]]. revert k L.
    assert (B : forallb (fun k => match Voltage_from k with Voltage_Legacy b => b <? 8 | Voltage_Current v => v <? 128 | Voltage_Undefined v => (8 <=? v) && (v <? 128) end) (below 256) = true)
      by (vm_compute; reflexivity).
    intros k L. pose proof (by_bytes _ B k L) as H. cbn beta in H. destruct (Voltage_from k); lia.
  - destruct x as [b|v|v]; intros H.
    + exists b. split; [lia|].
      assert (B : forallb (fun b => if b <? 8 then match Voltage_from b with Voltage_Legacy x => x =? b | _ => false end else true) (below 256) = true)
        by (vm_compute; reflexivity).
      assert (L : b < 256) by lia. pose proof (by_bytes _ B b L) as E. cbn beta in E. replace (b <? 8) with true in E by lia.
      destruct (Voltage_from b); try discriminate. f_equal. lia.
    + exists (v + 128). split; [lia|].
      assert (B : forallb (fun b => if 128 <=? b then match Voltage_from b with Voltage_Current x => x + 128 =? b | _ => false end else true) (below 256) = true)
        by (vm_compute; reflexivity).
      assert (L : v + 128 < 256) by lia. pose proof (by_bytes _ B (v + 128) L) as E. cbn beta in E. replace (128 <=? v + 128) with true in E by lia.
      destruct (Voltage_from (v + 128)); try discriminate. f_equal. lia.
    + exists v. split; [lia|].
      assert (B : forallb (fun b => if (8 <=? b) && (b <? 128) then match Voltage_from b with Voltage_Undefined x => x =? b | _ => false end else true) (below 256) = true)
        by (vm_compute; reflexivity).
      assert (L : v < 256) by lia. pose proof (by_bytes _ B v L) as E. cbn beta in E.
      replace ((8 <=? v) && (v <? 128))%bool with true in E by lia.
      destruct (Voltage_from v); try discriminate. f_equal. lia.
Qed.

(* a number of n + 1 bits: its upper bit and the rest *)
Lemma upper_bit n k : k < 2 ^ (n + 1) ->
  N.land k (N.ones n) = k mod 2 ^ n /\ (N.land k (2 ^ n) =? 0) = (k <? 2 ^ n).
Proof.
  intros H. split; [apply N.land_ones|]. rewrite N.add_1_r, N.pow_succ_r' in H.
  assert (P : 2 ^ n <> 0) by (apply N.pow_nonzero; lia).
  assert (E : N.land k (2 ^ n) = if N.testbit k n then 2 ^ n else 0).
  { apply N.bits_inj. intros i. rewrite N.land_spec, N.pow2_bits_eqb. destruct (N.eqb_spec n i) as [->|NE].
    - rewrite andb_true_r. destruct (N.testbit k i); [rewrite N.pow2_bits_true; reflexivity|rewrite N.bits_0; reflexivity].
    - rewrite andb_false_r. destruct (N.testbit k n); [rewrite N.pow2_bits_false by exact NE; reflexivity|rewrite N.bits_0; reflexivity]. }
  rewrite E, N.testbit_eqb. assert (D : k / 2 ^ n < 2) by (apply N.div_lt_upper_bound; [exact P|lia]).
  destruct (N.ltb_spec k (2 ^ n)) as [L|G].
  - rewrite N.div_small by exact L. reflexivity.
  - assert (1 <= k / 2 ^ n) by (apply N.div_le_lower_bound; [exact P|lia]). replace (k / 2 ^ n) with 1 by lia.
    change (1 mod 2 =? 1) with true. cbv iota. apply N.eqb_neq, P.
Qed.
Lemma cache_size_values x : comes_out CacheSize_from (2 ^ 16) x <-> match x with Granularity1K v | Granularity64K v => v < 2 ^ 15 end.
Proof.
  split.
  - intros [k [L <-]]. destruct (upper_bit 15 k L) as [E1 E2]. unfold CacheSize_from.
    change 0x7FFF with (N.ones 15). change 0x8000 with (2 ^ 15). rewrite E1, E2.
    destruct (k <? 2 ^ 15); apply N.mod_lt; discriminate.
  - destruct x as [v|v]; intros H.
    + exists v. assert (L : v < 2 ^ (15 + 1)) by (change (2 ^ (15 + 1)) with 65536; change (2 ^ 15) with 32768 in H; lia).
      split; [exact L|]. destruct (upper_bit 15 v L) as [E1 E2]. unfold CacheSize_from.
      change 0x7FFF with (N.ones 15). change 0x8000 with (2 ^ 15). rewrite E1, E2.
      replace (v <? 2 ^ 15) with true by (symmetry; apply N.ltb_lt, H). f_equal. apply N.mod_small, H.
    + exists (v + 2 ^ 15). assert (L : v + 2 ^ 15 < 2 ^ (15 + 1)) by (change (2 ^ (15 + 1)) with 65536; change (2 ^ 15) with 32768 in *; lia).
      split; [exact L|]. destruct (upper_bit 15 _ L) as [E1 E2]. unfold CacheSize_from.
      change 0x7FFF with (N.ones 15). change 0x8000 with (2 ^ 15). rewrite E1, E2.
      replace (v + 2 ^ 15 <? 2 ^ 15) with false by (symmetry; apply N.ltb_ge; lia). f_equal.
      change (2 ^ 15) with 32768 in *. lia.
Qed.
Lemma cache_size2_values x : comes_out CacheSize2_from (2 ^ 32) x <-> match x with Granularity1K_2 v | Granularity64K_2 v => v < 2 ^ 31 end.
Proof.
  split.
  - intros [k [L <-]]. destruct (upper_bit 31 k L) as [E1 E2]. unfold CacheSize2_from.
    change 0x7FFFFFFF with (N.ones 31). change 0x80000000 with (2 ^ 31). rewrite E1, E2.
    destruct (k <? 2 ^ 31); apply N.mod_lt; discriminate.
  - destruct x as [v|v]; intros H.
    + exists v. assert (L : v < 2 ^ (31 + 1)) by (change (2 ^ (31 + 1)) with 4294967296; change (2 ^ 31) with 2147483648 in H; lia).
      split; [exact L|]. destruct (upper_bit 31 v L) as [E1 E2]. unfold CacheSize2_from.
      change 0x7FFFFFFF with (N.ones 31). change 0x80000000 with (2 ^ 31). rewrite E1, E2.
      replace (v <? 2 ^ 31) with true by (symmetry; apply N.ltb_lt, H). f_equal. apply N.mod_small, H.
    + exists (v + 2 ^ 31). assert (L : v + 2 ^ 31 < 2 ^ (31 + 1)) by (change (2 ^ (31 + 1)) with 4294967296; change (2 ^ 31) with 2147483648 in *; lia).
      split; [exact L|]. destruct (upper_bit 31 _ L) as [E1 E2]. unfold CacheSize2_from.
      change 0x7FFFFFFF with (N.ones 31). change 0x80000000 with (2 ^ 31). rewrite E1, E2.
      replace (v + 2 ^ 31 <? 2 ^ 31) with false by (symmetry; apply N.ltb_ge; lia). f_equal.
      change (2 ^ 31) with 2147483648 in *. lia.
Qed.

Lemma element_type_values x : comes_out ContainedElementType_from 256 x <->
  match x with CE_BoardType b => comes_out BoardType_from 128 b | CE_InfoType i => comes_out InfoType_from 128 i end.
Proof.
  split.
  - intros [k [L <-]]. destruct (upper_bit 7 k L) as [E1 E2]. unfold ContainedElementType_from. cbv zeta.
    change 0x7F with (N.ones 7). change 0x80 with (2 ^ 7). rewrite E1, E2.
    destruct (k <? 2 ^ 7); (exists (k mod 2 ^ 7); split; [apply N.mod_lt; discriminate|reflexivity]).
  - destruct x as [b|i]; intros [k [L <-]].
    + exists k. assert (L' : k < 2 ^ (7 + 1)) by (change (2 ^ (7 + 1)) with 256; lia). split; [exact L'|].
      destruct (upper_bit 7 k L') as [E1 E2]. unfold ContainedElementType_from. cbv zeta.
      change 0x7F with (N.ones 7). change 0x80 with (2 ^ 7). rewrite E1, E2. change (2 ^ 7) with 128.
      replace (k <? 128) with true by lia. rewrite N.mod_small by exact L. reflexivity.
    + assert (N : exists n, n = k + 128) by eauto. destruct N as [n N].
      exists n. assert (L' : n < 2 ^ (7 + 1)) by (change (2 ^ (7 + 1)) with 256; lia). split; [exact L'|].
      destruct (upper_bit 7 n L') as [E1 E2]. unfold ContainedElementType_from. cbv zeta.
      change 0x7F with (N.ones 7). change 0x80 with (2 ^ 7). rewrite E1, E2. change (2 ^ 7) with 128.
      replace (n <? 128) with false by lia. replace (n mod 128) with k by lia. reflexivity.
Qed.

Lemma access_values x : (exists m a, m < 256 /\ a < 2 ^ 32 /\ AccessMethod_new m a = x) <->
  match x with
  | AM_IndexedIoOne8bitIndexOne8bitData i d => i < 256 /\ d < 256
  | AM_IndexedIoTwo8bitIndexOne8bitData i j d => i < 256 /\ j < 256 /\ d < 256
  | AM_IndexedIoOne16bitIndexOne8bitData i d => i < 2 ^ 16 /\ d < 256
  | AM_MemoryMappedPhysicaAddress a => a < 2 ^ 32
  | AM_GeneralPurposeNonVolatileData h => h < 2 ^ 16
  | AM_OemSpecific m a => 0x80 <= m < 256 /\ a < 2 ^ 32
  | AM_Available m a => 5 <= m < 0x80 /\ a < 2 ^ 32
  end.
Proof.
  change (2 ^ 32) with 4294967296. change (2 ^ 16) with 65536.
  assert (B : forall i a, byte_of i a < 256) by (intros i a; unfold byte_of; apply N.mod_lt; discriminate).
  assert (W : forall a, le [byte_of 0 a; byte_of 1 a] < 65536).
  { intros a. pose proof (B 0 a). pose proof (B 1 a). cbn [le]. lia. }
  split.
  - intros [m [a [M [A <-]]]]. unfold AccessMethod_new. cbv zeta.
    repeat match goal with |- context [if ?b then _ else _] => destruct b eqn:? end; auto; unfold within in *; try lia; repeat split; auto; lia.
  - destruct x as [i d|i j d|i d|a|h|m a|m a]; intros H.
    + exists 0, (i + 65536 * d). split; [lia|]. split; [lia|]. unfold AccessMethod_new, byte_of. cbv zeta.
      change (0 =? 0) with true. cbv iota. change (256 ^ 0) with 1; change (256 ^ 1) with 256; change (256 ^ 2) with 65536; f_equal; lia.
    + exists 1, (i + 256 * j + 65536 * d). split; [lia|]. split; [lia|]. unfold AccessMethod_new, byte_of. cbv zeta.
      change (1 =? 0) with false. change (1 =? 1) with true. cbv iota. change (256 ^ 0) with 1; change (256 ^ 1) with 256; change (256 ^ 2) with 65536; f_equal; lia.
    + exists 2, (i + 65536 * d). split; [lia|]. split; [lia|]. unfold AccessMethod_new, byte_of. cbv zeta.
      change (2 =? 0) with false. change (2 =? 1) with false. change (2 =? 2) with true. cbv iota. cbn [le]. change (256 ^ 0) with 1; change (256 ^ 1) with 256; change (256 ^ 2) with 65536; f_equal; lia.
    + exists 3, a. split; [lia|]. split; [exact H|reflexivity].
    + exists 4, h. split; [lia|]. split; [lia|]. unfold AccessMethod_new, byte_of. cbv zeta. cbn [N.eqb Pos.eqb le]. change (256 ^ 0) with 1; change (256 ^ 1) with 256; change (256 ^ 2) with 65536; f_equal; lia.
    + exists m, a. split; [lia|]. split; [lia|]. unfold AccessMethod_new, within. cbv zeta.
      repeat match goal with |- context [if ?b then _ else _] => destruct b eqn:?; try lia end. reflexivity.
    + exists m, a. split; [lia|]. split; [lia|]. unfold AccessMethod_new, within. cbv zeta.
      repeat match goal with |- context [if ?b then _ else _] => destruct b eqn:?; try lia end. reflexivity.
Qed.

Lemma chemistry_values x : (exists k s, k < 256 /\ DeviceChemistry_new k s = x) <->
  match x with Chem_Undefined v => v = 0 \/ 8 < v < 256 | _ => True end.
Proof.
  split.
  - intros [k [s [L <-]]]. unfold DeviceChemistry_new.
    repeat match goal with |- context [if ?b then _ else _] => destruct b eqn:? end; try exact I; [destruct s; exact I|lia].
  - destruct x as [| | | | | | | |v|t]; intros H.
    1: exists 1, None. 2: exists 2, None. 3: exists 3, None. 4: exists 4, None. 5: exists 5, None. 6: exists 6, None. 7: exists 7, None. 8: exists 8, None.
    9: exists v, None. 10: exists 2, (Some t).
    all: split; [lia|]; try reflexivity. unfold DeviceChemistry_new.
    repeat match goal with |- context [if ?b then _ else _] => destruct b eqn:?; try lia end. reflexivity.
Qed.
Lemma capacity_values x : (exists v m, v < 2 ^ 16 /\ (forall n, m = Some n -> n < 256) /\ DesignCapacity_new v m = x) <->
  match x with DC_Unknown => True | DC_Data v m => 0 < v < 2 ^ 16 /\ m < 256 end.
Proof.
  change (2 ^ 16) with 65536. unfold DesignCapacity_new. split.
  - intros [v [m [V [M <-]]]]. destruct (N.eqb_spec v 0); [exact I|]. split; [lia|]. destruct m as [k|]; [exact (M k eq_refl)|lia].
  - destruct x as [|v m]; intros H.
    + exists 0, None. split; [lia|]. split; [intros n E; discriminate E|reflexivity].
    + exists v, (Some m). split; [lia|]. split; [intros k E; injection E as <-; lia|]. destruct (N.eqb_spec v 0); [lia|reflexivity].
Qed.
Lemma serial_values x : (exists t w, (forall n, w = Some n -> n < 2 ^ 16) /\ SerialNumber_new t w = x) <->
  match x with SN_SmartBatteryDataSpecification w => w < 2 ^ 16 | _ => True end.
Proof.
  unfold SerialNumber_new. split.
  - intros [t [w [W <-]]]. destruct t as [t|]; [exact I|]. destruct w as [w|]; [exact (W w eq_refl)|exact I].
  - destruct x as [|t|w]; intros H.
    + exists None, None. split; [intros n E; discriminate E|reflexivity].
    + exists (Some t), None. split; [intros n E; discriminate E|reflexivity].
    + exists None, (Some w). split; [intros n E; injection E as <-; exact H|reflexivity].
Qed.
Lemma date_values x : (exists t w, (forall n, w = Some n -> n < 2 ^ 16) /\ ManufactureDate_new t w = x) <->
  match x with MD_SmartBatteryDataSpecification y m d => 1980 <= y <= 2107 /\ m < 16 /\ d < 32 | _ => True end.
Proof.
  change (2 ^ 16) with 65536. split.
  - intros [t [w [W <-]]]. destruct t as [t|]; [exact I|]. destruct w as [w|]; [|exact I].
    destruct (date_packs w (W w eq_refl)) as [y [m [d [E H]]]]. rewrite E. tauto.
  - destruct x as [|t|y m d]; intros H.
    + exists None, None. split; [intros k E; discriminate E|reflexivity].
    + exists (Some t), None. split; [intros k E; discriminate E|reflexivity].
    + exists None, (Some ((y - 1980) * 512 + m * 32 + d)). assert (L : (y - 1980) * 512 + m * 32 + d < 65536) by lia.
      split; [intros k E; injection E as <-; exact L|].
      destruct (date_packs _ L) as [y' [m' [d' [E K]]]]. rewrite E. f_equal; lia.
Qed.
