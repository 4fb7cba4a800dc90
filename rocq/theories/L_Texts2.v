(* Lemmas for the theorems on displayed texts: texts made of several parts. *)
From Coq Require Import String Ascii.
From Coq Require Import ZArith Lia ZifyBool ZifyNat ZifyN.
From Verif Require Import Base G_Enums M_Raw M_Entry M_Bios M_Processor M_Enclosure M_SystemSlots M_SystemEventLog M_PortableBattery
  M_Display Spec S_Hardware S_Text S_TextValues L_Base L_Hardware L_Slots L_Text L_Texts L_Battery.
Local Open Scope string_scope.
Local Open Scope N_scope.
Ltac Zify.zify_post_hook ::= Z.div_mod_to_equations.

Lemma dec_room n : n < 2 ^ 64 -> n < 10 ^ 64.
Proof. intros H. eapply N.lt_le_trans; [exact H|]. vm_compute. discriminate. Qed.
Lemma hex_room n : n < 2 ^ 64 -> n < 16 ^ 64.
Proof. intros H. eapply N.lt_le_trans; [exact H|]. vm_compute. discriminate. Qed.
Ltac room := change (2 ^ 64) with 18446744073709551616; lia.
Ltac read_it :=
  match goal with
  | |- reads _ (pad _ (show_dec _)) _ => apply pad_dec_reads, dec_room
  | |- reads _ (pad _ (show_hex _)) _ => apply pad_hex_reads, hex_room
  | |- reads _ (pad _ (show_hex_low _)) _ => apply pad_hex_low_reads, hex_room
  | |- reads _ (show_dec _) _ => apply show_dec_reads, dec_room
  | |- reads _ (show_hex _) _ => apply show_hex_reads, hex_room
  | |- reads _ (show_hex_low _) _ => apply show_hex_low_numeral, hex_room
  end.
Ltac reading := read_it; room.

Lemma numeral_head base s n c : numeral base s n -> no_digit_first (s ++ c) = false.
Proof.
  intros [[H1 H2] _]. destruct s as [|x s]; [congruence|]. cbn in *. destruct (digit_value x); [reflexivity|discriminate].
Qed.

(* texts that end in digits *)
Lemma not_all_digits p c q : digit_value c = None -> all_digits (p ++ String c q) = false.
Proof. intros H. induction p as [|x p IH]; cbn; [rewrite H; reflexivity|]. destruct (digit_value x); [exact IH|reflexivity]. Qed.
Lemma last_digits a b x y c d : digit_value c = None -> digit_value d = None -> all_digits x = true -> all_digits y = true ->
  a ++ String c x = b ++ String d y -> a = b /\ x = y /\ c = d.
Proof.
  intros HC HD HX HY. revert b. induction a as [|u a IH]; intros [|v b] E; cbn in E.
  - injection E as -> ->. auto.
  - injection E as _ E. subst x. rewrite not_all_digits in HX by exact HD. discriminate.
  - injection E as _ E. subst y. rewrite not_all_digits in HY by exact HC. discriminate.
  - injection E as -> E. destruct (IH b E) as [-> [-> ->]]. auto.
Qed.

Lemma suffix_cancel s u p : s ++ p = u ++ p -> s = u.
Proof.
  revert u. induction s as [|c s IH]; intros [|d u] E; [reflexivity| | |].
  - apply (f_equal String.length) in E. cbn in E. rewrite append_length in E. lia.
  - apply (f_equal String.length) in E. cbn in E. rewrite append_length in E. lia.
  - cbn in E. injection E as -> E. f_equal. apply IH, E.
Qed.

(* --------------------------------------------------------------- revisions *)

Lemma revision_distinct : distinct_on revision_bytes Revision_display.
Proof.
  intros [a b] [c d] [HA HB] [HC HD]. unfold Revision_display. cbn [rev_major rev_minor] in *.
  destruct ((a =? 0xFF) && (b =? 0xFF)) eqn:E1, ((c =? 0xFF) && (d =? 0xFF)) eqn:E2; intros E.
  - f_equal; lia.
  - exfalso. assert (X : no_digit_first (show_dec c ++ "." ++ show_dec d) = false)
      by (apply (numeral_head 10 _ c), show_dec_numeral, dec_room; room). rewrite <- E in X. discriminate.
  - exfalso. assert (X : no_digit_first (show_dec a ++ "." ++ show_dec b) = false)
      by (apply (numeral_head 10 _ a), show_dec_numeral, dec_room; room). rewrite E in X. discriminate.
  - apply (split_reads 10 _ _ a c) in E; [|reading|reading|reflexivity|reflexivity]. destruct E as [-> E].
    apply prefix_cancel in E. apply show_dec_inj in E; [|apply dec_room; room|apply dec_room; room]. subst. reflexivity.
Qed.
Lemma revision_text r : revision_bytes r ->
  (rev_major r = 0xFF /\ rev_minor r = 0xFF /\ Revision_display r = "N/A") \/
  (~ (rev_major r = 0xFF /\ rev_minor r = 0xFF) /\
   exists a b, Revision_display r = a ++ "." ++ b /\ numeral 10 a (rev_major r) /\ numeral 10 b (rev_minor r)).
Proof.
  intros [HA HB]. unfold Revision_display.
  destruct (N.eqb_spec (rev_major r) 0xFF) as [E1|E1], (N.eqb_spec (rev_minor r) 0xFF) as [E2|E2]; cbn [andb]; [left; auto|right..];
    (split; [tauto|]; do 2 eexists; split; [reflexivity|]; split; apply show_dec_numeral, dec_room; room).
Qed.

(* ----------------------------------------------------------------- devices *)

Lemma device_text_distinct l1 l2 d1 d2 : all_bytes l1 -> all_bytes l2 -> len l1 = 5 -> len l2 = 5 ->
  Device_from l1 = Val d1 -> Device_from l2 = Val d2 -> Device_display d1 = Device_display d2 -> l1 = l2.
Proof.
  intros B1 B2 L1 L2 E1 E2 E.
  assert (R : forall l d, all_bytes l -> len l = 5 -> Device_from l = Val d ->
    device_segment_group_number d < 65536 /\ device_bus_number d < 256 /\ dev (device_device_and_function_number d) < 256 /\
    fun_ (device_device_and_function_number d) < 256 /\ device_data_bus_width d < 256).
  { intros l d HB HL H. unfold len in HL.
    do 5 (destruct l as [|? l]; [cbn [length] in HL; lia|]). destruct l; [|cbn [length] in HL; lia].
    rewrite device_from_means in H. remember (n + 256 * n0) as sg eqn:SG. injection H as <-.
    repeat match goal with K : all_bytes (_ :: _) |- _ => inversion K; clear K; subst | K : Forall _ (_ :: _) |- _ => inversion K; clear K; subst end.
    unfold is_byte in *. unfold function_means.
    cbn [device_segment_group_number device_bus_number device_device_and_function_number device_data_bus_width dev fun_]. lia. }
  destruct (R _ _ B1 L1 E1) as [A1 [A2 [A3 [A4 A5]]]]. destruct (R _ _ B2 L2 E2) as [C1 [C2 [C3 [C4 C5]]]]. clear R.
  unfold Device_display in E.
  apply (split_reads 16 _ _ (device_segment_group_number d1) (device_segment_group_number d2)) in E; [|reading|reading|reflexivity..].
  destruct E as [F1 E]. apply prefix_cancel in E.
  apply (split_reads 16 _ _ (device_bus_number d1) (device_bus_number d2)) in E; [|reading|reading|reflexivity..].
  destruct E as [F2 E]. apply prefix_cancel in E.
  apply (split_reads 16 _ _ (dev (device_device_and_function_number d1)) (dev (device_device_and_function_number d2))) in E; [|reading|reading|reflexivity..].
  destruct E as [F3 E]. apply prefix_cancel in E.
  apply (split_reads 16 _ _ (fun_ (device_device_and_function_number d1)) (fun_ (device_device_and_function_number d2))) in E;
    [|apply show_hex_low_numeral, hex_room; room|apply show_hex_low_numeral, hex_room; room|reflexivity..].
  destruct E as [F4 E]. apply prefix_cancel in E.
  apply (split_reads 10 _ _ (device_data_bus_width d1) (device_data_bus_width d2)) in E; [|reading|reading|reflexivity..].
  destruct E as [F5 _].
  rewrite <- (device_round l1 d1 B1 L1 E1), <- (device_round l2 d2 B2 L2 E2). f_equal.
  destruct d1 as [? ? [? ?] ?], d2 as [? ? [? ?] ?]. cbn in *. subst. reflexivity.
Qed.

(* -------------------------------------------------------- batteries' texts *)

Lemma date_text w : w < 65536 ->
  exists y m d, ManufactureDate_display (ManufactureDate_new None (Some w)) = y ++ "-" ++ m ++ "-" ++ d /\
    String.length y = 4%nat /\ reads 10 y (1980 + w / 512) /\
    String.length m = 2%nat /\ reads 10 m (w / 32 mod 16) /\
    String.length d = 2%nat /\ reads 10 d (w mod 32).
Proof.
  intros H.
  assert (E : ManufactureDate_new None (Some w) = MD_SmartBatteryDataSpecification (1980 + w / 512) (w / 32 mod 16) (w mod 32)).
  { unfold ManufactureDate_new. destruct (date_word w H) as [-> [-> ->]]. reflexivity. }
  rewrite E. cbn [ManufactureDate_display]. do 3 eexists. split; [reflexivity|].
  assert (N1 : numeral 10 (show_dec (1980 + w / 512)) (1980 + w / 512)) by (apply show_dec_numeral, dec_room; room).
  assert (N2 : numeral 10 (show_dec (w / 32 mod 16)) (w / 32 mod 16)) by (apply show_dec_numeral, dec_room; room).
  assert (N3 : numeral 10 (show_dec (w mod 32)) (w mod 32)) by (apply show_dec_numeral, dec_room; room).
  split; [apply (pad_length 10 _ _ 4 ltac:(lia) N1); [change (10 ^ N.of_nat 4) with 10000; lia|lia]|]. split; [reading|].
  split; [apply (pad_length 10 _ _ 2 ltac:(lia) N2); [change (10 ^ N.of_nat 2) with 100; lia|lia]|]. split; [reading|].
  split; [apply (pad_length 10 _ _ 2 ltac:(lia) N3); [change (10 ^ N.of_nat 2) with 100; lia|lia]|]. reading.
Qed.
Lemma date_distinct : distinct_on (fun w => w < 65536) (fun w => ManufactureDate_display (ManufactureDate_new None (Some w))).
Proof.
  intros v w HV HW E. destruct (date_text v HV) as [y [m [d [T [_ [Y [_ [M [_ D]]]]]]]]].
  destruct (date_text w HW) as [y' [m' [d' [T' [_ [Y' [_ [M' [_ D']]]]]]]]]. rewrite T, T' in E.
  apply (split_reads 10 _ _ _ _ _ _ Y Y') in E; [|reflexivity..]. destruct E as [E1 E]. apply prefix_cancel in E.
  apply (split_reads 10 _ _ _ _ _ _ M M') in E; [|reflexivity..]. destruct E as [E2 E]. apply prefix_cancel in E. subst d'.
  apply (same_reads 10 d _ _ D) in D'. lia.
Qed.
Lemma serial_text w : w < 65536 -> exists s, SerialNumber_display (SerialNumber_new None (Some w)) = "0x" ++ s /\ padded 16 2 s w.
Proof.
  intros H. exists (pad 2 (show_hex w)). split; [reflexivity|]. apply pad_padded; [lia|]. apply show_hex_numeral, hex_room; room.
Qed.
Lemma serial_distinct : distinct_on (fun w => w < 65536) (fun w => SerialNumber_display (SerialNumber_new None (Some w))).
Proof.
  intros v w HV HW E. destruct (serial_text v HV) as [s [T [R _]]]. destruct (serial_text w HW) as [s' [T' [R' _]]].
  rewrite T, T' in E. apply prefix_cancel in E. subst s'. apply (same_reads 16 s _ _ R R').
Qed.

(* ---------------------------------------------------------------- voltages *)

Lemma voltage_current v : v < 128 -> exists s, Voltage_display (Voltage_Current v) = "Current voltage: " ++ s ++ " V" /\ tenths s v.
Proof.
  intros H. cbn [Voltage_display]. exists (if v =? 0 then "0.0" else show_f32_1 (f32_tenth v)). split; [reflexivity|].
  destruct (N.eqb_spec v 0) as [->|NZ].
  - exists "0", "0". split; [reflexivity|]. change (0 / 10) with 0. change (0 mod 10) with 0.
    split; apply (show_dec_numeral 0); reflexivity.
  - rewrite tenths_ok by lia. do 2 eexists. split; [reflexivity|]. split; apply show_dec_numeral, dec_room; room.
Qed.
Lemma pitch_text w : w < 65536 -> w <> 0 -> exists s, SlotPitch_display w = s ++ " mm" /\ tenths s w.
Proof.
  intros H NZ. unfold SlotPitch_display. destruct (N.eqb_spec w 0); [contradiction|]. eexists. split; [reflexivity|].
  rewrite tenths_ok by assumption. do 2 eexists. split; [reflexivity|]. split; apply show_dec_numeral, dec_room; room.
Qed.
Lemma pitch_distinct : distinct_on (fun w => w < 65536) SlotPitch_display.
Proof.
  assert (Z : forall w, w < 65536 -> w <> 0 -> SlotPitch_display w <> "Not given or is unknown").
  { intros w H NZ. destruct (pitch_text w H NZ) as [s [-> [a [b [-> [A _]]]]]]. rewrite append_assoc.
    intros E. pose proof (numeral_head 10 a _ (("." ++ b) ++ " mm") A) as X. rewrite E in X. discriminate. }
  intros v w HV HW E. destruct (N.eq_dec v 0) as [->|NV], (N.eq_dec w 0) as [->|NW].
  - reflexivity.
  - exfalso. apply (Z w HW NW). rewrite <- E. reflexivity.
  - exfalso. apply (Z v HV NV). rewrite E. reflexivity.
  - destruct (pitch_text v HV NV) as [s [T [a [b [-> [A B]]]]]]. destruct (pitch_text w HW NW) as [s' [T' [a' [b' [-> [A' B']]]]]].
    rewrite T, T', !append_assoc in E.
    apply (split_reads 10 _ _ _ _ _ _ (proj1 A) (proj1 A')) in E; [|reflexivity..]. destruct E as [E1 E].
    apply prefix_cancel in E.
    apply (split_reads 10 _ _ _ _ _ _ (proj1 B) (proj1 B')) in E; [|reflexivity..]. destruct E as [E2 _]. lia.
Qed.
Lemma voltage_distinct : distinct_on is_byte (fun k => Voltage_display (Voltage_from k)).
Proof. change is_byte with (fun k => k < N.of_nat 256). apply table_distinct. vm_compute. reflexivity. Qed.

(* --------------------------------------------------------------- event log *)

Definition smt_number (t : SystemManagementType) : N :=
  match t with
  | SMT_OutOfRangeVoltagePlus2_5Num1 => 0 | SMT_OutOfRangeVoltagePlus2_5Num2 => 1 | SMT_OutOfRangeVoltagePlus3_3 => 2
  | SMT_OutOfRangeVoltagePlus5 => 3 | SMT_OutOfRangeVoltageMinus5 => 4 | SMT_OutOfRangeVoltagePlus12 => 5
  | SMT_OutOfRangeVoltageMinus12 => 6 | SMT_OutOfRangeVoltageReserved v => v
  | SMT_OutOfRangeTemperatureSystemBoard => 16 | SMT_OutOfRangeTemperatureProcessor1 => 17
  | SMT_OutOfRangeTemperatureProcessor2 => 18 | SMT_OutOfRangeTemperatureProcessor3 => 19
  | SMT_OutOfRangeTemperatureProcessor4 => 20 | SMT_OutOfRangeTemperatureReserved v => v
  | SMT_OutOfRangeFan v => 32 + v | SMT_Reserved v => v | SMT_ChassisSecureSwitchActivated => 0x30
  | SMT_OutOfRangeSystemManagementProbe v => 0x10000 + v | SMT_OemAssigned v => v
  end.
Ltac smt_split :=
  repeat match goal with
  | |- context [?a =? ?b] => destruct (N.eqb_spec a b)
  | |- context [within ?a ?b ?c] => let E := fresh "W" in destruct (within a b c) eqn:E; unfold within in E
  end.
Lemma smt_round v : v < 2 ^ 32 -> smt_number (SystemManagementType_from v) = v.
Proof.
  intros H. unfold SystemManagementType_from. smt_split; cbn [smt_number]; try (subst; reflexivity);
    unfold cast; change (2 ^ 8) with 256; change (2 ^ 16) with 65536; change (2 ^ 32) with 4294967296 in H; try (change 7 with (N.ones 3); rewrite N.land_ones; change (2 ^ 3) with 8); lia.
Qed.
Lemma smt_from_small v : v < 2 ^ 32 -> smt_small (SystemManagementType_from v).
Proof.
  intros H. unfold SystemManagementType_from. smt_split; cbn [smt_small]; try exact I;
    unfold cast; change (2 ^ 8) with 256; change (2 ^ 16) with 65536; change (2 ^ 32) with 4294967296 in *; lia.
Qed.
Lemma dec_cancel p a b : a < 2 ^ 32 -> b < 2 ^ 32 -> p ++ show_dec a = p ++ show_dec b -> a = b.
Proof. intros HA HB E. apply prefix_cancel in E. change (2 ^ 32) with 4294967296 in *. apply show_dec_inj in E; [exact E|apply dec_room; room..]. Qed.
Lemma smt_distinct : distinct_on smt_small SystemManagementType_display.
Proof.
  intros x y HX HY E. destruct x, y; cbn [SystemManagementType_display smt_small] in *;
    first [reflexivity
          |discriminate E
          |apply dec_cancel in E; [subst; reflexivity|assumption..]
          |idtac]; change (2 ^ 32) with 4294967296 in *.
  - apply prefix_cancel in E. apply (split_reads 10 _ _ v v0) in E; [|reading|reading|reflexivity..]. destruct E as [-> _]. reflexivity.
  - apply prefix_cancel in E. apply (split_reads 16 _ _ v v0) in E; [|reading|reading|reflexivity..]. destruct E as [-> _]. reflexivity.
Qed.
Lemma smt_text_distinct : distinct_on (fun v => v < 2 ^ 32) (fun v => SystemManagementType_display (SystemManagementType_from v)).
Proof.
  intros v w HV HW E. rewrite <- (smt_round v HV), <- (smt_round w HW). f_equal.
  apply smt_distinct; [apply smt_from_small, HV|apply smt_from_small, HW|exact E].
Qed.

Lemma dec_cancel64 p a b : a < 2 ^ 64 -> b < 2 ^ 64 -> p ++ show_dec a = p ++ show_dec b -> a = b.
Proof. intros HA HB E. apply prefix_cancel in E. apply show_dec_inj in E; [exact E|apply dec_room; assumption..]. Qed.
Lemma vdf_distinct : distinct_on vdf_small (VariableDataFormatType_display true).
Proof.
  intros x y HX HY E. destruct x, y; cbn [VariableDataFormatType_display vdf_small] in *;
    first [reflexivity
          |discriminate E
          |apply dec_cancel64 in E; [subst; reflexivity|assumption..]
          |idtac].
  - apply prefix_cancel in E. destruct HX as [A1 A2], HY as [B1 B2].
    apply (split_reads 16 _ _ handle handle0) in E; [|apply pad_hex_reads, hex_room; assumption..|reflexivity|reflexivity].
    destruct E as [-> E]. apply dec_cancel64 in E; [subst; reflexivity|assumption..].
  - unfold show_hex_alt in E. apply prefix_cancel, prefix_cancel in E.
    assert (v = v0) as ->; [|reflexivity].
    apply (same_reads 16 (show_hex v)); [apply show_hex_reads, hex_room; assumption|rewrite E; apply show_hex_reads, hex_room; assumption].
  - apply prefix_cancel in E. f_equal. apply smt_distinct; assumption.
  - apply prefix_cancel in E. destruct HX as [A1 A2], HY as [B1 B2].
    change (", Count " ++ show_dec counter) with (", Count" ++ String " " (show_dec counter)) in E.
    change (", Count " ++ show_dec counter0) with (", Count" ++ String " " (show_dec counter0)) in E.
    rewrite <- !append_assoc in E.
    pose proof (show_dec_reads counter (dec_room _ A2)) as [R1 R2]. pose proof (show_dec_reads counter0 (dec_room _ B2)) as [R3 R4].
    apply last_digits in E; [|reflexivity|reflexivity|eapply reads_all_digits; eassumption|eapply reads_all_digits; eassumption].
    destruct E as [E1 [E2 _]].
    assert (F : SystemManagementType_display t = SystemManagementType_display t0).
    { eapply suffix_cancel, E1. }
    apply smt_distinct in F; [|assumption..]. rewrite E2 in R2. assert (counter0 = counter) by congruence. subst. reflexivity.
Qed.

Ltac hexr := read_it; assumption.
Lemma hex_cancel p w a b : a < 2 ^ 64 -> b < 2 ^ 64 -> p ++ pad w (show_hex a) = p ++ pad w (show_hex b) -> a = b.
Proof. intros HA HB E. apply prefix_cancel in E. apply (same_reads 16 (pad w (show_hex a))); [|rewrite E]; hexr. Qed.
Lemma method_distinct : distinct_on method_small (AccessMethod_display true).
Proof.
  intros x y HX HY E. destruct x, y; cbn [AccessMethod_display method_small] in *;
    first [discriminate E
          |apply hex_cancel in E; [subst; reflexivity|assumption..]
          |idtac].
  - destruct HX as [A1 A2], HY as [B1 B2]. apply prefix_cancel in E.
    apply (split_reads 16 _ _ index index0) in E; [|hexr|hexr|reflexivity..]. destruct E as [-> E].
    apply hex_cancel in E; [subst; reflexivity|assumption..].
  - destruct HX as [A1 [A2 A3]], HY as [B1 [B2 B3]]. apply prefix_cancel in E.
    apply (split_reads 16 _ _ index0 index2) in E; [|hexr|hexr|reflexivity..]. destruct E as [-> E]. apply prefix_cancel in E.
    apply (split_reads 16 _ _ index1 index3) in E; [|hexr|hexr|reflexivity..]. destruct E as [-> E].
    apply hex_cancel in E; [subst; reflexivity|assumption..].
  - destruct HX as [A1 A2], HY as [B1 B2]. apply prefix_cancel in E.
    apply (split_reads 16 _ _ index index0) in E; [|hexr|hexr|reflexivity..]. destruct E as [-> E].
    apply hex_cancel in E; [subst; reflexivity|assumption..].
  - destruct HX as [A1 A2], HY as [B1 B2]. apply prefix_cancel in E.
    apply (split_reads 10 _ _ method method0) in E; [|hexr|hexr|reflexivity..]. destruct E as [-> E].
    apply hex_cancel in E; [subst; reflexivity|assumption..].
  - destruct HX as [A1 A2], HY as [B1 B2]. apply prefix_cancel in E.
    apply (split_reads 10 _ _ method method0) in E; [|hexr|hexr|reflexivity..]. destruct E as [-> E].
    apply hex_cancel in E; [subst; reflexivity|assumption..].
Qed.
Lemma method_new_small m a : m < 256 -> a < 2 ^ 32 -> method_small (AccessMethod_new m a).
Proof.
  intros HM HA. unfold AccessMethod_new. change (2 ^ 32) with 4294967296 in HA.
  assert (B : forall i, byte_of i a < 256) by (intros i; apply N.mod_lt; discriminate).
  assert (B0 := B 0). assert (B1 := B 1). assert (B2 := B 2). clear B.
  assert (L : le [byte_of 0 a; byte_of 1 a] < 65536) by (cbn [le]; lia).
  repeat match goal with |- context [if ?b then _ else _] => destruct b end; cbn [method_small];
    change (2 ^ 64) with 18446744073709551616; repeat split; lia.
Qed.

(* ------------------------------------------------------------------ errors *)

Lemma entry_error_distinct : distinct_on entry_error_byte InvalidEntryPointError_display.
Proof.
  intros x y HX HY E. destruct x, y; cbn [InvalidEntryPointError_display entry_error_byte] in *;
    first [reflexivity|discriminate E|apply dec_cancel in E; [subst; reflexivity|change (2 ^ 32) with 4294967296; lia..]].
Qed.

Fixpoint no_space (s : string) : bool :=
  match s with EmptyString => true | String c s => negb (c =? " ")%char && no_space s end.
Lemma split_space a b c d : no_space a = true -> no_space b = true -> a ++ String " " c = b ++ String " " d -> a = b /\ c = d.
Proof.
  revert b. induction a as [|x a IH]; intros [|y b] HA HB E; cbn in E.
  - injection E as ->. auto.
  - injection E as <- E. cbn in HB. discriminate.
  - injection E as -> E. cbn in HA. discriminate.
  - injection E as -> E. cbn in HA, HB. apply andb_true_iff in HA, HB. destruct (IH b (proj2 HA) (proj2 HB) E) as [-> ->]. auto.
Qed.
Lemma debug_no_space i : (forall t, i = InfoType_Oem t -> t < 256) -> no_space (InfoType_debug i) = true.
Proof.
  intros H. destruct i; try reflexivity. specialize (H v eq_refl).
  assert (A : forallb (fun v => no_space (InfoType_debug (InfoType_Oem v))) (below 256) = true) by (vm_compute; reflexivity).
  rewrite forallb_forall in A. apply A, below_in, H.
Qed.
Lemma debug_distinct : distinct_on (fun i => forall t, i = InfoType_Oem t -> t < 256) InfoType_debug.
Proof.
  intros x y HX HY E. destruct x, y; cbn [InfoType_debug] in E; try reflexivity; try discriminate E.
  apply prefix_cancel in E. specialize (HX _ eq_refl). specialize (HY _ eq_refl).
  apply (split_reads 10 _ _ v v0) in E; [|reading|reading|reflexivity..]. destruct E as [-> _]. reflexivity.
Qed.

(* a text followed by a number: where the number starts *)
Lemma last_char s : s <> "" -> exists p c, s = p ++ String c "".
Proof.
  induction s as [|c s IH]; intros H; [congruence|]. destruct s as [|d s]; [exists "", c; reflexivity|].
  destruct IH as [p [e E]]; [discriminate|]. exists (String c p), e. cbn. rewrite E. reflexivity.
Qed.
Lemma ends_last p c : ends_in_digit (p ++ String c "") = match digit_value c with Some _ => true | None => false end.
Proof.
  induction p as [|x p IH]; [reflexivity|]. cbn [append]. cbn [ends_in_digit]. destruct p; exact IH.
Qed.
Lemma spec_split s1 s2 a b : ends_in_digit s1 = false -> ends_in_digit s2 = false -> all_digits a = true -> all_digits b = true ->
  s1 ++ a = s2 ++ b -> s1 = s2 /\ a = b.
Proof.
  intros H1 H2 HA HB E.
  destruct (string_dec s1 "") as [->|N1].
  - destruct (string_dec s2 "") as [->|N2]; [split; [reflexivity|exact E]|].
    destruct (last_char s2 N2) as [p [c ->]]. rewrite ends_last in H2. destruct (digit_value c) eqn:D; [discriminate|].
    cbn in E. rewrite append_assoc in E. cbn in E. subst a. rewrite not_all_digits in HA by exact D. discriminate.
  - destruct (last_char s1 N1) as [p [c ->]]. rewrite ends_last in H1. destruct (digit_value c) eqn:D; [discriminate|].
    destruct (string_dec s2 "") as [->|N2].
    + cbn in E. rewrite append_assoc in E. cbn in E. subst b. rewrite not_all_digits in HB by exact D. discriminate.
    + destruct (last_char s2 N2) as [q [d ->]]. rewrite ends_last in H2. destruct (digit_value d) eqn:D2; [discriminate|].
      rewrite !append_assoc in E. cbn [append] in E.
      destruct (last_digits _ _ _ _ _ _ D D2 HA HB E) as [-> [-> ->]]. auto.
Qed.

Lemma no_space_at_offset i x y : no_space (InfoType_debug i) = true -> "at offset " ++ x <> InfoType_debug i ++ " with handle " ++ y.
Proof.
  intros H E. change ("at offset " ++ x) with ("at" ++ String " " ("offset " ++ x)) in E.
  change (" with handle " ++ y) with (String " " ("with handle " ++ y)) in E.
  apply split_space in E; [|reflexivity|exact H]. destruct E as [_ E]. discriminate E.
Qed.
Lemma structure_error_distinct : distinct_on structure_error_small MalformedStructureError_display.
Proof.
  intros x y HX HY E. destruct x as [a b|a|i h k| |i h s n], y as [a' b'|a'|i' h' k'| |i' h' s' n'];
    cbn [MalformedStructureError_display structure_error_small] in *; try discriminate E; try reflexivity.
  - destruct HX as [A B], HY as [A' B']. apply prefix_cancel in E.
    apply (split_reads 10 _ _ a a') in E; [|hexr|hexr|reflexivity..]. destruct E as [-> E]. apply prefix_cancel in E.
    apply (split_reads 10 _ _ b b') in E; [|hexr|hexr|reflexivity..]. destruct E as [-> _]. reflexivity.
  - destruct HX as [A B]. apply prefix_cancel in E. apply (split_reads 10 _ _ a a') in E; [|hexr|hexr|reflexivity..].
    destruct E as [_ E]. discriminate E.
  - destruct HX as [A B], HY as [A' [B' C']].
    apply (prefix_cancel "Structure ") in E.
    exfalso. revert E. apply no_space_at_offset, debug_no_space, A'.
  - destruct HY as [A' B']. apply prefix_cancel in E. apply (split_reads 10 _ _ a a') in E; [|hexr|hexr|reflexivity..].
    destruct E as [_ E]. discriminate E.
  - apply prefix_cancel in E. apply (split_reads 10 _ _ a a') in E; [|hexr|hexr|reflexivity..]. destruct E as [-> _]. reflexivity.
  - destruct HY as [A' [B' C']].
    apply (prefix_cancel "Structure ") in E.
    exfalso. revert E. apply no_space_at_offset, debug_no_space, A'.
  - destruct HY as [A B], HX as [A' [B' C']].
    apply (prefix_cancel "Structure ") in E.
    exfalso. symmetry in E. revert E. apply no_space_at_offset, debug_no_space, A'.
  - destruct HX as [A' [B' C']].
    apply (prefix_cancel "Structure ") in E.
    exfalso. symmetry in E. revert E. apply no_space_at_offset, debug_no_space, A'.
  - destruct HX as [A [B C]], HY as [A' [B' C']]. apply prefix_cancel in E.
    apply split_space in E; [|apply debug_no_space; assumption..]. destruct E as [D E].
    apply debug_distinct in D; [|assumption..]. subst i'. apply (prefix_cancel "with handle ") in E.
    apply (split_reads 10 _ _ h h') in E; [|hexr|hexr|reflexivity..]. destruct E as [-> E].
    apply dec_cancel64 in E; [subst; reflexivity|assumption..].
  - destruct HX as [A [B [S C]]], HY as [A' [B' [S' C']]]. apply prefix_cancel in E.
    apply split_space in E; [|apply debug_no_space; assumption..]. destruct E as [D E].
    apply debug_distinct in D; [|assumption..]. subst i'. apply (prefix_cancel "with handle ") in E.
    apply (split_reads 10 _ _ h h') in E; [|hexr|hexr|reflexivity..]. destruct E as [-> E]. apply prefix_cancel in E.
    rewrite <- !append_assoc in E. apply suffix_cancel in E.
    pose proof (show_dec_reads n (dec_room _ C)) as [R1 R2]. pose proof (show_dec_reads n' (dec_room _ C')) as [R3 R4].
    apply spec_split in E; [|assumption|assumption|eapply reads_all_digits; eassumption..]. destruct E as [-> E].
    rewrite E in R2. assert (n = n') by congruence. subst. reflexivity.
Qed.

(* ------------------------------------------------------ contained elements *)

Lemma element_type_distinct : distinct_on is_byte (fun k => ContainedElementType_display (ContainedElementType_from k)).
Proof. change is_byte with (fun k => k < N.of_nat 256). apply table_distinct. vm_compute. reflexivity. Qed.
Lemma element_text_distinct t1 t2 a1 a2 b1 b2 :
  t1 < 256 -> t2 < 256 -> a1 < 256 -> a2 < 256 -> b1 < 256 -> b2 < 256 ->
  ContainedElement_display {| cel_type := ContainedElementType_from t1; cel_minimum := a1; cel_maximum := b1 |} =
  ContainedElement_display {| cel_type := ContainedElementType_from t2; cel_minimum := a2; cel_maximum := b2 |} ->
  t1 = t2 /\ a1 = a2 /\ b1 = b2.
Proof.
  intros T1 T2 A1 A2 B1 B2 E. unfold ContainedElement_display in E. cbn [cel_type cel_minimum cel_maximum] in E.
  rewrite <- !append_assoc in E. apply suffix_cancel in E.
  assert (D : forall n, n < 256 -> all_digits (show_dec n) = true).
  { intros n H. assert (R : reads 10 (show_dec n) n) by reading. destruct R as [_ R]. eapply reads_all_digits, R. }
  rewrite !append_assoc in E.
  assert (R : forall s a b, s ++ " (" ++ show_dec a ++ "-" ++ show_dec b = (s ++ " (" ++ show_dec a) ++ String "-" (show_dec b))
    by (intros; rewrite !append_assoc; reflexivity). rewrite !R in E. clear R.
  apply last_digits in E; [|reflexivity|reflexivity|apply D; assumption..]. destruct E as [E [E3 _]].
  assert (R : forall s a, s ++ " (" ++ show_dec a = (s ++ " ") ++ String "(" (show_dec a))
    by (intros; rewrite !append_assoc; reflexivity). rewrite !R in E. clear R.
  apply last_digits in E; [|reflexivity|reflexivity|apply D; assumption..]. destruct E as [E [E2 _]].
  apply suffix_cancel, element_type_distinct in E; [|assumption..].
  apply show_dec_inj in E2; [|apply dec_room; room..]. apply show_dec_inj in E3; [|apply dec_room; room..]. auto.
Qed.
Lemma chemistry_text_distinct : distinct_on is_byte (fun k => DeviceChemistry_display (DeviceChemistry_new k None)).
Proof. change is_byte with (fun k => k < N.of_nat 256). apply table_distinct. vm_compute. reflexivity. Qed.
