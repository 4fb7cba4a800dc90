(* C93: default values of the types a table decodes to. *)
From Coq Require Import String ZArith Lia ZifyBool ZifyNat ZifyN.
From Verif Require Import Base G_Enums M_Raw M_Bitfield G_Layouts M_Bios M_PhysicalMemoryArray M_MemoryDevice M_Entry M_Iter M_Flags M_Default.
From Verif Require Import Spec S_Enums S_Decode S_System S_Memory S_Bitfield S_Iter S_Flags S_Default L_Base L_Decode L_Bitfield L_System L_Array L_Memory L_Iter L_Flags P_System P_Iter P_Memory.
Local Open Scope N_scope.

(* No memory device decodes to the default one, and so no table contains it: the set a
   device belongs to is always told. *)
Theorem C93_memory_device : forall c s s' r,
  MemoryDevice_try_from c r <> Val (Ok MemoryDevice_default) /\
  (sane s -> next c s <> Val (Some (Ok (SMemoryDevice MemoryDevice_default)), s')).
Proof.
  assert (A : forall c r, MemoryDevice_try_from c r <> Val (Ok MemoryDevice_default)).
  { intros c r H. exact (C38_device_set_refuted c r _ H eq_refl). }
  intros c s s' r. split; [apply A|]. intros HS H. destruct (C10_framing_sound c s _ s' HS H) as [q [_ [D _]]].
  unfold dispatch in D. destruct (info q);
    match type of D with
    | map_ok _ ?o = _ => destruct o as [[x|]| |] eqn:E; cbn in D; try discriminate
    | _ => discriminate
    end.
  injection D as ->. exact (A c q E).
Qed.
Print Assumptions C93_memory_device.

(* what the equation says about one field, used wherever the field occurs *)
Ltac told f := match goal with E : without_set ?s = MemoryDevice_default |- _ =>
  let K := fresh in assert (K : f s = f MemoryDevice_default) by (rewrite <- E; reflexivity); rewrite K in *; clear K; cbn [f MemoryDevice_default] in * end.

(* Apart from its set, exactly the devices with handle 0 that say unknown, none or zero
   everywhere and have none of the fields of version 3.2 decode to it. *)
Theorem C93_memory_device_apart_from_set : forall c r,
  (exists s, MemoryDevice_try_from c r = Val (Ok s) /\ without_set s = MemoryDevice_default) <-> nothing_told r.
Proof.
  assert (M : forall {A} (codes : list (N * A)) other k x, meaning codes other k = x -> (forall i, other i <> x) ->
    exists j, In (j, x) codes /\ k = j).
  { intros A codes other k x H HO. unfold meaning in H. induction codes as [|[j y] codes IH]; cbn [named] in H.
    - exfalso. exact (HO _ H).
    - destruct (k =? j) eqn:E.
      + exists j. subst y. split; [left; reflexivity|lia].
      + destruct (IH H) as [i [I1 I2]]. exists i. split; [right; exact I1|exact I2]. }
  assert (R : forall r off w u, field_is r off w u -> reaches r off w).
  { intros r off w u F. unfold field_is, field in F. unfold reaches. destruct ((4 <=? off) && (off + w <=? 4 + len (data r))) eqn:E; [lia|discriminate]. }
  assert (W : forall r off w u, 4 <= off -> reaches r off w -> if_there_but r off w u None -> field_is r off w u).
  { intros r off w u HO HR [[k [_ [_ H]]]|[[H|H] _]]; [discriminate| |exact H]. rewrite field_in in H by assumption. discriminate H. }
  intros c r. split.
  - intros (s & H & E). apply C38_device_decodes in H. destruct H as [_ H]. destruct H.
    told memdev_handle. told memdev_physical_memory_handle. told memdev_memory_error_handle. told memdev_total_width.
    told memdev_data_width. told memdev_size. told memdev_form_factor. told memdev_device_locator.
    told memdev_bank_locator. told memdev_memory_type. told memdev_type_detail. told memdev_speed.
    told memdev_manufacturer. told memdev_serial. told memdev_asset_tag. told memdev_part_number.
    told memdev_attributes. told memdev_extended_size. told memdev_configured_memory_speed. told memdev_minimum_voltage.
    told memdev_maximum_voltage. told memdev_configured_voltage. told memdev_memory_technology. told memdev_operating_mode_capability.
    told memdev_firmware_version. told memdev_module_manufacturer. told memdev_module_product_id. told memdev_memory_subsystem_controller_manufacturer_id.
    told memdev_memory_subsystem_controller_product_id. told memdev_non_volatile_size. told memdev_volatile_size. told memdev_cache_size.
    told memdev_logical_size. told memdev_extended_speed. told memdev_extended_configured_memory_speed.
    match goal with F : field_is r 0x1C 4 0 |- _ => pose proof (R _ _ _ _ F) as L1 end. unfold reaches in L1.
    assert (L2 : 4 + len (data r) <= 0x28).
    { destruct (N.le_gt_cases (4 + len (data r)) 0x28) as [L|L]; [exact L|]. exfalso.
      match goal with F : code_if_there r 0x28 1 _ _ None |- _ => unfold code_if_there in F; rewrite field_in in F; [discriminate F|lia|unfold reaches; lia] end. }
    constructor.
    all: unfold FormFactor_default, MemoryType_default in *; try assumption; try (symmetry; assumption).
    all: try (apply W; [lia|unfold reaches; lia|assumption]).
    + lia.
    + match goal with F : code_field r 0x0E 1 _ _ _ |- _ => destruct F as [k [F X]]; symmetry in X; apply M in X; [|discriminate]; destruct X as [j [I ->]]; cbn in I; repeat destruct I as [I|I]; try discriminate I; try contradiction; injection I as <-; exact F end.
    + match goal with F : code_field r 0x12 1 _ _ _ |- _ => destruct F as [k [F X]]; symmetry in X; apply M in X; [|discriminate]; destruct X as [j [I ->]]; cbn in I; repeat destruct I as [I|I]; try discriminate I; try contradiction; injection I as <-; exact F end.
    + match goal with F : flags_field r 0x13 2 _ _ |- _ => destruct F as [k [F X]] end. exists k. split; [assumption|]. intros i Hi.
      match goal with X : named_bits _ _ _ |- _ => specialize (X i) end.
      replace (existsb (N.eqb i) _) with true in * by (symmetry; apply existsb_exists; exists i; split; [cbn [In]; lia|apply N.eqb_refl]).
      rewrite Bool.andb_true_r in *. rewrite <- X. change Detail_default with (2 ^ 2). rewrite N.pow2_bits_eqb. lia.
    + intros off I HR. cbn [In] in I. repeat destruct I as [<-|I]; try contradiction; (apply W; [lia|exact HR|assumption]).
  - intros H. destruct H as [L H0 H4 H6 H8 HA HC HE T10 T11 H12 [w [H13 Hw]] H15 T17 T18 T19 T1A H1B H1C H20].
    assert (HF : exists k, field_is r 0x0F 1 k) by (eexists; apply field_in; [lia|unfold reaches; lia]). destruct HF as [k HF].
    exists {| memdev_handle := 0; memdev_physical_memory_handle := 0; memdev_memory_error_handle := None; memdev_total_width := None;
      memdev_data_width := None; memdev_size := None; memdev_form_factor := FormFactor_Unknown; memdev_device_set := Some k;
      memdev_device_locator := []; memdev_bank_locator := []; memdev_memory_type := MemoryType_Unknown; memdev_type_detail := 4;
      memdev_speed := None; memdev_manufacturer := []; memdev_serial := []; memdev_asset_tag := []; memdev_part_number := [];
      memdev_attributes := 0; memdev_extended_size := 0; memdev_configured_memory_speed := None; memdev_minimum_voltage := None;
      memdev_maximum_voltage := None; memdev_configured_voltage := None; memdev_memory_technology := None;
      memdev_operating_mode_capability := None; memdev_firmware_version := None; memdev_module_manufacturer := None;
      memdev_module_product_id := None; memdev_memory_subsystem_controller_manufacturer_id := None;
      memdev_memory_subsystem_controller_product_id := None; memdev_non_volatile_size := None; memdev_volatile_size := None;
      memdev_cache_size := None; memdev_logical_size := None; memdev_extended_speed := None; memdev_extended_configured_memory_speed := None |}.
    split; [|reflexivity]. apply C38_device_decodes. split; [lia|].
    assert (O : forall off w0, 0x28 < off + w0 -> field r off w0 = None) by (intros; apply field_out; unfold reaches; lia).
    assert (N0 : forall off, In off [0x20; 0x22; 0x24; 0x26] -> if_there_but r off 2 0 None).
    { intros off I. right. split; [|reflexivity]. destruct (N.le_gt_cases (off + 2) (4 + len (data r))) as [X|X]; [right; apply H20; assumption|left; apply field_out; unfold reaches; lia]. }
    constructor; cbn [memdev_handle memdev_physical_memory_handle memdev_memory_error_handle memdev_total_width memdev_data_width memdev_size
      memdev_form_factor memdev_device_set memdev_device_locator memdev_bank_locator memdev_memory_type memdev_type_detail memdev_speed
      memdev_manufacturer memdev_serial memdev_asset_tag memdev_part_number memdev_attributes memdev_extended_size memdev_configured_memory_speed
      memdev_minimum_voltage memdev_maximum_voltage memdev_configured_voltage memdev_memory_technology memdev_operating_mode_capability
      memdev_firmware_version memdev_module_manufacturer memdev_module_product_id memdev_memory_subsystem_controller_manufacturer_id
      memdev_memory_subsystem_controller_product_id memdev_non_volatile_size memdev_volatile_size memdev_cache_size memdev_logical_size
      memdev_extended_speed memdev_extended_configured_memory_speed].
    all: try assumption; try (symmetry; assumption).
    all: try (right; split; [right; assumption|reflexivity]).
    all: try (apply N0; cbn [In]; tauto).
    all: try (unfold if_there; symmetry; apply O; lia).
    + exists 1. split; [exact HE|reflexivity].
    + exists k. split; [exact HF|reflexivity].
    + exists 2. split; [exact H12|reflexivity].
    + exists w. split; [exact H13|]. intros i. change 4 with (2 ^ 2). rewrite N.pow2_bits_eqb.
      destruct (existsb (N.eqb i) _) eqn:X.
      * apply existsb_exists in X. destruct X as [j [I J]]. apply N.eqb_eq in J. subst j. rewrite Bool.andb_true_r.
        assert (B : 1 <= i <= 15) by (cbn [In] in I; lia). specialize (Hw i B). destruct (N.testbit w i); lia.
      * rewrite Bool.andb_false_r. destruct (N.eqb_spec 2 i) as [<-|]; [discriminate X|reflexivity].
    + unfold code_if_there. rewrite O by lia. reflexivity.
    + right. split; [apply O; lia|reflexivity].
    + right. split; [|reflexivity]. intros t [n [F _]]. unfold field_is in F. rewrite O in F by lia. discriminate F.
Qed.
Print Assumptions C93_memory_device_apart_from_set.

(* The default memory array comes out of every memory array up to version 2.1; after
   that exactly of those with handle 0 that say unknown everywhere, 80000000h for the
   capacity, FFFEh for the error handle and no devices, and whose extended capacity, from
   2.8 on, is 0. *)
Theorem C93_memory_array : forall c r,
  PhysicalMemoryArray_try_from c r = Val (Ok PhysicalMemoryArray_default) <->
  before_version (version r) 2 2 \/
  (from_version (version r) 2 2 /\ handle r = 0 /\
   field_is r 0x04 1 2 /\ field_is r 0x05 1 2 /\ field_is r 0x06 1 2 /\ field_is r 0x07 4 0x80000000 /\
   field_is r 0x0B 2 0xFFFE /\ field_is r 0x0D 2 0 /\ (from_version (version r) 2 8 -> field_is r 0x0F 8 0)).
Proof.
  assert (M : forall {A} (codes : list (N * A)) other k x, meaning codes other k = x -> (forall i, other i <> x) ->
    exists j, In (j, x) codes /\ k = j).
  { intros A codes other k x H HO. unfold meaning in H. induction codes as [|[j y] codes IH]; cbn [named] in H.
    - exfalso. exact (HO _ H).
    - destruct (k =? j) eqn:E.
      + exists j. subst y. split; [left; reflexivity|lia].
      + destruct (IH H) as [i [I1 I2]]. exists i. split; [right; exact I1|exact I2]. }
  assert (W : forall r off w u, (4 <=? off) = true -> reaches r off w -> if_there_but r off w u None -> field_is r off w u).
  { intros r off w u HO HR [[k [_ [_ H]]]|[[H|H] _]]; [discriminate| |exact H]. unfold field in H. rewrite HO in H.
    unfold reaches in HR. destruct (off + w <=? 4 + len (data r)) eqn:E; [discriminate|lia]. }
  intros c r. split.
  - intros H. assert (V : before_version (version r) 2 2 \/ from_version (version r) 2 2) by (unfold before_version, from_version; lia).
    destruct V as [V|V]; [left; exact V|]. right. split; [exact V|].
    apply (C37_array_decodes c r _ V) in H. destruct H as [HR HS]. destruct (HR V) as [R1 R2]. clear HR. unfold reaches in R1.
    destruct HS as [S1 S2 S3 S4 S5 S6 S7 S8]. cbn in S1, S2, S3, S4, S5, S6, S7, S8.
    assert (F7 : field_is r 0x07 4 0x80000000) by (apply W; [reflexivity|unfold reaches; lia|exact S5]).
    split; [symmetry; exact S1|].
    split; [destruct S2 as [k [F E]]; symmetry in E; apply M in E; [|discriminate]; destruct E as [j [I ->]]; cbn in I; intuition; congruence|].
    split; [destruct S3 as [k [F E]]; symmetry in E; apply M in E; [|discriminate]; destruct E as [j [I ->]]; cbn in I; intuition; congruence|].
    split; [destruct S4 as [k [F E]]; symmetry in E; apply M in E; [|discriminate]; destruct E as [j [I ->]]; cbn in I; intuition; congruence|].
    split; [exact F7|]. split; [apply W; [reflexivity|unfold reaches; lia|exact S6]|]. split; [exact S7|].
    intros V8. destruct S8 as [[_ [_ S8]]|[S8 _]]; [|exfalso; apply S8; split; assumption].
    apply W; [reflexivity|apply R2; assumption|exact S8].
  - intros [H|[V [H0 [H1 [H2 [H3 [H4 [H5 [H6 H7]]]]]]]]]; [exact (C37_array_2_1_refuted c r H)|].
    assert (R : forall off w u, field_is r off w u -> reaches r off w).
    { intros off w u F. unfold field_is, field in F. unfold reaches. destruct ((4 <=? off) && (off + w <=? 4 + len (data r))) eqn:E; [lia|discriminate]. }
    apply (C37_array_decodes c r _ V). split; [intros _; split; [exact (R _ _ _ H6)|intros V8 _; exact (R _ _ _ (H7 V8))]|].
    constructor; cbn.
    + symmetry. exact H0.
    + exists 2. split; [exact H1|reflexivity].
    + exists 2. split; [exact H2|reflexivity].
    + exists 2. split; [exact H3|reflexivity].
    + right. split; [right; exact H4|reflexivity].
    + right. split; [right; exact H5|reflexivity].
    + exact H6.
    + assert (V8 : from_version (version r) 2 8 \/ ~ from_version (version r) 2 8) by (unfold from_version; lia).
      destruct V8 as [V8|V8]; [left|right; split; [intros [X _]; exact (V8 X)|reflexivity]].
      split; [exact V8|]. split; [exact H4|]. right. split; [right; exact (H7 V8)|reflexivity].
Qed.
Print Assumptions C93_memory_array.

(* The default BIOS comes out of structures before version 2.4 with handle 0, three
   empty texts and zeros, and of no later one. *)
Theorem C93_bios : forall c r, Bios_area (version r) <= len (data r) ->
  (Bios_try_from c r = Val (Ok Bios_default) <->
   before_version (version r) 2 4 /\ handle r = 0 /\ text_field r 0x04 [] /\ text_field r 0x05 [] /\ text_field r 0x08 [] /\
   field_is r 0x06 2 0 /\ field_is r 0x09 1 0 /\ field_is r 0x0A 8 0).
Proof.
  intros c r HA. rewrite (C22_bios_decodes c r Bios_default HA). split.
  - intros [S1 S2 S3 S4 S5 S6 S7 S8 S9 S10 S11 S12]. cbn in *.
    split; [|repeat split; (assumption || (symmetry; assumption))].
    destruct S8 as [[_ [x [X _]]]|[V _]]; [discriminate|]. revert V. unfold from_version, before_version. lia.
  - intros [V [H0 [T1 [T2 [T3 [F1 [F2 F3]]]]]]]. unfold before_version in V.
    assert (V1 : ~ from_version (version r) 2 4) by (unfold from_version; lia).
    assert (V2 : ~ from_version (version r) 3 1) by (unfold from_version; lia).
    constructor; cbn; try assumption; try (symmetry; assumption); right; split; assumption || reflexivity.
Qed.
Print Assumptions C93_bios.

(* A default bit field has no flag set, and none to tell about. *)
Theorem C93_flags : forall c size v l, In (size, v, l) default_flags -> exists it it' fs,
  drains (iter_next c) (iter_new size v l) fs it /\ Forall (fun f => is_set f = false) fs /\ len fs = size * 8 /\
  drains (significants_next c) (iter_new size v l) [] it'.
Proof.
  intros c size v l J. assert (v = 0 /\ In (size, l) all_layouts) as [-> I].
  { cbn [default_flags In] in J. repeat destruct J as [J|J]; try (injection J as <- <- <-; split; [reflexivity|cbn [all_layouts In]; tauto]). contradiction. }
  pose proof shipped_widths as W. rewrite Forall_forall in W. destruct (W _ I) as [W1 W2]. cbn [fst snd] in W1, W2.
  destruct (iter_all c size 0 l W2) as [it [D _]]; [lia|]. destruct (sig_all c size 0 l W2) as [it' [D' _]]; [lia|].
  assert (F : forall p k, Forall (fun f => is_set f = false) (flags 0 p k)).
  { intros p k. revert p. induction k as [|t k IH]; intros p; constructor; [apply N.bits_0|apply IH]. }
  assert (E : forall p k, filter keep (flags 0 p k) = []).
  { intros p k. revert p. induction k as [|t k IH]; intros p; [reflexivity|]. cbn [flags filter keep is_set]. unfold keep. cbn [is_set]. rewrite N.bits_0. apply IH. }
  assert (L : forall p k, len (flags 0 p k) = len k).
  { intros p k. revert p. induction k as [|t k IH]; intros p; [reflexivity|]. cbn [flags]. rewrite !len_cons, IH. reflexivity. }
  rewrite E in D'. exists it, it', (flags 0 0 (take (size * 8) l)). split; [exact D|]. split; [apply F|].
  split; [rewrite L, len_take; lia|exact D'].
Qed.
Print Assumptions C93_flags.

Ltac by_code := repeat match goal with |- context [?k =? ?n] => destruct (N.eqb_spec k n); [subst; first [discriminate|reflexivity]|] end; discriminate.

(* The default codes are the ones the standard calls unknown, and are shown so; the
   default ROM is one of 64 KB. *)
Theorem C93_codes : forall alt c,
  MemoryArrayLocation_display alt MemoryArrayLocation_default = "Unknown"%string /\
  MemoryArrayUse_display alt MemoryArrayUse_default = "Unknown"%string /\
  MemoryArrayErrorCorrectionTypes_display alt MemoryArrayErrorCorrectionTypes_default = "Unknown"%string /\
  (forall k, MemoryType_from k = MemoryType_default <-> k = 2) /\
  (forall k, MemoryTechnology_from k = MemoryTechnology_default <-> k = 2) /\
  RomSize_to_u64 c RomSize_default = Val (64 * 1024).
Proof.
  intros alt c. repeat (split; [reflexivity|]).
  split; [intros k; split; [|intros ->; reflexivity]|]. { unfold MemoryType_from. by_code. }
  split; [intros k; split; [|intros ->; reflexivity]|]. { unfold MemoryTechnology_from. by_code. }
  destruct c as [[] [] []]; reflexivity.
Qed.
Print Assumptions C93_codes.

(* The default detail of a memory device is the one flag for unknown. *)
Theorem C93_detail : tells Detail_constants type_details (2 ^ 2) Detail_default /\ map fst (iter_names Detail_constants Detail_default) = ["UNKNOWN"%string].
Proof.
  split; [|reflexivity]. replace Detail_default with (from_bits_truncate Detail_constants (2 ^ 2)) by reflexivity.
  apply truncated_tells. cbn [flag_types In]. tauto.
Qed.
Print Assumptions C93_detail.

(* "the default form factor is the one the standard calls unknown, 2" is false *)
Theorem C93_form_factor_refuted : (forall k, FormFactor_from k = FormFactor_default <-> k = 1) /\ FormFactor_from 2 <> FormFactor_default.
Proof.
  split; [|discriminate]. intros k. split; [|intros ->; reflexivity].
  unfold FormFactor_from. by_code.
Qed.
Print Assumptions C93_form_factor_refuted.

(* a default memory array of version 3.0 and a default BIOS of version 2.3 *)
Definition ex_zero_struct ma mi i d : RawStructure :=
  {| version := {| major := ma; minor := mi |}; info := i; length_ := 4 + len d; handle := 0; data := d; strings := []; after := [] |}.
Example C93_example :
  PhysicalMemoryArray_try_from ex_strict (ex_zero_struct 3 0 InfoType_PhysicalMemoryArray
    [2; 2; 2; 0; 0; 0; 0x80; 0xFE; 0xFF; 0; 0; 0; 0; 0; 0; 0; 0; 0; 0]) = Val (Ok PhysicalMemoryArray_default) /\
  Bios_try_from ex_strict (ex_zero_struct 2 3 InfoType_Bios (repeat 0 14)) = Val (Ok Bios_default) /\
  Bios_area {| major := 2; minor := 3 |} <= len (repeat 0 14) /\ sane (structures (ex_v2 26) (table ex_list)).
Proof.
  split; [reflexivity|]. split; [reflexivity|]. split; [vm_compute; discriminate|apply C11_example].
Qed.
(* a memory device of version 2.7 with nothing to tell, and one of version 2.8 that tells its speed *)
Definition ex_silent : list N :=
  [0; 0; 0xFE; 0xFF; 0xFF; 0xFF; 0xFF; 0xFF; 0xFF; 0xFF; 1; 7; 0; 0; 2; 4; 0; 0; 0; 0; 0; 0; 0; 0; 0; 0; 0; 0].
Example C93_example_device : exists s t,
  MemoryDevice_try_from ex_strict (ex_zero_struct 2 7 InfoType_MemoryDevice ex_silent) = Val (Ok s) /\
  without_set s = MemoryDevice_default /\ memdev_device_set s = Some 7 /\
  MemoryDevice_try_from ex_strict (ex_zero_struct 2 8 InfoType_MemoryDevice (ex_silent ++ [0x35; 5])) = Val (Ok t) /\
  without_set t <> MemoryDevice_default.
Proof. do 2 eexists. split; [reflexivity|]. split; [reflexivity|]. split; [reflexivity|]. split; [reflexivity|]. discriminate. Qed.
