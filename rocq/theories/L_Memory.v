(* Proofs for types 16 to 21. *)
From Coq Require Import String.
From Coq Require Import ZArith Lia ZifyBool ZifyNat ZifyN.
From Verif Require Import Base G_Enums M_Raw M_PhysicalMemoryArray M_MemoryDevice M_Memory.
From Verif Require Import Spec S_Enums S_Decode S_Memory L_Base L_Strings L_Enums L_Decode L_Hardware L_Slots.
Local Open Scope N_scope.
Ltac Zify.zify_post_hook ::= Z.div_mod_to_equations.

Lemma get_string_ok_field c off r : 4 <= off -> off < 2 ^ 31 ->
  get_string_ok c off r = Val (match field r off 1 with Some k => ok (find_string r k) | None => None end).
Proof.
  intros H1 H2. unfold get_string_ok. rewrite get_string_field by assumption. destruct (field r off 1); reflexivity.
Qed.

Lemma flags_if_there_iff r off w named o :
  flags_if_there r off w named o <-> o = option_map (fun k => N.land k (mask named)) (field r off w).
Proof.
  unfold flags_if_there. destruct (field r off w) as [k|] eqn:F; cbn [option_map].
  - split.
    + intros [[x [H ->]]|[H _]]; [|discriminate]. apply (flags_field_found _ _ _ _ _ _ F) in H. subst x. reflexivity.
    + intros ->. left. eexists. split; [|reflexivity]. apply (flags_field_found _ _ _ _ _ _ F). reflexivity.
  - split; [intros [[x [[k [H _]] _]]|[_ ->]]; [unfold field_is in H; congruence|reflexivity]|auto].
Qed.

Lemma stated_ok_not r i rule e : stated_error r i rule e -> ~ stated_ok r rule.
Proof. destruct rule; cbn; [tauto| |]; intros [H _]; [tauto|lia]. Qed.
Lemma stated_error_det r i rule e e' : stated_error r i rule e -> stated_error r i rule e' -> e = e'.
Proof. destruct rule; cbn; [tauto| |]; intros [_ ->] [_ ->]; reflexivity. Qed.

Ltac code_meaning := first
  [ apply MemoryArrayLocation_from_meaning | apply MemoryArrayUse_from_meaning | apply MemoryArrayErrorCorrectionTypes_from_meaning
  | apply FormFactor_from_meaning | apply MemoryType_from_meaning | apply MemoryTechnology_from_meaning
  | apply MEErrorType_from_meaning | apply MEErrorGranularity_from_meaning | apply MEErrorOperation_from_meaning
  | apply PointingDeviceType_from_meaning | apply PointingDeviceInterface_from_meaning ].
Ltac code_meanings := rewrite
  ?MemoryArrayLocation_from_meaning, ?MemoryArrayUse_from_meaning, ?MemoryArrayErrorCorrectionTypes_from_meaning,
  ?FormFactor_from_meaning, ?MemoryType_from_meaning,
  ?MEErrorType_from_meaning, ?MEErrorGranularity_from_meaning, ?MEErrorOperation_from_meaning,
  ?PointingDeviceType_from_meaning, ?PointingDeviceInterface_from_meaning,
  ?(fun r o => option_map_ext _ _ (field r o 1) MemoryTechnology_from_meaning).

Ltac clause_fwd :=
  lazymatch goal with
  | |- text_field _ _ _ => eapply text_field_found; eassumption
  | |- text_if_there _ _ _ => apply text_if_there_iff; reflexivity
  | |- code_field _ _ _ _ _ _ => eapply code_field_found; [eassumption|code_meaning]
  | |- code_if_there _ _ _ _ _ _ => apply option_map_ext; intros; code_meaning
  | |- flags_field _ _ _ _ _ => eapply flags_field_found; [eassumption|reflexivity]
  | |- flags_if_there _ _ _ _ _ => apply flags_if_there_iff; reflexivity
  | |- field_is _ _ _ _ => assumption
  | |- if_there_but _ _ _ _ _ => apply if_there_but_iff; reflexivity
  | |- exists o, _ => eexists; split; [eassumption|reflexivity]
  | |- _ => reflexivity
  end.
Ltac get_end := repeat first [rewrite obind_val|rewrite rbind_ok].
Ltac body_ok_fwd :=
  repeat (get_step; [|intros; discriminate]); get_end;
  let H := fresh in intros H; injection H as <-; constructor; cbn -[N.land]; clause_fwd.
Ltac body_bwd_fields :=
  repeat match goal with
  | H : text_field _ _ _ |- _ => let k := fresh "k" in let F := fresh "F" in destruct H as [k [F H]]; apply find_string_ok in H; unfold field_is in F; rewrite F; rewrite ?rbind_ok
  | H : code_field _ _ _ _ _ _ |- _ => let k := fresh "k" in let F := fresh "F" in destruct H as [k [F H]]; unfold field_is in F; rewrite F; rewrite ?rbind_ok
  | H : flags_field _ _ _ _ _ |- _ => let k := fresh "k" in let F := fresh "F" in destruct H as [k [F H]]; apply named_bits_iff in H; unfold field_is in F; rewrite F; rewrite ?rbind_ok
  | H : field_is _ _ _ _ |- _ => unfold field_is in H; rewrite H; rewrite ?rbind_ok
  | H : exists o, _ |- _ => let o := fresh "o" in let F := fresh "F" in destruct H as [o [F H]]
  | H : if_there_but _ _ _ _ _ |- _ => apply if_there_but_iff in H
  | H : text_if_there _ _ _ |- _ => apply text_if_there_iff in H
  | H : flags_if_there _ _ _ _ _ |- _ => apply flags_if_there_iff in H
  | H : find_string _ _ = Ok _ |- _ => rewrite H; clear H
  end;
  unfold if_there, code_if_there in *; subst.
Ltac body_err :=
  repeat first
    [ get_step; [|rewrite first_failure_text_none by assumption; rewrite ?rbind_err; split; congruence];
      get_step; [|erewrite first_failure_text_err by eassumption; rewrite ?rbind_err; split; congruence];
      erewrite first_failure_text by eassumption
    | get_step; [erewrite first_failure_num by eassumption|rewrite first_failure_num_none by assumption; rewrite ?rbind_err; split; congruence] ];
  get_end; cbn [first_failure]; split; [discriminate|tauto].
Ltac body_total := repeat (get_step; [|eexists; reflexivity]); get_end; eexists; reflexivity.

(* --------------------------------------------------------- memory device *)

Definition memdev_body (c : cfg) (r : RawStructure) : out (res MemoryDevice) :=
  let? physical_memory_handle := get c 2 0x04 r in
  let! memory_error_handle := get_ok c 2 0x06 r in
  let! total_width := get_ok c 2 0x08 r in
  let! data_width := get_ok c 2 0x0A r in
  let! size := get_ok c 2 0x0C r in
  let? form_factor := get c 1 0x0E r in
  let? device_set := get c 1 0x0F r in
  let? device_locator := get_string c 0x10 r in
  let? bank_locator := get_string c 0x11 r in
  let? memory_type := get c 1 0x12 r in
  let? type_detail := get c 2 0x13 r in
  let! speed := get_ok c 2 0x15 r in
  let? manufacturer := get_string c 0x17 r in
  let? serial := get_string c 0x18 r in
  let? asset_tag := get_string c 0x19 r in
  let? part_number := get_string c 0x1A r in
  let? attributes := get c 1 0x1B r in
  let? extended_size := get c 4 0x1C r in
  let! configured_memory_speed := get_ok c 2 0x20 r in
  let! minimum_voltage := get_ok c 2 0x22 r in
  let! maximum_voltage := get_ok c 2 0x24 r in
  let! configured_voltage := get_ok c 2 0x26 r in
  let! memory_technology := get_ok c 1 0x28 r in
  let! operating_mode_capability := get_ok c 2 0x29 r in
  let! firmware_version := get_string_ok c 0x2B r in
  let! module_manufacturer := get_ok c 2 0x2C r in
  let! module_product_id := get_ok c 2 0x2E r in
  let! subsystem_manufacturer := get_ok c 2 0x30 r in
  let! subsystem_product := get_ok c 2 0x32 r in
  let! non_volatile_size := get_ok c 8 0x34 r in
  let! volatile_size := get_ok c 8 0x3C r in
  let! cache_size := get_ok c 8 0x44 r in
  let! logical_size := get_ok c 8 0x4C r in
  let! extended_speed := get_ok c 4 0x54 r in
  let! extended_configured_memory_speed := get_ok c 4 0x58 r in
  Val (Ok {|
    memdev_handle := handle r;
    memdev_physical_memory_handle := physical_memory_handle;
    memdev_memory_error_handle := ofilter (fun v => negb (v =? 0xFFFE)) memory_error_handle;
    memdev_total_width := ofilter (fun v => negb (v =? 0xFFFF)) total_width;
    memdev_data_width := ofilter (fun v => negb (v =? 0xFFFF)) data_width;
    memdev_size := ofilter (fun v => negb (v =? 0xFFFF)) size;
    memdev_form_factor := FormFactor_from form_factor;
    memdev_device_set := Some device_set;
    memdev_device_locator := device_locator;
    memdev_bank_locator := bank_locator;
    memdev_memory_type := MemoryType_from memory_type;
    memdev_type_detail := Detail_truncate type_detail;
    memdev_speed := ofilter (fun v => negb (v =? 0)) speed;
    memdev_manufacturer := manufacturer;
    memdev_serial := serial;
    memdev_asset_tag := asset_tag;
    memdev_part_number := part_number;
    memdev_attributes := attributes;
    memdev_extended_size := extended_size;
    memdev_configured_memory_speed := ofilter (fun v => negb (v =? 0)) configured_memory_speed;
    memdev_minimum_voltage := ofilter (fun v => negb (v =? 0)) minimum_voltage;
    memdev_maximum_voltage := ofilter (fun v => negb (v =? 0)) maximum_voltage;
    memdev_configured_voltage := ofilter (fun v => negb (v =? 0)) configured_voltage;
    memdev_memory_technology := option_map MemoryTechnology_from memory_technology;
    memdev_operating_mode_capability := option_map OperatingModes_truncate operating_mode_capability;
    memdev_firmware_version := firmware_version;
    memdev_module_manufacturer := module_manufacturer;
    memdev_module_product_id := module_product_id;
    memdev_memory_subsystem_controller_manufacturer_id := subsystem_manufacturer;
    memdev_memory_subsystem_controller_product_id := subsystem_product;
    memdev_non_volatile_size := non_volatile_size;
    memdev_volatile_size := volatile_size;
    memdev_cache_size := cache_size;
    memdev_logical_size := logical_size;
    memdev_extended_speed := extended_speed;
    memdev_extended_configured_memory_speed := extended_configured_memory_speed
  |}).

Lemma memdev_length c r :
  (0x15 <= 4 + len (data r) /\ MemoryDevice_try_from c r = memdev_body c r) \/
  exists e, MemoryDevice_length_error r e /\ MemoryDevice_try_from c r = Val (Err e).
Proof.
  unfold MemoryDevice_try_from. fold (memdev_body c r). folded (memdev_body c r). unfold MemoryDevice_length_error.
  destruct (N.ltb_spec (len (data r) + 4) 0x15).
  - right. eexists. split; [split; [lia|reflexivity]|reflexivity].
  - left. split; [lia|reflexivity].
Qed.

Lemma memdev_body_ok c r s : memdev_body c r = Val (Ok s) <-> MemoryDevice_says r s.
Proof.
  unfold memdev_body. rewrite get_string_ok_field by get_side. gets. split.
  - body_ok_fwd.
  - intros H. destruct H. destruct s as [s1 s2 s3 s4 s5 s6 s7 s8 s9 s10 s11 s12 s13 s14 s15 s16 s17 s18 s19 s20 s21 s22 s23 s24 s25 s26 s27 s28 s29 s30 s31 s32 s33 s34 s35 s36].
    cbn [memdev_handle memdev_physical_memory_handle memdev_memory_error_handle memdev_total_width memdev_data_width memdev_size
    memdev_form_factor memdev_device_set memdev_device_locator memdev_bank_locator memdev_memory_type memdev_type_detail memdev_speed
    memdev_manufacturer memdev_serial memdev_asset_tag memdev_part_number memdev_attributes memdev_extended_size
    memdev_configured_memory_speed memdev_minimum_voltage memdev_maximum_voltage memdev_configured_voltage memdev_memory_technology
    memdev_operating_mode_capability memdev_firmware_version memdev_module_manufacturer memdev_module_product_id
    memdev_memory_subsystem_controller_manufacturer_id memdev_memory_subsystem_controller_product_id memdev_non_volatile_size
    memdev_volatile_size memdev_cache_size memdev_logical_size memdev_extended_speed memdev_extended_configured_memory_speed] in *.
    body_bwd_fields. get_end. code_meanings. reflexivity.
Qed.
Lemma memdev_body_err c r e : memdev_body c r = Val (Err e) <-> first_failure r MemoryDevice_needs e.
Proof. unfold memdev_body, MemoryDevice_needs. rewrite get_string_ok_field by get_side. gets. body_err. Qed.
Lemma memdev_body_total c r : exists o, memdev_body c r = Val o.
Proof. unfold memdev_body. rewrite get_string_ok_field by get_side. gets. body_total. Qed.

Lemma MemoryDevice_ok c r s :
  MemoryDevice_try_from c r = Val (Ok s) <-> 0x15 <= 4 + len (data r) /\ MemoryDevice_says r s.
Proof.
  destruct (memdev_length c r) as [[H ->]|[e [[H H'] ->]]].
  - rewrite memdev_body_ok. tauto.
  - split; [discriminate|lia].
Qed.
Lemma MemoryDevice_err c r e :
  MemoryDevice_try_from c r = Val (Err e) <->
  MemoryDevice_length_error r e \/ (0x15 <= 4 + len (data r) /\ first_failure r MemoryDevice_needs e).
Proof.
  unfold MemoryDevice_length_error. destruct (memdev_length c r) as [[H ->]|[e' [[H H'] ->]]].
  - rewrite memdev_body_err. split; [auto|]. intros [E|[_ E]]; [lia|exact E].
  - subst e'. split; [intros [= <-]; auto|]. intros [[_ ->]|[E _]]; [reflexivity|lia].
Qed.
Lemma MemoryDevice_total c r : exists o, MemoryDevice_try_from c r = Val o.
Proof.
  destruct (memdev_length c r) as [[H ->]|[e' [H ->]]]; [apply memdev_body_total|eauto].
Qed.

(* -------------------------------------------------------- types 18 to 21 *)

Ltac check_length r :=
  sinces; versions; try vlia; cbn [andb negb stated_ok stated_error];
  repeat match goal with
  | |- context [length_ r =? ?k] => destruct (N.eqb_spec (length_ r) k); cbn [negb andb]
  end; first [left; split; [first [exact I|lia]|reflexivity]|right; eexists; split; [split; [lia|reflexivity]|reflexivity]].

Definition me_body (c : cfg) (r : RawStructure) : out (res MemoryError32) :=
    let? error_type := get c 1 0x04 r in
    let? error_granularity := get c 1 0x05 r in
    let? error_operation := get c 1 0x06 r in
    let? vendor_syndrome := get c 4 0x07 r in
    let? memory_array_error_address := get c 4 0x0B r in
    let? device_error_address := get c 4 0x0F r in
    let? error_resolution := get c 4 0x13 r in
    Val (Ok {|
      me_handle := handle r;
      me_error_type := MEErrorType_from error_type;
      me_error_granularity := MEErrorGranularity_from error_granularity;
      me_error_operation := MEErrorOperation_from error_operation;
      me_vendor_syndrome := vendor_syndrome;
      me_memory_array_error_address := memory_array_error_address;
      me_device_error_address := device_error_address;
      me_error_resolution := error_resolution
    |}).
Lemma me_length c r :
  (stated_ok r (MemoryError32_length (version r)) /\ MemoryError32_try_from c r = me_body c r) \/
  exists e, stated_error r InfoType_MemoryError32 (MemoryError32_length (version r)) e /\ MemoryError32_try_from c r = Val (Err e).
Proof.
  unfold MemoryError32_try_from. fold (me_body c r). folded (me_body c r). unfold MemoryError32_length. check_length r.
Qed.

Lemma me_body_ok c r s : me_body c r = Val (Ok s) <-> MemoryError32_says r s.
Proof.
  unfold me_body. gets. split.
  - body_ok_fwd.
  - intros H. destruct H. destruct s as [s1 s2 s3 s4 s5 s6 s7 s8].
    cbn [me_handle me_error_type me_error_granularity me_error_operation me_vendor_syndrome me_memory_array_error_address me_device_error_address me_error_resolution] in *.
    body_bwd_fields. get_end. code_meanings. reflexivity.
Qed.
Lemma me_body_err c r e : me_body c r = Val (Err e) <-> first_failure r MemoryError32_needs e.
Proof. unfold me_body, MemoryError32_needs. gets. body_err. Qed.
Lemma me_body_total c r : exists o, me_body c r = Val o.
Proof. unfold me_body. gets. body_total. Qed.
Lemma MemoryError32_ok c r s :
  MemoryError32_try_from c r = Val (Ok s) <-> stated_ok r (MemoryError32_length (version r)) /\ MemoryError32_says r s.
Proof.
  destruct (me_length c r) as [[H ->]|[e [H ->]]].
  - rewrite me_body_ok. tauto.
  - apply stated_ok_not in H. split; [discriminate|tauto].
Qed.
Lemma MemoryError32_err c r e :
  MemoryError32_try_from c r = Val (Err e) <->
  stated_error r InfoType_MemoryError32 (MemoryError32_length (version r)) e \/
  (stated_ok r (MemoryError32_length (version r)) /\ first_failure r MemoryError32_needs e).
Proof.
  destruct (me_length c r) as [[H ->]|[e' [H ->]]].
  - rewrite me_body_err. split; [auto|]. intros [E|[_ E]]; [|exact E]. destruct (stated_ok_not _ _ _ _ E H).
  - split.
    + intros [= <-]. auto.
    + intros [E|[E _]]; [|destruct (stated_ok_not _ _ _ _ H E)]. f_equal. f_equal. eapply stated_error_det; eassumption.
Qed.
Lemma MemoryError32_total c r : exists o, MemoryError32_try_from c r = Val o.
Proof.
  destruct (me_length c r) as [[H ->]|[e' [H ->]]]; [apply me_body_total|eauto].
Qed.

Definition ama_body (c : cfg) (r : RawStructure) : out (res MemoryArrayMappedAddress) :=
    let? starting_address := get c 4 0x04 r in
    let? ending_address := get c 4 0x08 r in
    let? memory_array_handle := get c 2 0x0C r in
    let? partition_width := get c 1 0x0E r in
    let! extended_starting_address := get_ok c 8 0x0F r in
    let! extended_ending_address := get_ok c 8 0x17 r in
    Val (Ok {|
      ama_handle := handle r;
      ama_starting_address := starting_address;
      ama_ending_address := ending_address;
      ama_memory_array_handle := memory_array_handle;
      ama_partition_width := partition_width;
      ama_extended_starting_address := extended_starting_address;
      ama_extended_ending_address := extended_ending_address
    |}).
Lemma ama_length c r :
  (stated_ok r (MemoryArrayMappedAddress_length (version r)) /\ MemoryArrayMappedAddress_try_from c r = ama_body c r) \/
  exists e, stated_error r InfoType_MemoryArrayMappedAddress (MemoryArrayMappedAddress_length (version r)) e /\ MemoryArrayMappedAddress_try_from c r = Val (Err e).
Proof.
  unfold MemoryArrayMappedAddress_try_from. fold (ama_body c r). folded (ama_body c r). unfold MemoryArrayMappedAddress_length. check_length r.
Qed.

Lemma ama_body_ok c r s : ama_body c r = Val (Ok s) <-> MemoryArrayMappedAddress_says r s.
Proof.
  unfold ama_body. gets. split.
  - body_ok_fwd.
  - intros H. destruct H. destruct s as [s1 s2 s3 s4 s5 s6 s7].
    cbn [ama_handle ama_starting_address ama_ending_address ama_memory_array_handle ama_partition_width ama_extended_starting_address ama_extended_ending_address] in *.
    body_bwd_fields. get_end. code_meanings. reflexivity.
Qed.
Lemma ama_body_err c r e : ama_body c r = Val (Err e) <-> first_failure r MemoryArrayMappedAddress_needs e.
Proof. unfold ama_body, MemoryArrayMappedAddress_needs. gets. body_err. Qed.
Lemma ama_body_total c r : exists o, ama_body c r = Val o.
Proof. unfold ama_body. gets. body_total. Qed.
Lemma MemoryArrayMappedAddress_ok c r s :
  MemoryArrayMappedAddress_try_from c r = Val (Ok s) <-> stated_ok r (MemoryArrayMappedAddress_length (version r)) /\ MemoryArrayMappedAddress_says r s.
Proof.
  destruct (ama_length c r) as [[H ->]|[e [H ->]]].
  - rewrite ama_body_ok. tauto.
  - apply stated_ok_not in H. split; [discriminate|tauto].
Qed.
Lemma MemoryArrayMappedAddress_err c r e :
  MemoryArrayMappedAddress_try_from c r = Val (Err e) <->
  stated_error r InfoType_MemoryArrayMappedAddress (MemoryArrayMappedAddress_length (version r)) e \/
  (stated_ok r (MemoryArrayMappedAddress_length (version r)) /\ first_failure r MemoryArrayMappedAddress_needs e).
Proof.
  destruct (ama_length c r) as [[H ->]|[e' [H ->]]].
  - rewrite ama_body_err. split; [auto|]. intros [E|[_ E]]; [|exact E]. destruct (stated_ok_not _ _ _ _ E H).
  - split.
    + intros [= <-]. auto.
    + intros [E|[E _]]; [|destruct (stated_ok_not _ _ _ _ H E)]. f_equal. f_equal. eapply stated_error_det; eassumption.
Qed.
Lemma MemoryArrayMappedAddress_total c r : exists o, MemoryArrayMappedAddress_try_from c r = Val o.
Proof.
  destruct (ama_length c r) as [[H ->]|[e' [H ->]]]; [apply ama_body_total|eauto].
Qed.

Definition dma_body (c : cfg) (r : RawStructure) : out (res MemoryDeviceMappedAddress) :=
    let? starting_address := get c 4 0x04 r in
    let? ending_address := get c 4 0x08 r in
    let? memory_device_handle := get c 2 0x0C r in
    let? memory_array_mapped_address_handle := get c 2 0x0E r in
    let? partition_row_position := get c 1 0x10 r in
    let? interleave_position := get c 1 0x11 r in
    let? interleaved_data_depth := get c 1 0x12 r in
    let! extended_starting_address := get_ok c 8 0x13 r in
    let! extended_ending_address := get_ok c 8 0x1B r in
    Val (Ok {|
      dma_handle := handle r;
      dma_starting_address := starting_address;
      dma_ending_address := ending_address;
      dma_memory_device_handle := memory_device_handle;
      dma_memory_array_mapped_address_handle := memory_array_mapped_address_handle;
      dma_partition_row_position := partition_row_position;
      dma_interleave_position := interleave_position;
      dma_interleaved_data_depth := interleaved_data_depth;
      dma_extended_starting_address := extended_starting_address;
      dma_extended_ending_address := extended_ending_address
    |}).
Lemma dma_length c r :
  (stated_ok r (MemoryDeviceMappedAddress_length (version r)) /\ MemoryDeviceMappedAddress_try_from c r = dma_body c r) \/
  exists e, stated_error r InfoType_MemoryDeviceMappedAddress (MemoryDeviceMappedAddress_length (version r)) e /\ MemoryDeviceMappedAddress_try_from c r = Val (Err e).
Proof.
  unfold MemoryDeviceMappedAddress_try_from. fold (dma_body c r). folded (dma_body c r). unfold MemoryDeviceMappedAddress_length. check_length r.
Qed.

Lemma dma_body_ok c r s : dma_body c r = Val (Ok s) <-> MemoryDeviceMappedAddress_says r s.
Proof.
  unfold dma_body. gets. split.
  - body_ok_fwd.
  - intros H. destruct H. destruct s as [s1 s2 s3 s4 s5 s6 s7 s8 s9 s10].
    cbn [dma_handle dma_starting_address dma_ending_address dma_memory_device_handle dma_memory_array_mapped_address_handle dma_partition_row_position dma_interleave_position dma_interleaved_data_depth dma_extended_starting_address dma_extended_ending_address] in *.
    body_bwd_fields. get_end. code_meanings. reflexivity.
Qed.
Lemma dma_body_err c r e : dma_body c r = Val (Err e) <-> first_failure r MemoryDeviceMappedAddress_needs e.
Proof. unfold dma_body, MemoryDeviceMappedAddress_needs. gets. body_err. Qed.
Lemma dma_body_total c r : exists o, dma_body c r = Val o.
Proof. unfold dma_body. gets. body_total. Qed.
Lemma MemoryDeviceMappedAddress_ok c r s :
  MemoryDeviceMappedAddress_try_from c r = Val (Ok s) <-> stated_ok r (MemoryDeviceMappedAddress_length (version r)) /\ MemoryDeviceMappedAddress_says r s.
Proof.
  destruct (dma_length c r) as [[H ->]|[e [H ->]]].
  - rewrite dma_body_ok. tauto.
  - apply stated_ok_not in H. split; [discriminate|tauto].
Qed.
Lemma MemoryDeviceMappedAddress_err c r e :
  MemoryDeviceMappedAddress_try_from c r = Val (Err e) <->
  stated_error r InfoType_MemoryDeviceMappedAddress (MemoryDeviceMappedAddress_length (version r)) e \/
  (stated_ok r (MemoryDeviceMappedAddress_length (version r)) /\ first_failure r MemoryDeviceMappedAddress_needs e).
Proof.
  destruct (dma_length c r) as [[H ->]|[e' [H ->]]].
  - rewrite dma_body_err. split; [auto|]. intros [E|[_ E]]; [|exact E]. destruct (stated_ok_not _ _ _ _ E H).
  - split.
    + intros [= <-]. auto.
    + intros [E|[E _]]; [|destruct (stated_ok_not _ _ _ _ H E)]. f_equal. f_equal. eapply stated_error_det; eassumption.
Qed.
Lemma MemoryDeviceMappedAddress_total c r : exists o, MemoryDeviceMappedAddress_try_from c r = Val o.
Proof.
  destruct (dma_length c r) as [[H ->]|[e' [H ->]]]; [apply dma_body_total|eauto].
Qed.

Definition pd_body (c : cfg) (r : RawStructure) : out (res BuiltInPointingDevice) :=
    let? type := get c 1 0x04 r in
    let? interface := get c 1 0x05 r in
    let? number_of_buttons := get c 1 0x06 r in
    Val (Ok {|
      pd_handle := handle r;
      pd_type := PointingDeviceType_from type;
      pd_interface := PointingDeviceInterface_from interface;
      pd_number_of_buttons := number_of_buttons
    |}).
Lemma pd_length c r :
  (stated_ok r (BuiltInPointingDevice_length (version r)) /\ BuiltInPointingDevice_try_from c r = pd_body c r) \/
  exists e, stated_error r InfoType_BuiltInPointingDevice (BuiltInPointingDevice_length (version r)) e /\ BuiltInPointingDevice_try_from c r = Val (Err e).
Proof.
  unfold BuiltInPointingDevice_try_from. fold (pd_body c r). folded (pd_body c r). unfold BuiltInPointingDevice_length. check_length r.
Qed.

Lemma pd_body_ok c r s : pd_body c r = Val (Ok s) <-> BuiltInPointingDevice_says r s.
Proof.
  unfold pd_body. gets. split.
  - body_ok_fwd.
  - intros H. destruct H. destruct s as [s1 s2 s3 s4].
    cbn [pd_handle pd_type pd_interface pd_number_of_buttons] in *.
    body_bwd_fields. get_end. code_meanings. reflexivity.
Qed.
Lemma pd_body_err c r e : pd_body c r = Val (Err e) <-> first_failure r BuiltInPointingDevice_needs e.
Proof. unfold pd_body, BuiltInPointingDevice_needs. gets. body_err. Qed.
Lemma pd_body_total c r : exists o, pd_body c r = Val o.
Proof. unfold pd_body. gets. body_total. Qed.
Lemma BuiltInPointingDevice_ok c r s :
  BuiltInPointingDevice_try_from c r = Val (Ok s) <-> stated_ok r (BuiltInPointingDevice_length (version r)) /\ BuiltInPointingDevice_says r s.
Proof.
  destruct (pd_length c r) as [[H ->]|[e [H ->]]].
  - rewrite pd_body_ok. tauto.
  - apply stated_ok_not in H. split; [discriminate|tauto].
Qed.
Lemma BuiltInPointingDevice_err c r e :
  BuiltInPointingDevice_try_from c r = Val (Err e) <->
  stated_error r InfoType_BuiltInPointingDevice (BuiltInPointingDevice_length (version r)) e \/
  (stated_ok r (BuiltInPointingDevice_length (version r)) /\ first_failure r BuiltInPointingDevice_needs e).
Proof.
  destruct (pd_length c r) as [[H ->]|[e' [H ->]]].
  - rewrite pd_body_err. split; [auto|]. intros [E|[_ E]]; [|exact E]. destruct (stated_ok_not _ _ _ _ E H).
  - split.
    + intros [= <-]. auto.
    + intros [E|[E _]]; [|destruct (stated_ok_not _ _ _ _ H E)]. f_equal. f_equal. eapply stated_error_det; eassumption.
Qed.
Lemma BuiltInPointingDevice_total c r : exists o, BuiltInPointingDevice_try_from c r = Val o.
Proof.
  destruct (pd_length c r) as [[H ->]|[e' [H ->]]]; [apply pd_body_total|eauto].
Qed.
