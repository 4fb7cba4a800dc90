(* Lemmas about equality of whole structures. *)
From Coq Require Import String.
From Coq Require Import ZArith Lia ZifyBool ZifyNat ZifyN.
From Verif Require Import Base G_Enums M_Raw M_Entry M_Bios M_System M_BaseBoard M_Enclosure M_Processor M_Cache
  M_PortConnector M_SystemSlots M_Strings M_GroupAssociations M_SystemEventLog M_PhysicalMemoryArray M_MemoryDevice
  M_Memory M_PortableBattery M_Iter M_Hash M_Eq G_Eq Spec S_Iter S_Hash S_Same L_Base L_Hash L_Iter L_After L_Frame L_Eq L_GEq.
Local Open Scope N_scope.

(* ---------------------------------------- types with fields that are no fields *)
Definition raw_same (a b : RawStructure) : Prop := bare a = bare b.
Lemma RawStructure_codec : codec RawStructure_parts raw_same.
Proof.
  eapply codec_iff; [|exact (then_codec (on_codec version SmbiosVersion_codec) (then_codec (on_codec info InfoType_codec)
    (then_codec (on_codec length_ (num_codec U8)) (then_codec (on_codec handle (num_codec U16))
    (then_codec (on_codec data slice_codec) (on_codec strings slice_codec))))))].
  intros [] []. unfold raw_same, bare. cbn. split.
  - intros H. decompose [and] H. subst. reflexivity.
  - intros H. injection H. intros. subst. repeat split.
Qed.
Definition languages_same (a b : InstallableLanguages) : Prop := raw_same (il_structure a) (il_structure b) /\ il_index a = il_index b.
Lemma InstallableLanguages_codec : codec InstallableLanguages_parts languages_same.
Proof. exact (then_codec (on_codec il_structure RawStructure_codec) (on_codec il_index (num_codec U8))). Qed.
Lemma BiosLanguage_codec : codec BiosLanguage_parts (fun a b => forget (SBiosLanguage a) = forget (SBiosLanguage b)).
Proof.
  eapply codec_iff; [|exact (then_codec (on_codec language_handle (num_codec U16))
    (then_codec (on_codec language_installable_languages InstallableLanguages_codec)
    (then_codec (on_codec language_flags (option_codec (num_codec U8))) (on_codec language_current_language (num_codec U8)))))].
  intros [h1 [r1 i1] f1 c1] [h2 [r2 i2] f2 c2]. unfold languages_same, raw_same. cbn [forget language_handle language_installable_languages
    language_flags language_current_language il_structure il_index]. split.
  - intros [-> [[HR ->] [-> ->]]]. rewrite HR. reflexivity.
  - intros H. injection H. intros. subst. repeat split. unfold bare. congruence.
Qed.
Lemma SystemSlots_codec : codec SystemSlots_parts eq.
Proof.
  eapply codec_iff; [|exact (then_codec (on_codec slots_handle (num_codec U16))
  (then_codec (on_codec slots_slot_designation str_codec)
  (then_codec (on_codec slots_slot_type SlotType_codec)
  (then_codec (on_codec slots_slot_data_bus_width SlotWidth_codec)
  (then_codec (on_codec slots_current_usage CurrentUsage_codec)
  (then_codec (on_codec slots_slot_length SlotLength_codec)
  (then_codec (on_codec slots_slot_id (num_codec U16))
  (then_codec (on_codec slots_slot_characteristics_1 (num_codec U8))
  (then_codec (on_codec slots_slot_characteristics_2 (option_codec (num_codec U8)))
  (then_codec (on_codec slots_segment_group_number (option_codec (num_codec U16)))
  (then_codec (on_codec slots_bus_number (option_codec (num_codec U8)))
  (then_codec (on_codec slots_device_and_function_number (option_codec DeviceAndFunctionNumber_codec))
  (then_codec (on_codec slots_data_bus_width (option_codec (num_codec U8)))
  (then_quiet (on_open_codec slots_peer_devices (option_open_codec _ _ peers_codec))
  (then_codec (on_codec slots_slot_information (option_codec (num_codec U8)))
  (then_codec (on_codec slots_slot_physical_width (option_codec SlotWidth_codec))
  (on_codec slots_slot_pitch (option_codec (num_codec U16)))))
  (fun a l => match slots_slot_information a as o return quiet ((option_parts (num U8) o ++ _) ++ l) with
              | None => quiet_tag _ _ | Some _ => quiet_tag _ _ end)))))))))))))))].
  intros a b. cbv beta. rewrite option_same_eq. split.
  - destruct a, b. cbn. intros H. decompose [and] H. subst. reflexivity.
  - intros ->. repeat split; reflexivity.
Qed.
Definition enclosure_same (a b : Enclosure) : Prop :=
  enclosure_handle a = enclosure_handle b /\
  enclosure_manufacturer a = enclosure_manufacturer b /\
  enclosure_chassis_lock a = enclosure_chassis_lock b /\
  enclosure_enclosure_type a = enclosure_enclosure_type b /\
  enclosure_version a = enclosure_version b /\
  enclosure_serial_number a = enclosure_serial_number b /\
  enclosure_asset_tag_number a = enclosure_asset_tag_number b /\
  enclosure_boot_up_state a = enclosure_boot_up_state b /\
  enclosure_power_supply_state a = enclosure_power_supply_state b /\
  enclosure_thermal_state a = enclosure_thermal_state b /\
  enclosure_security_status a = enclosure_security_status b /\
  enclosure_oem_defined a = enclosure_oem_defined b /\
  enclosure_height a = enclosure_height b /\
  enclosure_power_cords_number a = enclosure_power_cords_number b /\
  option_same (fun x y => ContainedElements_eq x y = true) (enclosure_contained_elements a) (enclosure_contained_elements b) /\
  enclosure_sku_number a = enclosure_sku_number b.
Lemma Enclosure_codec : codec Enclosure_parts enclosure_same.
Proof.
  exact (then_codec (on_codec enclosure_handle (num_codec U16))
  (then_codec (on_codec enclosure_manufacturer str_codec)
  (then_codec (on_codec enclosure_chassis_lock flag_codec)
  (then_codec (on_codec enclosure_enclosure_type EnclosureType_codec)
  (then_codec (on_codec enclosure_version str_codec)
  (then_codec (on_codec enclosure_serial_number str_codec)
  (then_codec (on_codec enclosure_asset_tag_number str_codec)
  (then_codec (on_codec enclosure_boot_up_state (option_codec State_codec))
  (then_codec (on_codec enclosure_power_supply_state (option_codec State_codec))
  (then_codec (on_codec enclosure_thermal_state (option_codec State_codec))
  (then_codec (on_codec enclosure_security_status (option_codec SecurityStatus_codec))
  (then_codec (on_codec enclosure_oem_defined (option_codec (num_codec U32)))
  (then_codec (on_codec enclosure_height (option_codec (num_codec U8)))
  (then_codec (on_codec enclosure_power_cords_number (option_codec (num_codec U8)))
  (then_codec (on_codec enclosure_contained_elements (option_rel_codec _ _ elements_codec))
  (on_codec enclosure_sku_number (option_codec str_codec))))))))))))))))).
Qed.
Definition log_same (a b : SystemEventLog) : Prop :=
  log_handle a = log_handle b /\ log_log_area_length a = log_log_area_length b /\
  log_log_header_start_offset a = log_log_header_start_offset b /\ log_log_data_start_offset a = log_log_data_start_offset b /\
  log_access_method a = log_access_method b /\ log_log_status a = log_log_status b /\
  log_log_change_token a = log_log_change_token b /\ log_log_header_format a = log_log_header_format b /\
  option_same (fun x y => EventLogTypeDescriptors_eq x y = true) (log_descriptors a) (log_descriptors b).
Lemma SystemEventLog_codec : open_codec SystemEventLog_parts log_same.
Proof.
  exact (then_open (on_codec log_handle (num_codec U16))
  (then_open (on_codec log_log_area_length (num_codec U16))
  (then_open (on_codec log_log_header_start_offset (num_codec U16))
  (then_open (on_codec log_log_data_start_offset (num_codec U16))
  (then_open (on_codec log_access_method AccessMethod_codec)
  (then_open (on_codec log_log_status (num_codec U8))
  (then_open (on_codec log_log_change_token (num_codec U32))
  (then_open (on_codec log_log_header_format (option_codec LogHeaderFormat_codec))
  (on_open_codec log_descriptors (option_open_codec _ _ descriptors_codec)))))))))).
Qed.

(* ------------------------------------------------------------- all structures *)
Definition structure_same (x y : Structure) : Prop :=
  match x, y with
  | SEnclosure a, SEnclosure b => enclosure_same a b
  | SSystemEventLog a, SSystemEventLog b => log_same a b
  | SBiosLanguage a, SBiosLanguage b => forget x = forget y
  | SOther a, SOther b => raw_same a b
  | _, _ => x = y
  end.

(* the codec of one type, for a structure that holds a value of it *)
Lemma whole {A} (e : A -> list part) R : open_codec e R -> forall a b k,
  (derived_eq (Tag k :: e a) (Tag k :: e b) = true <-> R a b) /\ (derived_hash (Tag k :: e a) = derived_hash (Tag k :: e b) <-> R a b).
Proof.
  intros [H1 H2] a b k. rewrite tag_eq, tag_hash.
  specialize (H1 a b [] []). specialize (H2 a b [] [] quiet_nil quiet_nil). rewrite !app_nil_r in *.
  rewrite H1, H2. cbn. tauto.
Qed.
Lemma whole_eq {A} (e : A -> list part) (f : A -> Structure) : (forall a b, f a = f b -> a = b) -> codec e eq -> forall a b k,
  (derived_eq (Tag k :: e a) (Tag k :: e b) = true <-> f a = f b) /\ (derived_hash (Tag k :: e a) = derived_hash (Tag k :: e b) <-> f a = f b).
Proof.
  intros HF HC a b k. destruct (whole e eq (codec_open _ _ HC) a b k) as [H1 H2]. rewrite H1, H2.
  split; (split; [intros ->; reflexivity|apply HF]).
Qed.
Ltac injective := let H := fresh in intros ? ? H; injection H; auto.

Lemma structure_eq_iff x y :
  (Structure_eq x y = true <-> structure_same x y) /\ (Structure_hash x = Structure_hash y <-> structure_same x y).
Proof.
  unfold Structure_eq, Structure_hash.
  destruct x, y; cbn [structure_same Structure_parts];
    try (split; (split; [intros H; first [apply tag_eq in H|apply tag_hash in H]; destruct H as [H _]; discriminate H|discriminate])).
  - apply whole_eq; [injective|exact Bios_codec].
  - apply whole_eq; [injective|exact System_codec].
  - apply whole_eq; [injective|exact BaseBoard_codec].
  - apply whole, codec_open, Enclosure_codec.
  - apply whole_eq; [injective|exact Processor_codec].
  - apply whole_eq; [injective|exact Cache_codec].
  - apply whole_eq; [injective|exact PortConnector_codec].
  - apply whole_eq; [injective|exact SystemSlots_codec].
  - apply whole_eq; [injective|exact OemStrings_codec].
  - apply whole_eq; [injective|exact SystemConfigurationOptions_codec].
  - apply (whole BiosLanguage_parts _ (codec_open _ _ BiosLanguage_codec)).
  - apply whole_eq; [injective|exact GroupAssociations_codec].
  - apply whole, SystemEventLog_codec.
  - apply whole_eq; [injective|exact MemoryDevice_codec].
  - apply whole_eq; [injective|exact MemoryError32_codec].
  - apply whole_eq; [injective|exact MemoryArrayMappedAddress_codec].
  - apply whole_eq; [injective|exact MemoryDeviceMappedAddress_codec].
  - apply whole_eq; [injective|exact BuiltInPointingDevice_codec].
  - apply whole_eq; [injective|exact PortableBattery_codec].
  - apply whole_eq; [injective|exact PhysicalMemoryArray_codec].
  - apply whole, codec_open, RawStructure_codec.
Qed.
Lemma structure_eq_hash x y : Structure_eq x y = true <-> Structure_hash x = Structure_hash y.
Proof. destruct (structure_eq_iff x y) as [-> ->]. reflexivity. Qed.
(* equality that goes by what is hashed is an equivalence *)
Lemma equivalence_by_hash {A} (eq : A -> A -> bool) (hash : A -> list call) :
  (forall x y, eq x y = true <-> hash x = hash y) -> equivalence eq.
Proof. intros H. split; [|split]; intros; rewrite H in *; congruence. Qed.

Lemma enclosure_same_iff a b : lists_ok (SEnclosure a) -> lists_ok (SEnclosure b) ->
  enclosure_same a b <-> forget (SEnclosure a) = forget (SEnclosure b).
Proof.
  cbn [lists_ok]. intros Ha Hb.
  assert (E : option_same (fun x y => ContainedElements_eq x y = true) (enclosure_contained_elements a) (enclosure_contained_elements b) <->
    option_map bare_elements (enclosure_contained_elements a) = option_map bare_elements (enclosure_contained_elements b)).
  { destruct (enclosure_contained_elements a) as [x|], (enclosure_contained_elements b) as [y|]; cbn; try (split; [contradiction|discriminate]);
      [|split; auto]. rewrite elements_eq_data by auto. unfold bare_elements. destruct x, y. cbn. split.
    - intros [-> [-> ->]]. reflexivity.
    - intros H. injection H. intros. subst. auto. }
  unfold enclosure_same. rewrite E. clear. destruct a, b. cbn. split.
  - intros H. decompose [and] H. subst. rewrite H14. reflexivity.
  - intros H. injection H. intros. subst. repeat split. assumption.
Qed.
Lemma log_same_iff a b : lists_ok (SSystemEventLog a) -> lists_ok (SSystemEventLog b) ->
  log_same a b <-> same_value (SSystemEventLog a) (SSystemEventLog b).
Proof.
  cbn [lists_ok]. intros Ha Hb. split.
  - intros [H1 [H2 [H3 [H4 [H5 [H6 [H7 [H8 H9]]]]]]]].
    destruct a as [a1 a2 a3 a4 a5 a6 a7 a8 [d|]], b as [b1 b2 b3 b4 b5 b6 b7 b8 [e|]]; cbn in *; try contradiction; subst.
    + apply descriptors_eq_data in H9; [|auto..].
      exact (same_log {| log_handle := b1; log_log_area_length := b2; log_log_header_start_offset := b3; log_log_data_start_offset := b4;
        log_access_method := b5; log_log_status := b6; log_log_change_token := b7; log_log_header_format := b8; log_descriptors := None |} d e H9).
    + apply same_fields. reflexivity.
  - intros H. inversion H as [x y HF E1 E2|s d e HC E1 E2].
    + injection HF as ->. unfold log_same. repeat split. destruct (log_descriptors b) as [d|]; cbn; [|exact I].
      apply (proj1 descriptors_equivalence).
    + subst. unfold log_same. cbn. repeat split. apply descriptors_eq_data; [apply Ha; reflexivity|apply Hb; reflexivity|exact HC].
Qed.
Lemma structure_same_value x y : lists_ok x -> lists_ok y -> structure_same x y <-> same_value x y.
Proof.
  intros Hx Hy.
  assert (K : (forall s t, (x, y) <> (SSystemEventLog s, SSystemEventLog t)) -> (same_value x y <-> forget x = forget y)).
  { intros HN. split; [|apply same_fields]. intros H. destruct H as [x y H|s d e H]; [exact H|]. destruct (HN _ _ eq_refl). }
  destruct x, y; try (rewrite K by (intros ? ? H; discriminate H)); try (cbn [structure_same]; split; [intros H; discriminate H|intros H; discriminate H]);
    try reflexivity.
  - apply enclosure_same_iff; assumption.
  - apply log_same_iff; assumption.
  - cbn [structure_same forget]. unfold raw_same. split; [intros ->; reflexivity|intros H; injection H; intros; unfold bare; congruence].
Qed.
Lemma structure_eq_value x y : lists_ok x -> lists_ok y -> (Structure_eq x y = true <-> same_value x y).
Proof. intros Hx Hy. rewrite (proj1 (structure_eq_iff x y)). apply structure_same_value; assumption. Qed.

(* -------------------------------------------------- what decoders produce *)
Lemma elements_ok c d aft e d' : ContainedElements_new c d aft = Val (Some (e, d')) -> ce_record_length e = 0 -> ce_chunks e = [].
Proof.
  unfold ContainedElements_new. destruct (read_bytes 1 d) as [[count d1]|]; [|discriminate].
  destruct (read_bytes 1 d1) as [[rl d2]|]; [|discriminate].
  destruct (_ || _) eqn:E.
  - intros H. injection H as <- <-. reflexivity.
  - destruct (u_mul c 8 count rl) as [l| |]; [|discriminate..]. cbn [obind].
    destruct (slice_get d2 0 l); [|discriminate]. intros H. injection H as <- <-. cbn.
    intros ->. apply Bool.orb_false_elim in E. destruct E as [_ E]. discriminate E.
Qed.
Lemma enclosure_ok c r s : Enclosure_try_from c r = Val (Ok s) -> lists_ok (SEnclosure s).
Proof.
  cbn [lists_ok]. unfold Enclosure_try_from. destruct (len (data r) <? 5); [discriminate|]. cbv zeta.
  destruct (find_string r (at_ 0 1 _)); [|discriminate]. cbn [rbind].
  destruct (find_string r (at_ 2 1 _)); [|discriminate]. cbn [rbind].
  destruct (find_string r (at_ 3 1 _)); [|discriminate]. cbn [rbind].
  destruct (find_string r (at_ 4 1 _)); [|discriminate]. cbn [rbind].
  set (pc := oand_then (oand_then (oand_then _ _) _) _).
  assert (K : forall s, enclosure_contained_elements s = None ->
    forall l, enclosure_contained_elements s = Some l -> ce_record_length l = 0 -> ce_chunks l = []) by (intros; congruence).
  destruct pc as [[v d]|].
  - destruct (ContainedElements_new c d (after r)) as [[[e1 r1]|]| |] eqn:E; cbn [obind oand_then option_map fst]; try discriminate.
    + destruct (read_bytes 1 r1) as [[n d2]|]; cbn [rbind rmap].
      * destruct (find_string r n) as [t|er]; cbn [rmap rbind]; [|discriminate].
        intros H. injection H as <-. cbn [enclosure_contained_elements]. intros l H. injection H as <-. exact (elements_ok _ _ _ _ _ E).
      * intros H. injection H as <-. cbn [enclosure_contained_elements]. intros l H. injection H as <-. exact (elements_ok _ _ _ _ _ E).
    + cbn [rbind]. intros H. injection H as <-. apply K. reflexivity.
  - cbn [obind oand_then rbind option_map]. intros H. injection H as <-. apply K. reflexivity.
Qed.
Ltac bound H :=
  repeat match type of H with
  | obind ?x _ = _ => let o := fresh "o" in let E := fresh "E" in destruct x as [o| |] eqn:E; cbn [obind] in H; [|discriminate H..]
  | rbind ?x _ = _ => let o := fresh "o" in let e := fresh "e" in let E := fresh "E" in
      destruct x as [[o|e]| |] eqn:E; cbn [rbind] in H; [|discriminate H..]
  end.
Lemma log_ok c r s : SystemEventLog_try_from c r = Val (Ok s) -> lists_ok (SSystemEventLog s).
Proof.
  cbn [lists_ok]. unfold SystemEventLog_try_from. cbv zeta. intros H.
  destruct (get_ok c 1 0x15 r) as [number| |]; cbn [obind] in H; [|discriminate H..].
  destruct (get_ok c 1 0x16 r) as [length| |]; cbn [obind] in H; [|discriminate H..].
  destruct (_ && _); [discriminate H|]. destruct (_ && _).
  { destruct (oand_then _ _); discriminate H. }
  destruct (get c 1 0x0A r) as [[m|]| |]; cbn [rbind] in H; [|discriminate H..].
  destruct (get c 4 0x10 r) as [[a|]| |]; cbn [rbind] in H; [|discriminate H..].
  match type of H with obind ?x _ = _ => destruct x as [ds| |] eqn:E end; cbn [obind] in H; [|discriminate H..].
  assert (K : forall d, ds = Some d -> 0 < descriptors_size d).
  { intros d ->. destruct number as [n|]; [|discriminate E]. destruct length as [l|]; [|discriminate E].
    destruct (get_slice c 0x17 (n * l) r) as [[x|]| |]; cbn [obind] in E; try discriminate E.
    unfold EventLogTypeDescriptors_new in E. destruct (l =? 0) eqn:El; cbn [obind] in E; [discriminate E|].
    injection E as <-. cbn. apply N.eqb_neq in El. apply N.neq_0_lt_0. exact El. }
  clear E.
  destruct (get c 2 0x04 r) as [[x1|]| |]; cbn [rbind] in H; [|discriminate H..].
  destruct (get c 2 0x06 r) as [[x2|]| |]; cbn [rbind] in H; [|discriminate H..].
  destruct (get c 2 0x08 r) as [[x3|]| |]; cbn [rbind] in H; [|discriminate H..].
  destruct (get c 1 0x0B r) as [[x4|]| |]; cbn [rbind] in H; [|discriminate H..].
  destruct (get c 4 0x0C r) as [[x5|]| |]; cbn [rbind] in H; [|discriminate H..].
  destruct (get_ok c 1 0x14 r) as [x6| |]; cbn [obind] in H; [|discriminate H..].
  injection H as <-. exact K.
Qed.
Lemma dispatch_lists_ok c r x : dispatch c r = Val (Ok x) -> lists_ok x.
Proof.
  assert (K : forall A (f : A -> Structure) o, map_ok f o = Val (Ok x) -> exists a, o = Val (Ok a) /\ x = f a).
  { intros A f [[a|e]| |] H; try discriminate H. injection H as <-. exists a. auto. }
  unfold dispatch. destruct (info r); intros H; try (apply K in H; destruct H as [a [H ->]]); try exact I.
  - exact (enclosure_ok c r a H).
  - exact (log_ok c r a H).
  - injection H as <-. exact I.
  - injection H as <-. exact I.
  - injection H as <-. exact I.
Qed.

(* --------------------------------------------------- copies of a structure *)
Lemma framed_bytes v buf pos r : framed v buf pos r -> exists kind h0 h1,
  take (extent r) (drop pos buf) = [kind; length_ r; h0; h1] ++ data r ++ strings r /\
  length_ r = 4 + len (data r) /\ info r = InfoType_from kind /\ handle r = h0 + 256 * h1 /\ version r = v.
Proof.
  intros [pre [post [kind [h0 [h1 [E [L [LL [A [I [H [V AF]]]]]]]]]]]].
  exists kind, h0, h1. rewrite E, drop_app_exact by (symmetry; exact L).
  replace ([kind; length_ r; h0; h1] ++ data r ++ strings r ++ post) with (([kind; length_ r; h0; h1] ++ data r ++ strings r) ++ post)
    by (rewrite <- !app_assoc; reflexivity).
  rewrite take_app_exact; [auto|]. rewrite !len_app. unfold extent. rewrite LL. cbn [len app length N.of_nat]. lia.
Qed.
Lemma same_bytes_same_raw v b1 p1 r1 b2 p2 r2 : framed v b1 p1 r1 -> framed v b2 p2 r2 ->
  take (extent r1) (drop p1 b1) = take (extent r2) (drop p2 b2) -> bare r1 = bare r2.
Proof.
  intros F1 F2 H. destruct (framed_bytes _ _ _ _ F1) as [k1 [x1 [y1 [B1 [L1 [I1 [H1 V1]]]]]]].
  destruct (framed_bytes _ _ _ _ F2) as [k2 [x2 [y2 [B2 [L2 [I2 [H2 V2]]]]]]].
  rewrite B1, B2 in H. cbn [app] in H. injection H as -> LE -> -> H.
  assert (LD : len (data r1) = len (data r2)) by lia.
  assert (D : data r1 = data r2).
  { rewrite <- (take_app_exact (len (data r1)) (data r1) (strings r1)) by reflexivity.
    rewrite H. apply take_app_exact. exact LD. }
  rewrite D in H. apply app_inv_head in H. unfold bare. rewrite V1, V2, I1, I2, H1, H2, LE, D, H. reflexivity.
Qed.
Lemma copies_equal c s1 s2 r1 r2 x1 s1' : flat_memory c = false -> sane s1 -> sane s2 ->
  smbios_version s1 = smbios_version s2 -> here s1 r1 -> here s2 r2 -> bytes_of s1 r1 = bytes_of s2 r2 ->
  next c s1 = Val (Some (Ok x1), s1') ->
  exists x2 s2', next c s2 = Val (Some (Ok x2), s2') /\ Structure_eq x1 x2 = true /\ Structure_hash x1 = Structure_hash x2.
Proof.
  intros HF S1 S2 HV [F1 [G1 K1]] [F2 [G2 K2]] HB N1.
  rewrite (next_framed c s1 r1 S1 F1 G1 K1) in N1. rewrite (next_framed c s2 r2 S2 F2 G2 K2).
  assert (HR : bare r1 = bare r2).
  { rewrite <- HV in F2. exact (same_bytes_same_raw _ _ _ _ _ _ _ F1 F2 HB). }
  pose proof (dispatch_same c r1 r2 HF HR) as D.
  destruct (dispatch c r1) as [i1| |] eqn:E1; cbn [obind] in N1; [|discriminate N1..].
  injection N1 as -> _.
  destruct (dispatch c r2) as [[x2|e2]| |] eqn:E2; cbn in D; try discriminate D.
  injection D as D. cbn [obind]. exists x2. eexists. split; [reflexivity|].
  assert (Q : Structure_eq x1 x2 = true).
  { apply structure_eq_value; [exact (dispatch_lists_ok _ _ _ E1)|exact (dispatch_lists_ok _ _ _ E2)|]. apply same_fields. exact D. }
  split; [exact Q|apply structure_eq_hash; exact Q].
Qed.
(* what an iterator yields *)
Lemma next_lists_ok c s x s' : sane s -> next c s = Val (Some (Ok x), s') -> lists_ok x.
Proof.
  intros HS H. destruct (next_item c s (Ok x) s' HS H) as [[e [E _]]|[r [_ [D _]]]]; [discriminate E|].
  exact (dispatch_lists_ok _ _ _ D).
Qed.
(* types of which the value is all there is *)
Lemma plain {A} (e : A -> list part) : codec e eq -> forall a b,
  (derived_eq (e a) (e b) = true <-> a = b) /\ (derived_hash (e a) = derived_hash (e b) <-> a = b).
Proof.
  intros [H1 H2] a b. specialize (H1 a b [] []). specialize (H2 a b [] []). rewrite !app_nil_r in *. rewrite H1, H2. cbn. tauto.
Qed.
Lemma raw_eq a b : (RawStructure_eq a b = true <-> bare a = bare b) /\ (RawStructure_hash a = RawStructure_hash b <-> bare a = bare b).
Proof.
  unfold RawStructure_eq, RawStructure_hash. destruct RawStructure_codec as [H1 H2]. specialize (H1 a b [] []). specialize (H2 a b [] []).
  rewrite !app_nil_r in *. rewrite H1, H2. cbn. unfold raw_same. tauto.
Qed.
