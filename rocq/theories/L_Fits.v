(* Every structure that the library decodes holds values in the range of their Rust types. *)
From Coq Require Import String.
From Coq Require Import ZArith Lia ZifyBool ZifyNat ZifyN.
From Verif Require Import Base G_Enums M_Raw M_Entry M_Bios M_System M_BaseBoard M_Enclosure M_Processor M_Cache
  M_PortConnector M_SystemSlots M_Strings M_GroupAssociations M_SystemEventLog M_PhysicalMemoryArray M_MemoryDevice
  M_Memory M_PortableBattery M_Iter M_Eq G_Eq
  Spec S_Iter S_Origin S_Show L_Base L_Utf8 L_Strings L_Decode L_Iter L_Frame L_Origin L_Show L_GShow.
Local Open Scope N_scope.

(* the parts of a structure as the iterator hands it to the decoders *)
Record bytes_inside (r : RawStructure) : Prop := {
  bi_data : all_bytes (data r);
  bi_after : all_bytes (after r);
  bi_strings : all_bytes (strings r);
  bi_handle : handle r < 2 ^ 16;
  bi_length : length_ r < 2 ^ 8;
  bi_info : Forall fits_type (InfoType_parts (info r));
  bi_version : Forall fits_type (SmbiosVersion_parts (version r)) }.

Definition on {A} (P : A -> Prop) (o : option A) : Prop := forall x, o = Some x -> P x.
Lemma on_some {A} (P : A -> Prop) x : P x -> on P (Some x). Proof. intros H y [= <-]. exact H. Qed.
Lemma on_none {A} (P : A -> Prop) : on P None. Proof. intros y. discriminate. Qed.
Lemma on_filter {A} (P : A -> Prop) f o : on P o -> on P (ofilter f o).
Proof. intros H x. destruct o as [y|]; cbn; [|discriminate]. destruct (f y); [|discriminate]. intros [= <-]. apply H. reflexivity. Qed.
Lemma on_map {A B} (P : B -> Prop) (g : A -> B) o : on (fun x => P (g x)) o -> on P (option_map g o).
Proof. intros H x. destruct o as [y|]; cbn; [|discriminate]. intros [= <-]. apply H. reflexivity. Qed.
Lemma on_mono {A} (P Q : A -> Prop) o : on P o -> (forall x, P x -> Q x) -> on Q o.
Proof. intros H HPQ x E. apply HPQ, H, E. Qed.
Lemma on_parts {A} (f : A -> list part) o : on (fun x => Forall fits_type (f x)) o -> Forall fits_type (option_parts f o).
Proof. intros H. destruct o as [x|]; cbn [option_parts]; [|repeat constructor]. constructor; [exact I|]. apply H. reflexivity. Qed.

Lemma take_bytes n l : all_bytes l -> all_bytes (take n l).
Proof. intros H. unfold all_bytes in *. rewrite <- (take_drop n l) in H. apply Forall_app in H. apply H. Qed.
Lemma drop_bytes n l : all_bytes l -> all_bytes (drop n l).
Proof. intros H. unfold all_bytes in *. rewrite <- (take_drop n l) in H. apply Forall_app in H. apply H. Qed.
Lemma read_packed_bytes c n r p : bytes_inside r -> read_packed c n r = Val p -> all_bytes p.
Proof.
  intros [D A _ _ _ _ _]. unfold read_packed. destruct (n <=? len (data r)); [intros [= <-]; apply take_bytes, D|].
  destruct (_ && _)%bool; [|discriminate]. intros [= <-]. apply take_bytes. apply Forall_app; split; assumption.
Qed.
Lemma slice_get_bytes d a b s : all_bytes d -> slice_get d a b = Some s -> all_bytes s.
Proof. intros D. unfold slice_get. destruct (_ && _)%bool; [|discriminate]. intros [= <-]. apply take_bytes, drop_bytes, D. Qed.
Lemma get_range c w o r a : bytes_inside r -> get c w o r = Val (Ok a) -> a < 256 ^ w.
Proof.
  intros [D _ _ _ _ _ _]. unfold get. destruct (u_sub c (usize_bits c) o 4) as [st| |]; cbn [obind]; try discriminate.
  destruct (u_add c (usize_bits c) st w) as [fin| |]; cbn [obind]; try discriminate.
  set (s := match slice_get (data r) st fin with Some s => s | None => [] end).
  assert (B : all_bytes s) by (unfold s; destruct (slice_get (data r) st fin) eqn:E; [eapply slice_get_bytes; eassumption|constructor]).
  destruct (N.eqb_spec (len s) w) as [<-|]; [|discriminate]. intros [= <-]. apply le_bound, B.
Qed.
Lemma get_ok_range c w o r a : bytes_inside r -> get_ok c w o r = Val a -> on (fun n => n < 256 ^ w) a.
Proof.
  intros HB. unfold get_ok, omap. destruct (get c w o r) as [[n|e]| |] eqn:E; cbn [obind ok]; try discriminate; intros [= <-].
  - apply on_some. eapply get_range; eassumption.
  - apply on_none.
Qed.
Lemma get_slice_range c o n r a : bytes_inside r -> get_slice c o n r = Val a -> on all_bytes a.
Proof.
  intros [D _ _ _ _ _ _]. unfold get_slice. destruct (u_sub c (usize_bits c) o 4) as [st| |]; cbn [obind]; try discriminate.
  destruct (u_add c (usize_bits c) st n) as [fin| |]; cbn [obind]; try discriminate. intros [= <-] x E. eapply slice_get_bytes; eassumption.
Qed.
Lemma own_utf8 r t : own_text r t -> utf8 t.
Proof. intros [->|[k K]]; [exists []; split; [constructor|reflexivity]|]. destruct K as [b [rest [_ [_ [[_ [_ K]] _]]]]]. exact K. Qed.
Lemma own_opt_utf8 r o : own_opt r o -> on utf8 o.
Proof. intros H x ->. inversion H; subst. eapply own_utf8; eassumption. Qed.
Lemma read_bytes_range w d n d' : all_bytes d -> read_bytes w d = Some (n, d') -> n < 256 ^ w /\ all_bytes d'.
Proof.
  intros D. unfold read_bytes. destruct (N.ltb_spec (len d) w); [discriminate|]. intros [= <- <-]. split; [|apply drop_bytes, D].
  assert (L : len (take w d) = w) by (rewrite len_take; lia). rewrite <- L at 2. apply le_bound, take_bytes, D.
Qed.

(* ------------------------------------------------------------- the tactics *)

Lemma land_small a b n : a < n -> N.land a b < n.
Proof.
  intros H. assert (N.land a b <= a); [|lia]. apply N.ldiff_le, N.bits_inj_0. intros k. rewrite N.ldiff_spec, N.land_spec.
  destruct (N.testbit a k), (N.testbit b k); reflexivity.
Qed.
Lemma shiftr_small a b n : a < n -> N.shiftr a b < n.
Proof.
  intros H. rewrite N.shiftr_div_pow2. assert (2 ^ b <> 0) by (apply N.pow_nonzero; lia).
  pose proof (N.div_le_upper_bound a (2 ^ b) a ltac:(assumption)) as D. assert (1 <= 2 ^ b) by lia. nia.
Qed.
Lemma cast_small w x n : 2 ^ w <= n -> cast w x < n.
Proof. intros H. unfold cast. assert (2 ^ w <> 0) by (apply N.pow_nonzero; lia). pose proof (N.mod_lt x (2 ^ w) ltac:(assumption)). lia. Qed.
Lemma num_ok w n : n < 2 ^ width_bits w -> Forall fits_type (num w n). Proof. intros H. repeat constructor. exact H. Qed.
Lemma flag_ok b : Forall fits_type (flag b). Proof. destruct b; repeat constructor. Qed.
Lemma str_ok t : utf8 t -> Forall fits_type (str t). Proof. intros H. repeat constructor. exact H. Qed.
Lemma slice_ok l : all_bytes l -> Forall fits_type (slice l). Proof. intros H. repeat constructor. exact H. Qed.

Lemma uuid_bytes l v : all_bytes l -> all_bytes (decode_by_smbios_version l v).
Proof.
  intros H. unfold decode_by_smbios_version, uuid_from_bytes, uuid_from_bytes_le. destruct (version_lt _ _); [exact H|].
  repeat (apply Forall_app; split); try apply Forall_rev; repeat (apply take_bytes || apply drop_bytes); exact H.
Qed.
Ltac wide := first [reflexivity|(vm_compute; discriminate)].
Ltac range :=
  lazymatch goal with
  | |- at_ _ _ _ < _ => eapply N.lt_le_trans; [apply at_lt; assumption|wide]
  | |- N.land _ _ < _ => apply land_small; range
  | |- N.shiftr _ _ < _ => apply shiftr_small; range
  | |- cast _ _ < _ => apply cast_small; wide
  | |- handle _ < _ => match goal with H : bytes_inside _ |- _ => apply (bi_handle _ H) end
  | |- length_ _ < _ => match goal with H : bytes_inside _ |- _ => apply (bi_length _ H) end
  | |- ?n < _ => first [reflexivity|assumption|(eapply N.lt_le_trans; [eassumption|wide])]
  end.
Ltac more_fits := fail.
Ltac fit_step :=
  lazymatch goal with
  | |- Forall fits_type (app _ _) => apply Forall_app; split
  | |- Forall fits_type [] => constructor
  | |- Forall fits_type (num _ _) => apply num_ok; cbn [width_bits]; range
  | |- Forall fits_type (flag _) => apply flag_ok
  | |- Forall fits_type (str _) => apply str_ok; assumption
  | |- Forall fits_type (slice _) => apply slice_ok; first [assumption|apply uuid_bytes, take_bytes, drop_bytes; assumption|idtac]
  | |- Forall fits_type (option_parts _ _) => apply on_parts
  | |- on _ (Some _) => apply on_some
  | |- on _ None => apply on_none
  | |- on _ (ofilter _ _) => apply on_filter
  | |- on _ (option_map _ _) => apply on_map
  | |- on _ (if _ then _ else _) => match goal with |- on _ (if ?b then _ else _) => destruct b end
  | |- on _ ?o => eapply on_mono; [eassumption|cbn beta; intros ? ?]
  | _ => first [more_fits|enum_fits; try range]
  end.
Ltac remember_fact HB H :=
  first [ apply (get_range _ _ _ _ _ HB) in H | apply (get_ok_range _ _ _ _ _ HB) in H | apply (get_slice_range _ _ _ _ _ HB) in H
        | apply (read_packed_bytes _ _ _ _ HB) in H
        | (apply get_string_own in H; apply own_utf8 in H) | (apply get_string_ok_own in H; apply own_opt_utf8 in H)
        | (apply basic_string_own in H; apply own_opt_utf8 in H) | (injection H as H; apply own_find in H; apply own_utf8 in H)
        | (apply some_if_own in H; apply own_opt_utf8 in H) | (apply opt_find_own in H; apply own_opt_utf8 in H) | idtac ].
Ltac decode_step HB :=
  match goal with
  | |- gives_ok _ (Val (Err _)) => apply gives_err
  | |- gives_ok _ Panic => apply gives_panic
  | |- gives_ok _ UB => apply gives_ub
  | |- gives_ok _ (rbind _ _) => apply gives_rbind; let a := fresh "a" in let H := fresh "H" in intros a H; remember_fact HB H
  | |- gives_ok _ (obind _ _) => apply gives_obind; let a := fresh "a" in let H := fresh "H" in intros a H; remember_fact HB H
  | |- gives_ok _ (if ?b then _ else _) => destruct b
  | |- gives_ok _ (match ?x with _ => _ end) => destruct x
  | |- gives_ok _ (Val (Ok _)) => apply gives_val
  end.
Ltac decode HB := cbv zeta; repeat decode_step HB.

Ltac branch := repeat match goal with |- context [if ?b then _ else _] => destruct b end; repeat constructor; cbn [fits_type width_bits]; try range.
Lemma Voltage_fits n : n < 2 ^ 8 -> Forall fits_type (Voltage_parts (Voltage_from n)).
Proof. intros H. unfold Voltage_from. branch. Qed.
Lemma family_fits p : all_bytes p -> Forall fits_type (ProcessorFamily_parts (processor_family_or_2 p)).
Proof.
  intros H. assert (A : Forall fits_type (ProcessorFamily_parts (ProcessorFamily_from (at_ 2 1 p)))) by (apply ProcessorFamily_fits; range).
  assert (B : Forall fits_type (ProcessorFamily_parts (ProcessorFamily_from (at_ 36 2 p)))) by (apply ProcessorFamily_fits; range).
  unfold processor_family_or_2, ProcessorFamily_from_u8. destruct (ProcessorFamily_from (at_ 2 1 p)); exact A || exact B.
Qed.
Lemma family_u8_fits n : n < 2 ^ 8 -> Forall fits_type (ProcessorFamily_parts (ProcessorFamily_from_u8 n)).
Proof. intros H. apply ProcessorFamily_fits. range. Qed.
Lemma CacheSize_fits n : n < 2 ^ 16 -> Forall fits_type (CacheSize_parts (CacheSize_from n)).
Proof. intros H. unfold CacheSize_from. branch. Qed.
Lemma CacheSize2_fits n : n < 2 ^ 32 -> Forall fits_type (CacheSize2_parts (CacheSize2_from n)).
Proof. intros H. unfold CacheSize2_from. branch. Qed.
Lemma CacheConfiguration_fits a : Forall fits_type (CacheConfiguration_parts a).
Proof. unfold CacheConfiguration_parts. repeat fit_step; first [apply CacheLevel_fits|apply CacheLocation_fits|apply CacheOperationalMode_fits]. Qed.
Lemma byte_of_small i v : byte_of i v < 256.
Proof. unfold byte_of. apply N.mod_lt. lia. Qed.
Lemma AccessMethod_fits m a : m < 2 ^ 8 -> a < 2 ^ 32 -> Forall fits_type (AccessMethod_parts (AccessMethod_new m a)).
Proof.
  intros HM HA. pose proof (byte_of_small 0 a). pose proof (byte_of_small 1 a). pose proof (byte_of_small 2 a).
  unfold AccessMethod_new.
  repeat match goal with |- context [if ?b then _ else _] => destruct b end; repeat constructor; cbn [fits_type width_bits]; unfold is_byte; try assumption;
  cbn [le]; change (2 ^ 16) with 65536; lia.
Qed.
Lemma date_fits a n : on utf8 a -> on (fun n => n < 2 ^ 16) n -> Forall fits_type (ManufactureDate_parts (ManufactureDate_new a n)).
Proof.
  intros HA HN. destruct a as [t|]; [repeat constructor; apply HA; reflexivity|]. destruct n as [d|]; [|repeat constructor].
  pose proof (HN d eq_refl) as HD. cbn beta in HD. repeat constructor; cbn [fits_type width_bits]; try range.
  assert (HS : N.land d 65024 <= d) by (apply N.lt_succ_r, land_small; lia).
  rewrite N.shiftr_div_pow2. change (2 ^ 9) with 512. change (2 ^ 16) with 65536 in *. lia.
Qed.
Lemma serial_fits a n : on utf8 a -> on (fun n => n < 2 ^ 16) n -> Forall fits_type (SerialNumber_parts (SerialNumber_new a n)).
Proof.
  intros HA HN. destruct a as [t|]; [repeat constructor; apply HA; reflexivity|]. destruct n as [d|]; [|repeat constructor].
  repeat constructor. apply HN. reflexivity.
Qed.
Lemma chemistry_fits k a : k < 2 ^ 8 -> on utf8 a -> Forall fits_type (DeviceChemistry_parts (DeviceChemistry_new k a)).
Proof.
  intros HK HA. unfold DeviceChemistry_new.
  destruct (k =? 1); [repeat constructor|]. destruct (k =? 2); [destruct a; repeat constructor; apply HA; reflexivity|].
  repeat match goal with |- context [if ?b then _ else _] => destruct b; [repeat constructor|] end. repeat constructor. exact HK.
Qed.
Lemma capacity_fits v m : v < 2 ^ 16 -> on (fun n => n < 2 ^ 8) m -> Forall fits_type (DesignCapacity_parts (DesignCapacity_new v m)).
Proof.
  intros HV HM. unfold DesignCapacity_new. destruct (v =? 0); repeat constructor; [exact HV|].
  destruct m as [k|]; [apply HM; reflexivity|reflexivity].
Qed.
Lemma peers_fits l : all_bytes l -> Forall fits_type (peers {| peer_chunks := l |}).
Proof. intros H. repeat constructor. exact H. Qed.
Lemma raw_fits r : bytes_inside r -> Forall fits_type (RawStructure_parts r).
Proof.
  intros H. unfold RawStructure_parts.
  apply Forall_app; split; [apply H|]. apply Forall_app; split; [apply H|]. apply Forall_app; split; [apply num_ok; apply H|].
  apply Forall_app; split; [apply num_ok; apply H|]. apply Forall_app; split; apply slice_ok; apply H.
Qed.
Lemma index_small l i n : all_bytes l -> index l i = Val n -> n < 2 ^ 8.
Proof.
  intros H. unfold index. destruct (nth_error l (N.to_nat i)) as [b|] eqn:E; [|discriminate]. intros [= <-].
  apply nth_error_In in E. unfold all_bytes in H. rewrite Forall_forall in H. apply (H b E).
Qed.
Lemma slice_index_bytes l a b s : all_bytes l -> slice_index l a b = Val s -> all_bytes s /\ len s = b - a.
Proof.
  intros H. unfold slice_index, slice_get.
  destruct ((a <=? b) && (b <=? len l))%bool eqn:E; [|discriminate]. intros [= <-]. split; [apply take_bytes, drop_bytes, H|].
  rewrite len_take, len_drop. lia.
Qed.
Lemma get_uint_small w p d n q : all_bytes d -> get_uint w p d = Val (Ok (n, q)) -> n < 256 ^ w.
Proof.
  intros H. unfold get_uint. destruct (slice_index d p (p + w)) as [s| |] eqn:E; cbn [obind]; try discriminate. intros [= <- _].
  apply slice_index_bytes in E as [B L]; [|exact H]. replace w with (len s) by lia. apply le_bound, B.
Qed.
Lemma get_optional_uint_small w p d k n q : all_bytes d -> get_optional_uint w p d k = Val (Ok (n, q)) -> on (fun n => n < 256 ^ w) n.
Proof.
  intros H. unfold get_optional_uint. destruct (get_uint w p d) as [[[x y]|]| |] eqn:E; cbn [rbind]; try discriminate.
  apply get_uint_small in E; [|exact H]. destruct (x =? k); intros [= <- _]; [apply on_none|apply on_some, E].
Qed.
Definition pair_on {A} (P : A -> Prop) (o : option (A * list N)) : Prop := on (fun x => P (fst x) /\ all_bytes (snd x)) o.
Lemma read_pair w d : all_bytes d -> pair_on (fun n => n < 256 ^ w) (read_bytes w d).
Proof. intros H [n d'] E. apply read_bytes_range in E; [exact E|exact H]. Qed.
Lemma read_then {A} (P : A -> Prop) w o : pair_on P o -> pair_on (fun n => n < 256 ^ w) (oand_then o (fun '(_, d) => read_bytes w d)).
Proof. intros H. destruct o as [[a d]|]; cbn [oand_then]; [|apply on_none]. apply read_pair. apply (H (a, d) eq_refl). Qed.
Lemma elements_pair c d aft x : all_bytes d -> ContainedElements_new c d aft = Val x ->
  pair_on (fun e => all_bytes (ce_chunks e) /\ ce_count e < 256 /\ ce_record_length e < 256) x.
Proof.
  intros H. unfold ContainedElements_new.
  destruct (read_bytes 1 d) as [[n d1]|] eqn:E1; [|intros [= <-]; apply on_none]. apply read_bytes_range in E1 as [L1 B1]; [|exact H].
  destruct (read_bytes 1 d1) as [[m d2]|] eqn:E2; [|intros [= <-]; apply on_none]. apply read_bytes_range in E2 as [L2 B2]; [|exact B1].
  change (256 ^ 1) with 256 in *.
  destruct (_ || _)%bool; [intros [= <-]; apply on_some; cbn; repeat split; try assumption; constructor|].
  destruct (u_mul c 8 n m) as [k| |]; cbn [obind]; try discriminate.
  destruct (slice_get d2 0 k) eqn:E3; [|intros [= <-]; apply on_none]. apply slice_get_bytes in E3; [|exact B2].
  intros [= <-]. apply on_some. cbn. repeat split; try assumption. apply drop_bytes, B2.
Qed.
Ltac same_on := first [assumption|eapply on_mono; [eassumption|cbn beta; intros ? ?; range]].
Ltac more_fits ::=
  lazymatch goal with
  | |- Forall fits_type (Voltage_parts (Voltage_from _)) => apply Voltage_fits; range
  | |- Forall fits_type (ProcessorFamily_parts (processor_family_or_2 _)) => apply family_fits; assumption
  | |- Forall fits_type (ProcessorFamily_parts (ProcessorFamily_from_u8 _)) => apply family_u8_fits; range
  | |- Forall fits_type (CacheSize_parts _) => apply CacheSize_fits; range
  | |- Forall fits_type (CacheSize2_parts _) => apply CacheSize2_fits; range
  | |- Forall fits_type (CacheConfiguration_parts _) => apply CacheConfiguration_fits
  | |- Forall fits_type (AccessMethod_parts _) => apply AccessMethod_fits; range
  | |- Forall fits_type (ManufactureDate_parts _) => apply date_fits; same_on
  | |- Forall fits_type (SerialNumber_parts _) => apply serial_fits; same_on
  | |- Forall fits_type (DeviceChemistry_parts _) => apply chemistry_fits; [range|same_on]
  | |- Forall fits_type (peers {| peer_chunks := _ |}) => apply peers_fits; assumption
  | |- Forall fits_type (RawStructure_parts _) => apply raw_fits; assumption
  | |- all_bytes (strings _) => match goal with H : bytes_inside _ |- _ => apply (bi_strings _ H) end
  | |- Forall fits_type (DesignCapacity_parts _) => apply capacity_fits; [range|same_on]
  end.
Lemma Bios_fits c r : bytes_inside r -> gives_ok (well_typed Bios_parts) (Bios_try_from c r).
Proof.
  intros HB. unfold Bios_try_from. decode HB; unfold well_typed, Bios_parts, RomSize_parts, Revision_parts;
  repeat (cbn [bios_handle bios_vendor bios_bios_version bios_starting_address_segment bios_release_date bios_rom_size bios_characteristics bios_characteristics_extension_1 bios_characteristics_extension_2 bios_revision bios_firmware_revision basic extended rev_major rev_minor]; fit_step).
Qed.
Lemma System_fits c r : bytes_inside r -> gives_ok (well_typed System_parts) (System_try_from c r).
Proof.
  intros HB. unfold System_try_from. decode HB; unfold well_typed, System_parts;
  repeat (cbn [system_handle system_manufacturer system_product system_version system_serial system_uuid system_wakeup system_sku system_family]; fit_step).
Qed.
Lemma BaseBoard_fits c r : bytes_inside r -> gives_ok (well_typed BaseBoard_parts) (BaseBoard_try_from c r).
Proof.
  intros HB. unfold BaseBoard_try_from. decode HB; unfold BaseBoardFlags_truncate, well_typed, BaseBoard_parts;
  repeat (cbn [baseboard_handle baseboard_manufacturer baseboard_product baseboard_version baseboard_serial baseboard_asset baseboard_feature_flags baseboard_location_in_chassis baseboard_chassis_handle baseboard_board_type]; fit_step).
Qed.
Lemma Processor_fits c r : bytes_inside r -> gives_ok (well_typed Processor_parts) (Processor_try_from c r).
Proof.
  intros HB. unfold Processor_try_from. decode HB; unfold ProcessorStatus_truncate, ProcessorCharacteristics_truncate, well_typed, Processor_parts;
  repeat (cbn [processor_handle processor_socket_designation processor_processor_type processor_processor_family processor_processor_manufacturer processor_processor_id processor_processor_version processor_voltage processor_external_clock processor_max_speed processor_current_speed processor_status processor_processor_upgrade processor_l1_cache_handle processor_l2_cache_handle processor_l3_cache_handle processor_serial_number processor_asset_tag processor_part_number processor_core_count processor_core_enabled processor_thread_count processor_processor_characteristics]; fit_step).
Qed.
Lemma Cache_fits c r : bytes_inside r -> gives_ok (well_typed Cache_parts) (Cache_try_from c r).
Proof.
  intros HB. unfold Cache_try_from. decode HB; unfold CacheSramType_truncate, well_typed, Cache_parts, CacheConfiguration_parts;
  repeat (cbn [cache_handle cache_socket_designation cache_cache_configuration cache_maximum_cache_size cache_installed_size cache_supported_sram_type cache_current_sram_type cache_cache_speed cache_error_correction_type cache_system_cache_type cache_associativity cache_maximum_cache_size_2 cache_installed_size_2 level socketed location enabled_at_boot_time operational_mode]; fit_step).
Qed.
Lemma PortConnector_fits c r : bytes_inside r -> gives_ok (well_typed PortConnector_parts) (PortConnector_try_from c r).
Proof.
  intros HB. unfold PortConnector_try_from. decode HB; unfold well_typed, PortConnector_parts;
  repeat (cbn [port_handle port_internal_reference_designator port_internal_connector_type port_external_reference_designator port_external_connector_type port_port_type]; fit_step).
Qed.
Lemma SystemSlots_fits c r : bytes_inside r -> gives_ok (well_typed SystemSlots_parts) (SystemSlots_try_from c r).
Proof.
  intros HB. unfold SystemSlots_try_from. decode HB; unfold well_typed, SystemSlots_parts, DeviceAndFunctionNumber_parts;
  repeat (cbn [slots_handle slots_slot_designation slots_slot_type slots_slot_data_bus_width slots_current_usage slots_slot_length slots_slot_id slots_slot_characteristics_1 slots_slot_characteristics_2 slots_segment_group_number slots_bus_number slots_device_and_function_number slots_data_bus_width slots_peer_devices slots_slot_information slots_slot_physical_width slots_slot_pitch DeviceAndFunctionNumber_from dev fun_]; fit_step).
Qed.
Lemma OemStrings_fits c r : bytes_inside r -> gives_ok (well_typed OemStrings_parts) (OemStrings_try_from c r).
Proof.
  intros HB. unfold OemStrings_try_from. decode HB; unfold raw_strings, strings_new, well_typed, OemStrings_parts, StructureStrings_parts;
  repeat (cbn [oem_handle oem_strings bytes start]; fit_step).
Qed.
Lemma SystemConfigurationOptions_fits c r : bytes_inside r -> gives_ok (well_typed SystemConfigurationOptions_parts) (SystemConfigurationOptions_try_from c r).
Proof.
  intros HB. unfold SystemConfigurationOptions_try_from. decode HB; unfold raw_strings, strings_new, well_typed, SystemConfigurationOptions_parts, StructureStrings_parts;
  repeat (cbn [options_handle options_strings bytes start]; fit_step).
Qed.
Lemma BiosLanguage_fits c r : bytes_inside r -> gives_ok (well_typed BiosLanguage_parts) (BiosLanguage_try_from c r).
Proof.
  intros HB. unfold BiosLanguage_try_from. decode HB; unfold InstallableLanguages_new, well_typed, BiosLanguage_parts, InstallableLanguages_parts;
  repeat (cbn [language_handle language_installable_languages language_flags language_current_language il_structure il_index]; fit_step).
Qed.
Lemma GroupAssociations_fits c r : bytes_inside r -> gives_ok (well_typed GroupAssociations_parts) (GroupAssociations_try_from c r).
Proof.
  intros HB. unfold GroupAssociations_try_from. decode HB; unfold well_typed, GroupAssociations_parts, GroupItems_parts;
  repeat (cbn [group_handle group_group_name group_items gi_data gi_index]; fit_step).
  match goal with H : on all_bytes (Some _) |- _ => apply H; reflexivity end.
Qed.
Lemma descriptors_pair c r number length x : bytes_inside r -> on (fun n => n < 256 ^ 1) length ->
  match number with
  | None => Val None
  | Some number =>
    match length with
    | None => Val None
    | Some length =>
      let! d := get_slice c 0x17 (number * length) r in
      match d with
      | None => Val None
      | Some d => let! x := EventLogTypeDescriptors_new d length in Val (Some x)
      end
    end
  end = Val x ->
  on (fun x => Forall fits_type (descriptors x)) x.
Proof.
  intros HB HL. destruct number as [n|]; [|intros [= <-]; apply on_none]. destruct length as [l|]; [|intros [= <-]; apply on_none].
  destruct (get_slice c 0x17 (n * l) r) as [d| |] eqn:E; cbn [obind]; try discriminate. apply get_slice_range in E; [|exact HB].
  destruct d as [d|]; [|intros [= <-]; apply on_none]. unfold EventLogTypeDescriptors_new.
  destruct (l =? 0); cbn [obind]; [discriminate|]. intros [= <-]. apply on_some. constructor; [|constructor]. split; [apply E; reflexivity|].
  eapply N.lt_trans; [apply (HL l eq_refl)|reflexivity].
Qed.
Lemma SystemEventLog_fits c r : bytes_inside r -> gives_ok (well_typed SystemEventLog_parts) (SystemEventLog_try_from c r).
Proof.
  intros HB. unfold SystemEventLog_try_from. cbv zeta.
  do 2 decode_step HB. decode_step HB; [decode_step HB|]. decode_step HB; [destruct (oand_then _ _); decode_step HB|].
  do 2 decode_step HB. apply gives_obind. intros ds HD. eapply descriptors_pair in HD; [|exact HB|eassumption].
  decode HB; unfold well_typed, SystemEventLog_parts;
  repeat (cbn [log_handle log_log_area_length log_log_header_start_offset log_log_data_start_offset log_access_method log_log_status log_log_change_token log_log_header_format log_descriptors]; fit_step).
  assumption.
Qed.
Lemma PhysicalMemoryArray_fits c r : bytes_inside r -> gives_ok (well_typed PhysicalMemoryArray_parts) (PhysicalMemoryArray_try_from c r).
Proof.
  intros HB. unfold PhysicalMemoryArray_try_from. pose proof (bi_data _ HB) as D.
  apply gives_rbind. intros [pma pointer] H.
  assert (W : well_typed PhysicalMemoryArray_parts pma).
  { revert H. destruct (version_gt _ _); [|intros [= <- _]; repeat constructor].
    destruct (index (data r) 0) as [a0| |] eqn:E0; cbn [obind]; try discriminate. apply index_small in E0; [|exact D].
    destruct (index (data r) 1) as [a1| |] eqn:E1; cbn [obind]; try discriminate. apply index_small in E1; [|exact D].
    destruct (index (data r) 2) as [a2| |] eqn:E2; cbn [obind]; try discriminate. apply index_small in E2; [|exact D].
    destruct (get_optional_uint 4 3 _ _) as [[[a3 p3]|]| |] eqn:E3; cbn [rbind]; try discriminate. apply get_optional_uint_small in E3; [|exact D].
    destruct (get_optional_uint 2 p3 _ _) as [[[a4 p4]|]| |] eqn:E4; cbn [rbind]; try discriminate. apply get_optional_uint_small in E4; [|exact D].
    destruct (get_uint 2 p4 _) as [[[a5 p5]|]| |] eqn:E5; cbn [rbind]; try discriminate. apply get_uint_small in E5; [|exact D].
    intros [= <- _]. unfold well_typed, PhysicalMemoryArray_parts.
    repeat (cbn [array_handle array_location array_use array_memory_error_correction array_maximum_capacity array_memory_error_information_handle array_number_of_memory_devices array_extended_maximum_capacity]; fit_step). }
  clear H. destruct (version_gt _ _); [|apply gives_val; exact W]. apply gives_rbind. intros x H.
  assert (X : on (fun n => n < 256 ^ 8) x).
  { revert H. destruct (array_maximum_capacity pma); [intros [= <-]; apply on_none|].
    destruct (get_optional_uint 8 _ _ _) as [[[a6 p6]|]| |] eqn:E6; cbn [rbind]; try discriminate. apply get_optional_uint_small in E6; [|exact D].
    intros [= <-]. exact E6. }
  apply gives_val. unfold well_typed, PhysicalMemoryArray_parts in *.
  repeat (apply Forall_app in W as [? W]).
  cbn [array_handle array_location array_use array_memory_error_correction array_maximum_capacity array_memory_error_information_handle array_number_of_memory_devices array_extended_maximum_capacity].
  repeat (apply Forall_app; split); try assumption. repeat fit_step.
Qed.
Lemma Enclosure_fits c r : bytes_inside r -> gives_ok (well_typed Enclosure_parts) (Enclosure_try_from c r).
Proof.
  intros HB. unfold Enclosure_try_from. cbv zeta. decode_step HB; [apply gives_err|].
  assert (P : all_bytes (take 5 (data r))) by (apply take_bytes, HB).
  do 4 decode_step HB.
  pose proof (read_pair 1 (drop 5 (data r)) (drop_bytes _ _ (bi_data _ HB))) as R1.
  set (o1 := read_bytes 1 (drop 5 (data r))) in *. clearbody o1.
  pose proof (read_then _ 1 _ R1) as R2. set (o2 := oand_then o1 _) in *. clearbody o2.
  pose proof (read_then _ 1 _ R2) as R3. set (o3 := oand_then o2 _) in *. clearbody o3.
  pose proof (read_then _ 1 _ R3) as R4. set (o4 := oand_then o3 _) in *. clearbody o4.
  pose proof (read_then _ 4 _ R4) as R5. set (o5 := oand_then o4 _) in *. clearbody o5.
  pose proof (read_then _ 1 _ R5) as R6. set (o6 := oand_then o5 _) in *. clearbody o6.
  pose proof (read_then _ 1 _ R6) as R7. set (o7 := oand_then o6 _) in *. clearbody o7.
  apply gives_obind. intros ce HC.
  assert (C : pair_on (fun e => all_bytes (ce_chunks e) /\ ce_count e < 256 /\ ce_record_length e < 256) ce).
  { destruct o7 as [[n d]|]; [|injection HC as <-; apply on_none]. eapply elements_pair; [|exact HC]. apply (R7 (n, d) eq_refl). }
  clear HC. decode_step HB. decode_step HB.
  unfold well_typed, Enclosure_parts, pair_on in *.
  repeat (cbn [enclosure_handle enclosure_manufacturer enclosure_chassis_lock enclosure_enclosure_type enclosure_version enclosure_serial_number enclosure_asset_tag_number enclosure_boot_up_state enclosure_power_supply_state enclosure_thermal_state enclosure_security_status enclosure_oem_defined enclosure_height enclosure_power_cords_number enclosure_contained_elements enclosure_sku_number]; fit_step).
  all: match goal with H : _ /\ all_bytes (snd _) |- _ => destruct H as [H _]; first [exact H|(apply num_ok; exact H)|(constructor; [exact H|constructor])] end.
Qed.
Lemma MemoryDevice_fits c r : bytes_inside r -> gives_ok (well_typed MemoryDevice_parts) (MemoryDevice_try_from c r).
Proof.
  intros HB. unfold MemoryDevice_try_from. decode HB; unfold Detail_truncate, OperatingModes_truncate, well_typed, MemoryDevice_parts;
  repeat (cbn [memdev_handle memdev_physical_memory_handle memdev_memory_error_handle memdev_total_width memdev_data_width memdev_size memdev_form_factor memdev_device_set memdev_device_locator memdev_bank_locator memdev_memory_type memdev_type_detail memdev_speed memdev_manufacturer memdev_serial memdev_asset_tag memdev_part_number memdev_attributes memdev_extended_size memdev_configured_memory_speed memdev_minimum_voltage memdev_maximum_voltage memdev_configured_voltage memdev_memory_technology memdev_operating_mode_capability memdev_firmware_version memdev_module_manufacturer memdev_module_product_id memdev_memory_subsystem_controller_manufacturer_id memdev_memory_subsystem_controller_product_id memdev_non_volatile_size memdev_volatile_size memdev_cache_size memdev_logical_size memdev_extended_speed memdev_extended_configured_memory_speed]; fit_step).
Qed.
Lemma MemoryError32_fits c r : bytes_inside r -> gives_ok (well_typed MemoryError32_parts) (MemoryError32_try_from c r).
Proof.
  intros HB. unfold MemoryError32_try_from. decode HB; unfold well_typed, MemoryError32_parts;
  repeat (cbn [me_handle me_error_type me_error_granularity me_error_operation me_vendor_syndrome me_memory_array_error_address me_device_error_address me_error_resolution]; fit_step).
Qed.
Lemma MemoryArrayMappedAddress_fits c r : bytes_inside r -> gives_ok (well_typed MemoryArrayMappedAddress_parts) (MemoryArrayMappedAddress_try_from c r).
Proof.
  intros HB. unfold MemoryArrayMappedAddress_try_from. decode HB; unfold well_typed, MemoryArrayMappedAddress_parts;
  repeat (cbn [ama_handle ama_starting_address ama_ending_address ama_memory_array_handle ama_partition_width ama_extended_starting_address ama_extended_ending_address]; fit_step).
Qed.
Lemma MemoryDeviceMappedAddress_fits c r : bytes_inside r -> gives_ok (well_typed MemoryDeviceMappedAddress_parts) (MemoryDeviceMappedAddress_try_from c r).
Proof.
  intros HB. unfold MemoryDeviceMappedAddress_try_from. decode HB; unfold well_typed, MemoryDeviceMappedAddress_parts;
  repeat (cbn [dma_handle dma_starting_address dma_ending_address dma_memory_device_handle dma_memory_array_mapped_address_handle dma_partition_row_position dma_interleave_position dma_interleaved_data_depth dma_extended_starting_address dma_extended_ending_address]; fit_step).
Qed.
Lemma BuiltInPointingDevice_fits c r : bytes_inside r -> gives_ok (well_typed BuiltInPointingDevice_parts) (BuiltInPointingDevice_try_from c r).
Proof.
  intros HB. unfold BuiltInPointingDevice_try_from. decode HB; unfold well_typed, BuiltInPointingDevice_parts;
  repeat (cbn [pd_handle pd_type pd_interface pd_number_of_buttons]; fit_step).
Qed.
Lemma PortableBattery_fits c r : bytes_inside r -> gives_ok (well_typed PortableBattery_parts) (PortableBattery_try_from c r).
Proof.
  intros HB. unfold PortableBattery_try_from. decode HB; unfold well_typed, PortableBattery_parts;
  repeat (cbn [battery_handle battery_location battery_manufacturer battery_manufacture_date battery_serial_number battery_device_name battery_device_chemistry battery_design_capacity battery_design_voltage battery_sbds_version_number battery_maximum_error_in_battery_data battery_oem_specific]; fit_step).
Qed.

(* ------------------------------------------------------------ the iterator *)

Lemma strings_fits r : bytes_inside r -> Forall fits_type (StructureStrings_parts (raw_strings r)).
Proof. intros H. apply Forall_app; split; [apply slice_ok, H|repeat constructor]. Qed.

Lemma dispatch_fits c r x : bytes_inside r -> dispatch c r = Val (Ok x) -> well_typed Structure_parts x.
Proof.
  intros HB H. unfold dispatch in H.
  destruct (info r); try (injection H as <-; constructor; [exact I|]; apply raw_fits, HB).
  all: unfold map_ok, omap in H;
    match type of H with obind ?x _ = _ => destruct x as [[a|e]| |] eqn:E; cbn [obind rmap] in H; try discriminate H end;
    injection H as <-; constructor; [exact I|].
  all: first
    [ eapply Bios_fits; eassumption | eapply System_fits; eassumption | eapply BaseBoard_fits; eassumption | eapply Enclosure_fits; eassumption
    | eapply Processor_fits; eassumption | eapply Cache_fits; eassumption | eapply PortConnector_fits; eassumption
    | eapply SystemSlots_fits; eassumption | eapply OemStrings_fits; eassumption | eapply SystemConfigurationOptions_fits; eassumption
    | eapply BiosLanguage_fits; eassumption | eapply GroupAssociations_fits; eassumption | eapply SystemEventLog_fits; eassumption
    | eapply PhysicalMemoryArray_fits; eassumption | eapply MemoryDevice_fits; eassumption | eapply MemoryError32_fits; eassumption
    | eapply MemoryArrayMappedAddress_fits; eassumption | eapply MemoryDeviceMappedAddress_fits; eassumption
    | eapply BuiltInPointingDevice_fits; eassumption | eapply PortableBattery_fits; eassumption ].
Qed.

Lemma framed_inside v buf pos r : all_bytes buf -> Forall fits_type (SmbiosVersion_parts v) -> framed v buf pos r -> bytes_inside r.
Proof.
  intros HB HV (pre & post & k & h0 & h1 & E & _ & L & _ & I & HH & V & A). unfold all_bytes in HB. rewrite E in HB.
  apply Forall_app in HB as [_ HB]. apply Forall_app in HB as [HH4 HB]. apply Forall_app in HB as [HD HB]. apply Forall_app in HB as [HS HP].
  inversion HH4 as [|? ? K T1]; subst. inversion T1 as [|? ? LL T2]; subst. inversion T2 as [|? ? B0 T3]; subst. inversion T3 as [|? ? B1 _]; subst.
  unfold is_byte in *. split.
  - exact HD.
  - rewrite A. apply Forall_app; split; assumption.
  - exact HS.
  - rewrite HH. change (2 ^ 16) with 65536. lia.
  - exact LL.
  - rewrite I. apply InfoType_fits. exact K.
  - exact HV.
Qed.
Lemma next_fits c s x s' : sane s -> Forall fits_type (SmbiosVersion_parts (smbios_version s)) -> next c s = Val (Some (Ok x), s') ->
  well_typed Structure_parts x.
Proof.
  intros HS HV H. apply next_ok in H as [r [F D]]; [|exact HS]. eapply dispatch_fits; [|exact D].
  eapply framed_inside; [apply HS|exact HV|exact F].
Qed.
