(* Structures, entry points and the other values of the library: their streams. *)
From Coq Require Import String.
From Coq Require Import ZArith Lia ZifyBool ZifyNat ZifyN.
From Verif Require Import Base G_Enums M_Raw M_Entry M_Bios M_System M_BaseBoard M_Enclosure M_Processor M_Cache
  M_PortConnector M_SystemSlots M_Strings M_GroupAssociations M_SystemEventLog M_PhysicalMemoryArray M_MemoryDevice
  M_Memory M_PortableBattery M_Iter M_Hash M_Eq M_Stream G_Eq
  Spec S_Iter S_Hash S_Same S_Show S_ShowFields S_Stream L_Base L_Hash L_Eq L_Same L_Origin L_Fits L_ShowFields L_Stream L_GStream L_StreamRead.
Local Open Scope N_scope.

(* ------------------------------------------------------------- plain parts *)

Definition plain_part (p : part) : bool := match p with Peers _ | Descriptors _ | Elements _ => false | _ => true end.
Definition plain_parts (a : list part) : Prop := Forall (fun p => plain_part p = true) a.
Lemma small_plain {A} (e : A -> list part) x : small e -> plain_parts (e x).
Proof. intros H. eapply Forall_impl; [|apply H]. intros [] E; first [reflexivity|discriminate E]. Qed.
Lemma small_sized {A} (e : A -> list part) x : small e -> Forall sized (e x).
Proof. intros H. eapply Forall_impl; [|apply H]. intros [[]| | | | | |] E; first [exact I|discriminate E]. Qed.
Lemma option_plain {A} (e : A -> list part) o : (forall x, plain_parts (e x)) -> plain_parts (option_parts e o).
Proof. intros H. destruct o; cbn [option_parts]; constructor; try reflexivity; [apply H|constructor]. Qed.
Lemma plain_app a b : plain_parts a -> plain_parts b -> plain_parts (a ++ b).
Proof. intros. apply Forall_app. auto. Qed.
Lemma plain_ends a : plain_parts a -> forallb ends a = true.
Proof. induction 1 as [|p a E _ IH]; [reflexivity|]. cbn [forallb]. rewrite IH. destruct p; first [reflexivity|discriminate E]. Qed.
Lemma marked_app a b : plain_parts a -> marked b -> marked (a ++ b).
Proof. induction 1 as [|p a E _ IH]; [auto|]. intros H. cbn [app]. destruct p; cbn [marked]; try discriminate E; auto. Qed.
Lemma closing_app a b : forallb ends a = true -> closing b -> closing (a ++ b).
Proof. induction a as [|p a IH]; [auto|]. cbn [forallb app]. intros E H. apply Bool.andb_true_iff in E as [E1 E2]. destruct p; cbn [closing]; try discriminate E1; auto. Qed.
Lemma plain_marked a : plain_parts a -> marked a.
Proof. intros H. rewrite <- (app_nil_r a). apply marked_app; [exact H|exact I]. Qed.
Lemma plain_closing a : plain_parts a -> closing a.
Proof. intros H. rewrite <- (app_nil_r a). apply closing_app; [apply plain_ends, H|exact I]. Qed.
Lemma slice_plain l : plain_parts (slice l). Proof. repeat constructor. Qed.
Lemma usize_plain n : plain_parts (num Usize n). Proof. repeat constructor. Qed.

Ltac by_small k :=
  match goal with |- _ (?e ?x) => apply (k _ e x) end;
  first [ apply num_small; reflexivity | apply flag_small | apply str_small
        | (apply option_small; first [apply num_small; reflexivity|apply str_small|apply flag_small
             |apply WakeupType_small|apply State_small|apply SecurityStatus_small|apply DeviceAndFunctionNumber_small|apply SlotWidth_small
             |apply LogHeaderFormat_small])
        | apply SmbiosVersion_small | apply InfoType_small | apply EnclosureType_small
        | apply SlotType_small | apply SlotWidth_small | apply CurrentUsage_small | apply SlotLength_small ].
Ltac plainly := repeat (apply plain_app); try (by_small (@small_plain)); try apply slice_plain; try apply usize_plain;
  try (apply option_plain; intros; first [apply slice_plain|apply usize_plain]).
Lemma raw_plain r : plain_parts (RawStructure_parts r). Proof. unfold RawStructure_parts. plainly. Qed.
Lemma strings_plain r : plain_parts (StructureStrings_parts r). Proof. unfold StructureStrings_parts. plainly. Qed.
Lemma access_plain m : plain_parts (AccessMethod_parts m). Proof. destruct m; cbn; repeat constructor. Qed.
Lemma system_plain s : plain_parts (System_parts s). Proof. unfold System_parts. plainly. Qed.
Lemma oem_plain s : plain_parts (OemStrings_parts s). Proof. unfold OemStrings_parts. plainly; apply strings_plain. Qed.
Lemma options_plain s : plain_parts (SystemConfigurationOptions_parts s).
Proof. unfold SystemConfigurationOptions_parts. plainly; apply strings_plain. Qed.
Lemma language_plain s : plain_parts (BiosLanguage_parts s).
Proof. unfold BiosLanguage_parts, InstallableLanguages_parts. plainly; apply raw_plain. Qed.
Lemma group_plain s : plain_parts (GroupAssociations_parts s). Proof. unfold GroupAssociations_parts, GroupItems_parts. plainly. Qed.
Lemma table_plain s : plain_parts (Structures_parts s). Proof. unfold Structures_parts. plainly. Qed.
Lemma entry_plain s : plain_parts (EntryPoint_parts s).
Proof. destruct s; (constructor; [reflexivity|]); unfold EntryPointV2_parts, EntryPointV3_parts; plainly. Qed.

(* the front of the three structures with lists, and the rest *)
Lemma slots_marked s : marked (SystemSlots_parts s) /\ forallb ends (SystemSlots_parts s) = true.
Proof.
  unfold SystemSlots_parts. split.
  - repeat (apply marked_app; [solve [plainly]|]).
    assert (Q : plain_parts ((option_parts (num U8)) (slots_slot_information s) ++ (option_parts SlotWidth_parts) (slots_slot_physical_width s) ++ (option_parts (num U16)) (slots_slot_pitch s))) by plainly.
    apply plain_marked in Q. destruct (slots_slot_information s) as [n|], (slots_peer_devices s) as [p|]; cbn [option_parts peers app marked] in *;
      try (split; [reflexivity|]); try exact Q.
  - repeat (rewrite forallb_app; apply Bool.andb_true_iff; split); try (apply plain_ends; solve [plainly]).
    destruct (slots_peer_devices s); reflexivity.
Qed.
Lemma enclosure_shape s : marked (Enclosure_parts s) /\ closing (Enclosure_parts s) /\
  (enclosure_contained_elements s = None -> forallb ends (Enclosure_parts s) = true).
Proof.
  unfold Enclosure_parts. split; [|split].
  - repeat (apply marked_app; [solve [plainly]|]). destruct (enclosure_contained_elements s), (enclosure_sku_number s); cbn; auto.
  - repeat (apply closing_app; [apply plain_ends; solve [plainly]|]). destruct (enclosure_contained_elements s), (enclosure_sku_number s); cbn [option_parts elements app closing]; unfold str; try exact I; [right; eexists; reflexivity|left; reflexivity].
  - intros E. rewrite E. repeat (rewrite forallb_app; apply Bool.andb_true_iff; split); try (apply plain_ends; solve [plainly]). reflexivity.
Qed.
Lemma log_shape s : marked (SystemEventLog_parts s) /\ closing (SystemEventLog_parts s) /\
  (log_descriptors s = None -> forallb ends (SystemEventLog_parts s) = true).
Proof.
  unfold SystemEventLog_parts. split; [|split].
  - repeat (apply marked_app; [first [solve [plainly]|apply access_plain]|]). destruct (log_descriptors s); cbn; auto.
  - repeat (apply closing_app; [apply plain_ends; first [solve [plainly]|apply access_plain]|]). destruct (log_descriptors s); cbn; auto.
  - intros E. rewrite E. repeat (rewrite forallb_app; apply Bool.andb_true_iff; split); try (apply plain_ends; first [solve [plainly]|apply access_plain]). reflexivity.
Qed.

Lemma structure_shape x : marked (Structure_parts x) /\ closing (Structure_parts x) /\ (~ has_records x -> forallb ends (Structure_parts x) = true).
Proof.
  assert (P : forall k l, plain_parts l -> marked (Tag k :: l) /\ closing (Tag k :: l) /\ (~ has_records x -> forallb ends (Tag k :: l) = true)).
  { intros k l H. cbn [marked closing]. split; [apply plain_marked, H|]. split; [apply plain_closing, H|]. intros _. apply (plain_ends l H). }
  destruct x; cbn [Structure_parts];
    try (apply P; first [ apply raw_plain | apply system_plain | apply oem_plain | apply options_plain | apply language_plain | apply group_plain
      | apply (small_plain Bios_parts), Bios_small | apply (small_plain BaseBoard_parts), BaseBoard_small | apply (small_plain Processor_parts), Processor_small
      | apply (small_plain Cache_parts), Cache_small | apply (small_plain PortConnector_parts), PortConnector_small
      | apply (small_plain MemoryDevice_parts), MemoryDevice_small | apply (small_plain MemoryError32_parts), MemoryError32_small
      | apply (small_plain MemoryArrayMappedAddress_parts), MemoryArrayMappedAddress_small
      | apply (small_plain MemoryDeviceMappedAddress_parts), MemoryDeviceMappedAddress_small
      | apply (small_plain BuiltInPointingDevice_parts), BuiltInPointingDevice_small
      | apply (small_plain PortableBattery_parts), PortableBattery_small | apply (small_plain PhysicalMemoryArray_parts), PhysicalMemoryArray_small ]).
  - destruct (enclosure_shape s) as (M & C & E). cbn [marked closing forallb ends andb has_records]. split; [exact M|]. split; [exact C|].
    intros H. apply E. destruct (enclosure_contained_elements s); [|reflexivity]. destruct H. discriminate.
  - destruct (slots_marked s) as (M & E). cbn [marked closing forallb ends andb has_records]. split; [exact M|]. split; [|auto].
    rewrite <- (app_nil_r (SystemSlots_parts s)). apply closing_app; [exact E|exact I].
  - destruct (log_shape s) as (M & C & E). cbn [marked closing forallb ends andb has_records]. split; [exact M|]. split; [exact C|].
    intros H. apply E. destruct (log_descriptors s); [|reflexivity]. destruct H. discriminate.
Qed.

Lemma solid_good {A} (parts : A -> list part) x : solid parts x -> Forall good (parts x).
Proof. intros [H1 H2]. apply Forall_forall. intros p I. unfold well_typed in H1. rewrite Forall_forall in H1, H2. split; auto. Qed.
Lemma coh_start {A} (e : A -> list part) x y : coh e -> coherent (e x) (e y).
Proof. intros H. rewrite <- (app_nil_r (e x)), <- (app_nil_r (e y)). apply H. exact I. Qed.

Lemma structures_told c big x y : solid Structure_parts x -> solid Structure_parts y ->
  (Structure_stream c big x = Structure_stream c big y <-> Structure_eq x y = true).
Proof.
  intros Sx Sy. unfold Structure_stream. split.
  - intros H. unfold Structure_hash in H. rewrite !stream_parts in H. destruct (structure_shape x) as (Mx & Cx & _), (structure_shape y) as (My & Cy & _).
    apply (read_all c big); try assumption; try (apply solid_good; assumption). apply coh_start, Structure_coh.
  - intros H. apply structure_eq_hash in H. rewrite H. reflexivity.
Qed.
Lemma structures_free c big : prefix_free (fun x => solid Structure_parts x /\ ~ has_records x) Structure_eq (Structure_stream c big).
Proof.
  intros x y l m [Sx Rx] [Sy Ry] H. unfold Structure_stream, Structure_hash in H. rewrite !stream_parts in H.
  destruct (structure_shape x) as (Mx & _ & Ex), (structure_shape y) as (My & _ & Ey).
  apply (read_parts c big); try assumption; try (apply solid_good; assumption); auto. apply coh_start, Structure_coh.
Qed.

(* values of other types *)
Lemma plain_free c big {A} (parts : A -> list part) : coh parts -> (forall x, plain_parts (parts x)) ->
  prefix_free (solid parts) (fun x y => derived_eq (parts x) (parts y)) (fun x => stream c big (derived_hash (parts x))).
Proof.
  intros HC HP x y l m Sx Sy H. rewrite !stream_parts in H.
  apply (read_parts c big); try assumption; try (apply solid_good; assumption); try (apply plain_ends, HP); try (apply plain_marked, HP).
  apply coh_start, HC.
Qed.

(* ---------------------------------------------------- structures of tables *)

Ltac sizes := repeat (apply Forall_app; split); try (by_small (@small_sized)).
Lemma slice_sized l : len l < 2 ^ 32 -> Forall sized (slice l). Proof. intros H. repeat constructor. exact H. Qed.
Lemma raw_sized r : len (data r) < 2 ^ 32 -> len (strings r) < 2 ^ 32 -> Forall sized (RawStructure_parts r).
Proof. intros HD HS. unfold RawStructure_parts. sizes; apply slice_sized; assumption. Qed.
Lemma strings_sized r : len (strings r) < 2 ^ 32 -> Forall sized (StructureStrings_parts (raw_strings r)).
Proof. intros H. apply Forall_app. split; [apply slice_sized, H|]. repeat constructor. Qed.
Lemma access_sized m : Forall sized (AccessMethod_parts m). Proof. destruct m; cbn; repeat constructor. Qed.
Lemma system_sized c r s : System_try_from c r = Val (Ok s) -> Forall sized (System_parts s).
Proof.
  intros H. apply system_uuid_whole in H. unfold System_parts. sizes. destruct (system_uuid s) as [l|]; cbn [option_parts]; constructor; try exact I; [|constructor].
  apply slice_sized. unfold len. rewrite H. reflexivity.
Qed.
Lemma slice_get_length (d : list N) a b l : slice_get d a b = Some l -> len l = b - a /\ len l <= len d.
Proof.
  unfold slice_get. destruct ((a <=? b) && (b <=? len d))%bool eqn:E; [|discriminate]. intros [= <-].
  apply Bool.andb_true_iff in E as [A B]. rewrite len_take, len_drop. lia.
Qed.
Lemma get_slice_inside c o n r l : get_slice c o n r = Val (Some l) -> len l <= len (data r).
Proof.
  unfold get_slice. destruct (u_sub c (usize_bits c) o 4) as [st| |]; cbn [obind]; try discriminate.
  destruct (u_add c (usize_bits c) st n) as [fin| |]; cbn [obind]; try discriminate. intros [= H]. apply slice_get_length in H. apply H.
Qed.
Lemma get_slice_exact c o n r l : 4 <= o -> o - 4 + n < 2 ^ 32 -> get_slice c o n r = Val (Some l) -> len l = n.
Proof.
  intros Ho Hn. unfold get_slice, u_sub, u_add. destruct (4 <=? o) eqn:E; [|lia]. cbn [obind].
  assert (2 ^ 32 <= 2 ^ usize_bits c) by (unfold usize_bits; destruct (pointer_width c); vm_compute; discriminate).
  destruct (o - 4 + n <? 2 ^ usize_bits c) eqn:F; [|lia]. cbn [obind]. intros [= G]. apply slice_get_length in G. lia.
Qed.
Lemma group_sized c r s : len (data r) < 2 ^ 32 -> GroupAssociations_try_from c r = Val (Ok s) -> Forall sized (GroupAssociations_parts s).
Proof.
  intros HD H. unfold GroupAssociations_try_from in H. destruct (u_sub c (usize_bits c) (length_ r) 5) as [n| |]; cbn [obind] in H; try discriminate H.
  destruct (get_slice c 0x05 n r) as [[l|]| |] eqn:E; cbn [obind] in H; try discriminate H. apply get_slice_inside in E.
  destruct (get_string c 0x04 r) as [[t|]| |]; cbn [rbind] in H; try discriminate H. injection H as <-.
  unfold GroupAssociations_parts, GroupItems_parts. cbn [group_handle group_group_name group_items gi_data gi_index].
  sizes; [apply slice_sized; lia|repeat constructor].
Qed.
Lemma slots_sized c r s : bytes_inside r -> SystemSlots_try_from c r = Val (Ok s) -> Forall sized (SystemSlots_parts s).
Proof.
  intros HB H. assert (K : match slots_peer_devices s with Some p => len (peer_chunks p) mod 5 = 0 | None => True end).
  { unfold SystemSlots_try_from in H. cbv zeta in H.
    do 4 (match type of H with (if ?b then _ else _) = _ => destruct b; [discriminate H|] end).
    destruct (get_ok c 1 0x12 r) as [count| |] eqn:EC; cbn [obind] in H; try discriminate H. apply get_ok_range in EC; [|exact HB].
    assert (EN : exists n, n < 256 /\ match count with Some x => x | None => 0 end = n).
    { destruct count as [x|]; [exists x; split; [exact (EC x eq_refl)|reflexivity]|exists 0; split; reflexivity]. }
    destruct EN as [n [HN EN]]. rewrite EN in H. clear EN EC.
    destruct (get_slice c 0x13 (5 * n) r) as [ps| |] eqn:E; bound H; try discriminate H.
    injection H as <-. cbn [slots_peer_devices]. destruct ps as [l|]; cbn [option_map]; [|exact I]. cbn [peer_chunks].
    rewrite (get_slice_exact c 0x13 (5 * n) r l) by (try exact E; lia). rewrite N.mul_comm. apply N.mod_mul. discriminate. }
  unfold SystemSlots_parts. sizes. destruct (slots_peer_devices s); cbn [option_parts peers]; repeat constructor. exact K.
Qed.
Lemma enclosure_sized c r s : Enclosure_try_from c r = Val (Ok s) -> Forall sized (Enclosure_parts s).
Proof.
  intros H. apply enclosure_ok in H. cbn [lists_ok] in H. unfold Enclosure_parts. sizes.
  destruct (enclosure_contained_elements s); cbn [option_parts elements]; repeat constructor. cbn [sized]. apply H. reflexivity.
Qed.
Lemma log_sized c r s : len (data r) < 2 ^ 32 -> SystemEventLog_try_from c r = Val (Ok s) -> Forall sized (SystemEventLog_parts s).
Proof.
  intros HD H. pose proof (log_ok c r s H) as O. cbn [lists_ok] in O.
  assert (K : match log_descriptors s with Some d => len (descriptors_data d) < 2 ^ 32 | None => True end).
  { unfold SystemEventLog_try_from in H. cbv zeta in H.
    destruct (get_ok c 1 0x15 r) as [number| |]; cbn [obind] in H; [|discriminate H..].
    destruct (get_ok c 1 0x16 r) as [length| |]; cbn [obind] in H; [|discriminate H..].
    destruct (_ && _)%bool; [discriminate H|]. destruct (_ && _)%bool.
    { destruct (oand_then _ _); discriminate H. }
    destruct (get c 1 0x0A r) as [[m|]| |]; cbn [rbind] in H; [|discriminate H..].
    destruct (get c 4 0x10 r) as [[a|]| |]; cbn [rbind] in H; [|discriminate H..].
    match type of H with obind ?x _ = _ => destruct x as [ds| |] eqn:E end; cbn [obind] in H; [|discriminate H..].
    assert (K : match ds with Some d => len (descriptors_data d) < 2 ^ 32 | None => True end).
    { destruct number as [n|]; [|injection E as <-; exact I]. destruct length as [l|]; [|injection E as <-; exact I].
      destruct (get_slice c 0x17 (n * l) r) as [[x|]| |] eqn:G; cbn [obind] in E; try discriminate E; [|injection E as <-; exact I].
      unfold EventLogTypeDescriptors_new in E. destruct (l =? 0); cbn [obind] in E; [discriminate E|].
      injection E as <-. cbn [descriptors_data]. apply get_slice_inside in G. lia. }
    clear E. bound H; try discriminate H. injection H as <-. exact K. }
  unfold SystemEventLog_parts. sizes; [apply access_sized|].
  destruct (log_descriptors s); cbn [option_parts descriptors]; repeat constructor; [|exact K]. apply O. reflexivity.
Qed.
Lemma language_sized c r s : len (data r) < 2 ^ 32 -> len (strings r) < 2 ^ 32 -> BiosLanguage_try_from c r = Val (Ok s) -> Forall sized (BiosLanguage_parts s).
Proof.
  intros HD HS H. unfold BiosLanguage_try_from in H. destruct (version_ge (version r) (version_of 2 1)); bound H; try discriminate H; injection H as <-;
    unfold BiosLanguage_parts, InstallableLanguages_parts; cbn [language_handle language_installable_languages language_flags language_current_language InstallableLanguages_new il_structure il_index];
    sizes; try (apply slice_sized; assumption); repeat constructor.
Qed.
Lemma options_sized c r s : len (strings r) < 2 ^ 32 -> SystemConfigurationOptions_try_from c r = Val (Ok s) -> Forall sized (SystemConfigurationOptions_parts s).
Proof.
  intros HS H. unfold SystemConfigurationOptions_try_from in H. bound H; try discriminate H. destruct (negb _); [discriminate H|]. injection H as <-.
  unfold SystemConfigurationOptions_parts. cbn [options_handle options_strings]. sizes; [apply slice_sized, HS|repeat constructor].
Qed.

Lemma dispatch_sized c r x : bytes_inside r -> len (data r) < 2 ^ 32 -> len (strings r) < 2 ^ 32 ->
  dispatch c r = Val (Ok x) -> Forall sized (Structure_parts x).
Proof.
  intros HB HD HS.
  assert (K : forall A (f : A -> Structure) o, map_ok f o = Val (Ok x) -> exists a, o = Val (Ok a) /\ x = f a).
  { intros A f [[a|e]| |] H; try discriminate H. injection H as <-. exists a. auto. }
  unfold dispatch. destruct (info r); intros H; try (apply K in H; destruct H as [a [H ->]]);
    try (injection H as <-; constructor; [exact I|]; apply raw_sized; assumption); cbn [Structure_parts]; (constructor; [exact I|]);
    first [ apply (small_sized Bios_parts), Bios_small | apply (small_sized BaseBoard_parts), BaseBoard_small | apply (small_sized Processor_parts), Processor_small
      | apply (small_sized Cache_parts), Cache_small | apply (small_sized PortConnector_parts), PortConnector_small
      | apply (small_sized MemoryDevice_parts), MemoryDevice_small | apply (small_sized MemoryError32_parts), MemoryError32_small
      | apply (small_sized MemoryArrayMappedAddress_parts), MemoryArrayMappedAddress_small
      | apply (small_sized MemoryDeviceMappedAddress_parts), MemoryDeviceMappedAddress_small
      | apply (small_sized BuiltInPointingDevice_parts), BuiltInPointingDevice_small
      | apply (small_sized PortableBattery_parts), PortableBattery_small | apply (small_sized PhysicalMemoryArray_parts), PhysicalMemoryArray_small
      | eapply system_sized; eassumption | eapply group_sized; eassumption | eapply slots_sized; eassumption | eapply enclosure_sized; eassumption
      | eapply log_sized; eassumption | eapply language_sized; eassumption | eapply options_sized; eassumption | idtac ].
  injection H as <-. unfold OemStrings_parts. cbn [oem_handle oem_strings]. sizes; [apply slice_sized, HS|repeat constructor].
Qed.
Lemma next_solid c s x s' : sane s -> well_typed SmbiosVersion_parts (smbios_version s) -> next c s = Val (Some (Ok x), s') -> solid Structure_parts x.
Proof.
  intros HS HV H. split; [eapply next_fits; eassumption|]. apply next_ok in H as [r [F D]]; [|exact HS].
  pose proof (framed_inside _ _ _ _ (proj1 HS) HV F) as B.
  assert (L : len (data r) < 2 ^ 32 /\ len (strings r) < 2 ^ 32).
  { destruct HS as (_ & _ & HL). destruct F as (pre & post & k & h0 & h1 & E & _). rewrite E in HL. rewrite !len_app in HL. lia. }
  eapply dispatch_sized; [exact B|apply L|apply L|exact D].
Qed.
