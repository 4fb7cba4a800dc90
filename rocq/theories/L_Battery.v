(* Proofs for type 22. *)
From Coq Require Import String.
From Coq Require Import ZArith Lia ZifyBool ZifyNat ZifyN.
From Verif Require Import Base G_Enums M_Raw M_PortableBattery.
From Verif Require Import Spec S_Enums S_Decode S_Memory L_Base L_Strings L_Enums L_Decode L_Slots L_Memory L_EventLog.
Local Open Scope N_scope.
Ltac Zify.zify_post_hook ::= Z.div_mod_to_equations.

Definition basic (r : RawStructure) (off : N) : option text :=
  oand_then (ofilter (fun i => negb (i =? 0)) (field r off 1)) (fun i => ok (find_string r i)).
Lemma basic_string_field c off r : 4 <= off -> off < 2 ^ 31 -> basic_string c off r = Val (basic r off).
Proof.
  intros H1 H2. unfold basic_string. rewrite get_ok_field by (first [lia|change (2 ^ 32) with 4294967296; lia]). reflexivity.
Qed.
Lemma basic_iff r off t : basic r off = Some t <-> numbered r off t.
Proof.
  unfold basic, numbered, field_is. destruct (field r off 1) as [k|]; cbn [ofilter oand_then].
  - destruct (N.eqb_spec k 0) as [->|K]; cbn [negb oand_then].
    + split; [discriminate|]. intros [k [[= <-] [H _]]]. lia.
    + split.
      * intros H. exists k. split; [reflexivity|]. split; [lia|]. destruct (find_string r k) as [t'|] eqn:F; [|discriminate].
        injection H as ->. apply find_string_ok in F. destruct F as [[? _]|[_ F]]; [contradiction|exact F].
      * intros [k' [[= <-] [H S]]]. assert (find_string r k = Ok t) as ->; [|reflexivity].
        apply find_string_ok. right. split; [exact K|exact S].
  - split; [discriminate|]. intros [k [H _]]. discriminate.
Qed.
Lemma basic_none r off : basic r off = None <-> forall t, ~ numbered r off t.
Proof.
  split.
  - intros H t T. apply basic_iff in T. congruence.
  - intros H. destruct (basic r off) as [t|] eqn:E; [|reflexivity]. apply basic_iff in E. destruct (H t E).
Qed.

Lemma date_word w : w < 65536 ->
  N.shiftr (N.land w 0xFE00) 9 + 1980 = 1980 + w / 512 /\
  cast 8 (N.shiftr (N.land w 0x1E0) 5) = w / 32 mod 16 /\ cast 8 (N.land w 0x1F) = w mod 32.
Proof.
  intros H. unfold cast. rewrite !N.shiftr_land. change (N.shiftr 0xFE00 9) with (N.ones 7). change (N.shiftr 0x1E0 5) with (N.ones 4).
  change 0x1F with (N.ones 5). rewrite !N.land_ones, !N.shiftr_div_pow2.
  change (2 ^ 7) with 128. change (2 ^ 9) with 512. change (2 ^ 8) with 256. change (2 ^ 5) with 32. change (2 ^ 4) with 16. lia.
Qed.

Lemma date_iff r d : all_bytes (data r) -> (date_says r d <-> d = ManufactureDate_new (basic r 6) (field r 0x12 2)).
Proof.
  intros HB. unfold date_says, ManufactureDate_new. destruct (basic r 6) as [t|] eqn:B.
  - assert (T := B). apply basic_iff in T. split; [|intros ->; eauto].
    intros [[t' [T' ->]]|[N _]]; [|destruct (N t T)]. apply basic_iff in T'. congruence.
  - assert (T := B). rewrite basic_none in T. unfold field_is. destruct (field r 0x12 2) as [w|] eqn:F.
    + destruct (date_word w (field_lt _ _ _ _ HB F)) as [-> [-> ->]]. split.
      * intros [[t' [T' _]]|[_ [[w' [[= <-] ->]]|[H _]]]]; [destruct (T t' T')|reflexivity|discriminate].
      * intros ->. right. split; [exact T|]. left. eauto.
    + split.
      * intros [[t' [T' _]]|[_ [[w' [H _]]|[_ ->]]]]; [destruct (T t' T')|discriminate|reflexivity].
      * intros ->. right. split; [exact T|]. right. auto.
Qed.
Lemma serial_iff r s : serial_says r s <-> s = SerialNumber_new (basic r 7) (field r 0x10 2).
Proof.
  unfold serial_says, SerialNumber_new. destruct (basic r 7) as [t|] eqn:B.
  - assert (T := B). apply basic_iff in T. split; [|intros ->; eauto].
    intros [[t' [T' ->]]|[N _]]; [|destruct (N t T)]. apply basic_iff in T'. congruence.
  - assert (T := B). rewrite basic_none in T. unfold field_is. destruct (field r 0x10 2) as [w|] eqn:F.
    + split.
      * intros [[t' [T' _]]|[_ [[w' [[= <-] ->]]|[H _]]]]; [destruct (T t' T')|reflexivity|discriminate].
      * intros ->. right. split; [exact T|]. left. eauto.
    + split.
      * intros [[t' [T' _]]|[_ [[w' [H _]]|[_ ->]]]]; [destruct (T t' T')|discriminate|reflexivity].
      * intros ->. right. split; [exact T|]. right. auto.
Qed.

Lemma chemistry_meaning k : k <> 2 -> forall o, DeviceChemistry_new k o = meaning DeviceChemistry_codes Chem_Undefined k.
Proof.
  intros K o. unfold DeviceChemistry_new, meaning, DeviceChemistry_codes. cbn [named]. rewrite !(N.eqb_sym k).
  repeat match goal with |- context [?n =? k] => destruct (N.eqb_spec n k); [first [reflexivity|subst k; contradiction]|] end. reflexivity.
Qed.
Lemma chemistry_iff r k x : field r 0x09 1 = Some k ->
  (chemistry_says r x <-> x = DeviceChemistry_new k (match field r 0x14 1 with Some k => ok (find_string r k) | None => None end)).
Proof.
  intros F. unfold chemistry_says, field_is. rewrite F.
  assert (O := fun o => proj1 (text_if_there_iff r 0x14 o)). assert (O' := proj2 (text_if_there_iff r 0x14 _) eq_refl).
  set (o := match field r 0x14 1 with Some k => ok (find_string r k) | None => None end) in *. clearbody o. unfold text_if_there in O'.
  destruct (N.eq_dec k 2) as [->|K].
  - split.
    + intros [k' [[= <-] [[t [_ [T ->]]]|[[H|H] ->]]]].
      * cbn. destruct O' as [[t' [T' ->]]|[N _]]; [|destruct (N t T)].
        specialize (O (Some t) (or_introl (ex_intro _ t (conj T eq_refl)))). congruence.
      * contradiction.
      * destruct O' as [[t [T _]]|[_ ->]]; [destruct (H t T)|]. reflexivity.
    + intros ->. exists 2. split; [reflexivity|]. destruct O' as [[t [T ->]]|[N ->]].
      * left. exists t. auto.
      * right. auto.
  - rewrite (chemistry_meaning k K). split.
    + intros [k' [[= <-] [[t [H _]]|[_ ->]]]]; [contradiction|reflexivity].
    + intros ->. eauto 6.
Qed.
Lemma capacity_iff r v x : field r 0x0A 2 = Some v -> (capacity_says r x <-> x = DesignCapacity_new v (field r 0x15 1)).
Proof.
  intros F. unfold capacity_says, field_is, DesignCapacity_new. rewrite F. destruct (N.eqb_spec v 0) as [->|V].
  - split; [intros [[_ ->]|[v [[= <-] [H _]]]]; [reflexivity|contradiction]|auto].
  - destruct (field r 0x15 1) as [m|].
    + split; [|intros ->; right; eauto 7].
      intros [[[= E] _]|[v' [[= <-] [_ [[m' [[= <-] ->]]|[H _]]]]]]; [contradiction|reflexivity|discriminate].
    + split; [|intros ->; right; eauto 7].
      intros [[[= E] _]|[v' [[= <-] [_ [[m' [H _]]|[_ ->]]]]]]; [contradiction|discriminate|reflexivity].
Qed.

Definition battery_body (c : cfg) (r : RawStructure) : out (res PortableBattery) :=
    let? location := get_string c 0x04 r in
    let? manufacturer := get_string c 0x05 r in
    let! date_basic := basic_string c 0x06 r in
    let! date_sbds := get_ok c 2 0x12 r in
    let! serial_basic := basic_string c 0x07 r in
    let! serial_sbds := get_ok c 2 0x10 r in
    let? device_name := get_string c 0x08 r in
    let? chemistry := get c 1 0x09 r in
    let! chemistry_sbds := get_string_ok c 0x14 r in
    let? capacity := get c 2 0x0A r in
    let! multiplier := get_ok c 1 0x15 r in
    let? design_voltage := get c 2 0x0C r in
    let? sbds_version_number := get_string c 0x0E r in
    let? maximum_error := get c 1 0x0F r in
    let! oem_specific := get_ok c 4 0x16 r in
    Val (Ok {|
      battery_handle := handle r;
      battery_location := location;
      battery_manufacturer := manufacturer;
      battery_manufacture_date := ManufactureDate_new date_basic date_sbds;
      battery_serial_number := SerialNumber_new serial_basic serial_sbds;
      battery_device_name := device_name;
      battery_device_chemistry := DeviceChemistry_new chemistry chemistry_sbds;
      battery_design_capacity := DesignCapacity_new capacity multiplier;
      battery_design_voltage := design_voltage;
      battery_sbds_version_number := sbds_version_number;
      battery_maximum_error_in_battery_data := maximum_error;
      battery_oem_specific := oem_specific
    |}).
Lemma battery_length c r :
  (stated_ok r (PortableBattery_length (version r)) /\ PortableBattery_try_from c r = battery_body c r) \/
  exists e, stated_error r InfoType_PortableBattery (PortableBattery_length (version r)) e /\ PortableBattery_try_from c r = Val (Err e).
Proof.
  unfold PortableBattery_try_from. fold (battery_body c r). folded (battery_body c r). unfold PortableBattery_length. check_length r.
Qed.

Ltac battery_fields := unfold battery_body; rewrite (basic_string_field _ 6), (basic_string_field _ 7), get_string_ok_field by get_side; gets.

Lemma battery_body_ok c r s : all_bytes (data r) -> (battery_body c r = Val (Ok s) <-> PortableBattery_says r s).
Proof.
  intros HB. battery_fields. split.
  - repeat (get_step; [|intros; discriminate]); get_end.
    intros H. injection H as <-. constructor; cbn -[N.land];
    first [ eapply text_field_found; eassumption
          | apply date_iff; [exact HB|reflexivity] | apply serial_iff; reflexivity
          | eapply chemistry_iff; [eassumption|reflexivity] | eapply capacity_iff; [eassumption|reflexivity]
          | assumption | reflexivity ].
  - intros H. destruct H as [H1 H2 H3 H4 H5 H6 H7 H8 H9 H10 H11 H12].
    destruct s as [s1 s2 s3 s4 s5 s6 s7 s8 s9 s10 s11 s12].
    cbn [battery_handle battery_location battery_manufacturer battery_manufacture_date battery_serial_number battery_device_name battery_device_chemistry battery_design_capacity battery_design_voltage battery_sbds_version_number battery_maximum_error_in_battery_data battery_oem_specific] in *.
    apply date_iff in H4; [|exact HB]. apply serial_iff in H5.
    assert (exists k, field r 0x09 1 = Some k) as [kc FC] by (destruct H7 as [k [F _]]; eauto).
    assert (exists k, field r 0x0A 2 = Some k) as [kd FD] by (destruct H8 as [[F _]|[k [F _]]]; eauto).
    apply (chemistry_iff _ _ _ FC) in H7. apply (capacity_iff _ _ _ FD) in H8. rewrite FC, FD.
    body_bwd_fields. get_end. reflexivity.
Qed.
Lemma battery_body_err c r e : battery_body c r = Val (Err e) <-> first_failure r PortableBattery_needs e.
Proof. unfold PortableBattery_needs. battery_fields. body_err. Qed.
Lemma battery_body_total c r : exists o, battery_body c r = Val o.
Proof. battery_fields. body_total. Qed.
Lemma PortableBattery_ok c r s : all_bytes (data r) ->
  (PortableBattery_try_from c r = Val (Ok s) <-> stated_ok r (PortableBattery_length (version r)) /\ PortableBattery_says r s).
Proof.
  intros HB. destruct (battery_length c r) as [[H ->]|[e [H ->]]].
  - rewrite battery_body_ok by exact HB. tauto.
  - apply stated_ok_not in H. split; [discriminate|tauto].
Qed.
Lemma PortableBattery_err c r e :
  PortableBattery_try_from c r = Val (Err e) <->
  stated_error r InfoType_PortableBattery (PortableBattery_length (version r)) e \/
  (stated_ok r (PortableBattery_length (version r)) /\ first_failure r PortableBattery_needs e).
Proof.
  destruct (battery_length c r) as [[H ->]|[e' [H ->]]].
  - rewrite battery_body_err. split; [auto|]. intros [E|[_ E]]; [|exact E]. destruct (stated_ok_not _ _ _ _ E H).
  - split.
    + intros [= <-]. auto.
    + intros [E|[E _]]; [|destruct (stated_ok_not _ _ _ _ H E)]. f_equal. f_equal. eapply stated_error_det; eassumption.
Qed.
Lemma PortableBattery_total c r : exists o, PortableBattery_try_from c r = Val o.
Proof.
  destruct (battery_length c r) as [[H ->]|[e' [H ->]]]; [apply battery_body_total|eauto].
Qed.

(* ------------------------------------------------------ dates and capacity *)

Lemma date_packs w : w < 65536 -> exists y m d,
  ManufactureDate_new None (Some w) = MD_SmartBatteryDataSpecification y m d /\
  (y - 1980) * 512 + m * 32 + d = w /\ 1980 <= y <= 2107 /\ m < 16 /\ d < 32.
Proof.
  intros H. unfold ManufactureDate_new. destruct (date_word w H) as [-> [-> ->]]. do 3 eexists. split; [reflexivity|]. lia.
Qed.
Lemma capacity_value c v m : DesignCapacity_to_u64 c (DC_Data v m) =
  if v * m <? 65536 then Val (v * m) else if overflow_checks c then Panic else Val ((v * m) mod 65536).
Proof.
  reflexivity.
Qed.
