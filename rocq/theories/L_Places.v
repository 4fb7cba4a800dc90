(* Lemmas for C103: what each reader and each decoder takes from which bytes. *)
From Coq Require Import ZArith Lia ZifyBool ZifyNat ZifyN.
From Coq Require Import String.
From Verif Require Import Base G_Enums M_Raw M_Entry M_Bios M_System M_BaseBoard M_Enclosure M_Processor M_Cache M_PortConnector.
From Verif Require Import M_SystemSlots M_Strings M_GroupAssociations M_SystemEventLog M_PhysicalMemoryArray M_MemoryDevice M_Memory.
From Verif Require Import M_PortableBattery M_Iter M_Flags G_Show Spec S_Iter S_ShowFields S_Flags S_Places L_Base.
Ltac Zify.zify_post_hook ::= Z.div_mod_to_equations.
Local Open Scope N_scope.

(* -------------------------------------------------- lists that differ in places *)

Section Differ.
Variable D : N -> Prop.

Definition clear (a w : N) : Prop := forall k, a <= k -> k < a + w -> ~ D k.
Definition clear_from (a : N) : Prop := forall k, a <= k -> ~ D k.
Definition alike (o : N) (d d' : list N) : Prop :=
  length d = length d' /\ forall k, ~ D (o + N.of_nat k) -> nth_error d k = nth_error d' k.

Lemma alike_len o d d' : alike o d d' -> len d = len d'.
Proof. intros [H _]. unfold len. lia. Qed.
Lemma list_ext (l l' : list N) : length l = length l' -> (forall k, (k < length l)%nat -> nth_error l k = nth_error l' k) -> l = l'.
Proof.
  revert l'. induction l as [|x l IH]; intros [|x' l'] HL H; cbn in *; try lia; [reflexivity|].
  f_equal; [|apply IH; [lia|]]; [specialize (H 0%nat); cbn in H; assert (X := H ltac:(lia)); congruence|].
  intros k HK. exact (H (S k) ltac:(lia)).
Qed.
Lemma alike_clear o d d' : alike o d d' -> clear_from o -> d = d'.
Proof. intros [HL H] HC. apply list_ext; [exact HL|]. intros k _. apply H, HC. lia. Qed.
Lemma alike_drop o n d d' : alike o d d' -> alike (o + n) (drop n d) (drop n d').
Proof.
  intros [HL H]. split; [unfold drop; rewrite !skipn_length; lia|].
  intros k HK. rewrite !nth_error_drop. apply H. replace (o + N.of_nat (N.to_nat n + k)) with (o + n + N.of_nat k) by lia. exact HK.
Qed.
Lemma alike_app o d d' e : alike o d d' -> alike o (d ++ e) (d' ++ e).
Proof.
  intros [HL H]. split; [rewrite !app_length; lia|]. intros k HK. destruct (Nat.ltb_spec k (length d)) as [L|L].
  - rewrite !nth_error_app1 by lia. apply H, HK.
  - rewrite !nth_error_app2 by lia. rewrite HL. reflexivity.
Qed.
Lemma alike_take o n d d' : alike o d d' -> alike o (take n d) (take n d').
Proof.
  intros [HL H]. unfold take. split; [rewrite !firstn_length; lia|]. intros k HK. destruct (Nat.ltb_spec k (N.to_nat n)) as [L|L].
  - assert (X : forall l : list N, nth_error (firstn (N.to_nat n) l) k = nth_error l k).
    { intros l. revert l L. generalize (N.to_nat n). clear. induction k as [|k IH]; intros [|m] [|x l] L; cbn; try lia; try reflexivity.
      apply IH. lia. }
    rewrite !X. apply H, HK.
  - rewrite !(proj2 (nth_error_None _ _)); try reflexivity; rewrite firstn_length; lia.
Qed.
Lemma alike_slice o a w d d' : alike o d d' -> clear (o + a) w -> take w (drop a d) = take w (drop a d').
Proof.
  intros HA HC. pose proof (alike_take (o + a) w _ _ (alike_drop o a d d' HA)) as [HL H]. apply list_ext; [exact HL|].
  intros k HK. apply H, HC; [lia|]. unfold take in HK. rewrite firstn_length in HK. lia.
Qed.
Lemma alike_at o a w p p' : alike o p p' -> clear (o + a) w -> at_ a w p = at_ a w p'.
Proof. intros HA HC. unfold at_. rewrite (alike_slice o a w p p' HA HC). reflexivity. Qed.
Lemma alike_slice_get o a b d d' : alike o d d' -> clear (o + a) (b - a) -> slice_get d a b = slice_get d' a b.
Proof.
  intros HA HC. unfold slice_get. rewrite (alike_len o d d' HA), (alike_slice o a (b - a) d d' HA HC). reflexivity.
Qed.

(* ---------------------------------------------------- runs that both succeed *)

Definition bothv {A B} (R : A -> B -> Prop) (m : out A) (m' : out B) : Prop :=
  forall x y, m = Val x -> m' = Val y -> R x y.
Definition both {A B} (R : A -> B -> Prop) (m : out (res A)) (m' : out (res B)) : Prop :=
  forall x y, m = Val (Ok x) -> m' = Val (Ok y) -> R x y.

Lemma both_val {A B} (R : A -> B -> Prop) x y : R x y -> both R (Val (Ok x)) (Val (Ok y)).
Proof. intros H a b [= <-] [= <-]. exact H. Qed.
Lemma bothv_val {A B} (R : A -> B -> Prop) x y : R x y -> bothv R (Val x) (Val y).
Proof. intros H a b [= <-] [= <-]. exact H. Qed.
Lemma both_obind {A A' B B'} (R : A -> A' -> Prop) (S : B -> B' -> Prop) m m' (k : A -> out (res B)) (k' : A' -> out (res B')) :
  bothv R m m' -> (forall x y, R x y -> both S (k x) (k' y)) -> both S (obind m k) (obind m' k').
Proof.
  intros HM HK a b. destruct m as [x| |]; cbn [obind]; try discriminate. destruct m' as [y| |]; cbn [obind]; try discriminate.
  exact (HK x y (HM x y eq_refl eq_refl) a b).
Qed.
Lemma bothv_obind {A A' B B'} (R : A -> A' -> Prop) (S : B -> B' -> Prop) m m' (k : A -> out B) (k' : A' -> out B') :
  bothv R m m' -> (forall x y, R x y -> bothv S (k x) (k' y)) -> bothv S (obind m k) (obind m' k').
Proof.
  intros HM HK a b. destruct m as [x| |]; cbn [obind]; try discriminate. destruct m' as [y| |]; cbn [obind]; try discriminate.
  exact (HK x y (HM x y eq_refl eq_refl) a b).
Qed.
Lemma both_rbind {A A' B B'} (R : A -> A' -> Prop) (S : B -> B' -> Prop) m m' (k : A -> out (res B)) (k' : A' -> out (res B')) :
  both R m m' -> (forall x y, R x y -> both S (k x) (k' y)) -> both S (rbind m k) (rbind m' k').
Proof.
  intros HM HK a b. destruct m as [[x|e]| |]; cbn; try discriminate. destruct m' as [[y|e]| |]; cbn; try discriminate.
  exact (HK x y (HM x y eq_refl eq_refl) a b).
Qed.

(* ------------------------------------------------------------- the readers *)

Section Readers.
Variables (c : cfg) (r : RawStructure) (d : list N).
Hypothesis HA : alike 4 (data r) d.
Let r' := with_data d r.

Lemma packed_alike n : bothv (alike 4) (read_packed c n r) (read_packed c n r').
Proof.
  intros p p'. unfold read_packed, r', with_data; cbn [data after]. rewrite !len_app, (alike_len 4 _ _ HA).
  destruct (n <=? len d); [intros [= <-] [= <-]; apply alike_take, HA|].
  destruct (flat_memory c && (n <=? len d + len (after r)))%bool; [|discriminate].
  intros [= <-] [= <-]. apply alike_take, alike_app, HA.
Qed.
Lemma find_alike i i' : both (fun x y => i = i' -> x = y) (Val (find_string r i)) (Val (find_string r' i')).
Proof. intros x y H H' <-. change (find_string r' i) with (find_string r i) in H'. congruence. Qed.
Lemma u_add_le w a b s : u_add c w a b = Val s -> s <= a + b.
Proof.
  unfold u_add. destruct (a + b <? 2 ^ w); [intros [= <-]; lia|]. destruct (overflow_checks c); [discriminate|].
  intros [= <-]. apply N.mod_le. apply N.pow_nonzero. discriminate.
Qed.
Lemma clear_less a w w' : clear a w -> w' <= w -> clear a w'.
Proof. intros H L k H1 H2. apply H; lia. Qed.
Lemma clear_later a a' w : clear_from a -> a <= a' -> clear a' w.
Proof. intros H L k H1 _. apply H. lia. Qed.
Lemma get_same w off : 4 <= off -> clear off w -> get c w off r = get c w off r'.
Proof.
  intros HO HC. unfold get, u_sub. destruct (N.leb_spec 4 off) as [_|L]; [|lia]. cbn [obind].
  destruct (u_add c (usize_bits c) (off - 4) w) as [b| |] eqn:E; cbn [obind]; try reflexivity.
  change (data r') with d. rewrite (alike_slice_get 4 (off - 4) b (data r) d HA); [reflexivity|].
  replace (4 + (off - 4)) with off by lia. eapply clear_less; [exact HC|]. apply u_add_le in E. lia.
Qed.
Lemma slice_same off n : 4 <= off -> clear off n -> get_slice c off n r = get_slice c off n r'.
Proof.
  intros HO HC. unfold get_slice, u_sub. destruct (N.leb_spec 4 off) as [_|L]; [|lia]. cbn [obind].
  destruct (u_add c (usize_bits c) (off - 4) n) as [b| |] eqn:E; cbn [obind]; try reflexivity.
  change (data r') with d. rewrite (alike_slice_get 4 (off - 4) b (data r) d HA); [reflexivity|].
  replace (4 + (off - 4)) with off by lia. eapply clear_less; [exact HC|]. apply u_add_le in E. lia.
Qed.
Lemma get_string_same off : 4 <= off -> clear off 1 -> get_string c off r = get_string c off r'.
Proof. intros HO HC. unfold get_string. rewrite (get_same 1 off HO HC). reflexivity. Qed.

Lemma both_same {A} (P : Prop) (m m' : out (res A)) : (P -> m = m') -> both (fun x y => P -> x = y) m m'.
Proof. intros H x y E E' HP. rewrite (H HP) in E. congruence. Qed.
Lemma bothv_same {A} (P : Prop) (m m' : out A) : (P -> m = m') -> bothv (fun x y => P -> x = y) m m'.
Proof. intros H x y E E' HP. rewrite (H HP) in E. congruence. Qed.
Lemma get_alike w off : 4 <= off -> both (fun x y => clear off w -> x = y) (get c w off r) (get c w off r').
Proof. intros HO. apply both_same, get_same, HO. Qed.
Lemma get_string_alike off : 4 <= off -> both (fun x y => clear off 1 -> x = y) (get_string c off r) (get_string c off r').
Proof. intros HO. apply both_same, get_string_same, HO. Qed.
Lemma get_ok_alike w off : 4 <= off -> bothv (fun x y => clear off w -> x = y) (get_ok c w off r) (get_ok c w off r').
Proof. intros HO. apply bothv_same. intros HC. unfold get_ok. rewrite (get_same w off HO HC). reflexivity. Qed.
Lemma get_string_ok_alike off : 4 <= off -> bothv (fun x y => clear off 1 -> x = y) (get_string_ok c off r) (get_string_ok c off r').
Proof. intros HO. apply bothv_same. intros HC. unfold get_string_ok. rewrite (get_string_same off HO HC). reflexivity. Qed.
Lemma basic_string_alike off : 4 <= off -> bothv (fun x y => clear off 1 -> x = y) (basic_string c off r) (basic_string c off r').
Proof. intros HO. apply bothv_same. intros HC. unfold basic_string, get_ok. rewrite (get_same 1 off HO HC). reflexivity. Qed.
End Readers.

(* ------------------------------------------------------------------ fields *)

Lemma clear_in ps a w : existsb (fun p => match p with Bytes f n => (f <=? a) && (a + w <=? f + n) | From f => f <=? a end)%bool ps = true ->
  untouched D ps -> clear a w.
Proof.
  intros H U k H1 H2. apply existsb_exists in H as [p [HI HP]]. apply (U p k HI).
  destruct p as [f n|f]; cbn [in_place]; lia.
Qed.
Lemma clear_from_in ps a : existsb (fun p => match p with Bytes f n => false | From f => f <=? a end)%bool ps = true ->
  untouched D ps -> clear_from a.
Proof.
  intros H U k H1. apply existsb_exists in H as [p [HI HP]]. apply (U p k HI). destruct p as [f n|f]; [discriminate|cbn [in_place]; lia].
Qed.

Inductive aligned : list (string * shown_as) -> list (string * shown_as) -> list (string * list place) -> Prop :=
| aligned_nil : aligned [] [] []
| aligned_cons n v v' ps fs fs' t : (untouched D ps -> v = v') -> aligned fs fs' t -> aligned ((n, v) :: fs) ((n, v') :: fs') ((n, ps) :: t).
Lemma aligned_names fs fs' t : aligned fs fs' t -> map fst fs = map fst t /\ map fst fs' = map fst t.
Proof. induction 1 as [|n v v' ps fs fs' t H H' [IH IH']]; cbn; [split; reflexivity|]. split; f_equal; assumption. Qed.
Lemma aligned_field fs fs' t n v v' ps : aligned fs fs' t -> NoDup (map fst t) ->
  In (n, v) fs -> In (n, v') fs' -> In (n, ps) t -> untouched D ps -> v = v'.
Proof.
  induction 1 as [|m w w' qs fs fs' t H H' IH]; intros ND; [intros []|]. cbn in ND. inversion ND as [|? ? NI ND']; subst.
  destruct (aligned_names fs fs' t H') as [E E'].
  assert (X : forall (A : Type) (a : A) l, In (m, a) l -> map fst l = map fst t -> False).
  { intros A a l HI HM. apply NI. rewrite <- HM. exact (in_map fst l (m, a) HI). }
  intros [I1|I1] [I2|I2] [I3|I3] U;
    repeat match goal with H : (_, _) = (_, _) |- _ => injection H; clear H; intros; subst end;
    try (exfalso; eapply X; [eassumption|first [assumption|reflexivity]]).
  - exact (H U).
  - exact (IH ND' I1 I2 I3 U).
Qed.
End Differ.

(* -------------------------------------------------------------- the decoders *)
Definition flds (x : shown_as) : list (string * shown_as) := match x with As_struct _ fs => fs | _ => [] end.

(* values of which the first byte matters only *)
Lemma low_mod a p m : 256 mod m = 0 -> m <> 0 -> at_ a 2 p mod m = at_ a 1 p mod m.
Proof.
  intros HM HZ. unfold at_, take. change (N.to_nat 2) with 2%nat. change (N.to_nat 1) with 1%nat.
  destruct (drop a p) as [|x [|y l]]; cbn [firstn le]; try reflexivity.
  assert (X : exists q, 256 = q * m) by (exists (256 / m); pose proof (N.div_mod 256 m HZ); lia). destruct X as [q X]. rewrite X.
  replace (x + q * m * (y + q * m * 0)) with (x + (q * (y + q * m * 0)) * m) by lia.
  replace (x + q * m * 0) with x by lia. apply N.mod_add, HZ.
Qed.
Lemma sram_low a p : CacheSramType_truncate (at_ a 2 p) = CacheSramType_truncate (at_ a 1 p).
Proof.
  unfold CacheSramType_truncate. change 0x7F with (N.ones 7). rewrite !N.land_ones. apply low_mod; [reflexivity|discriminate].
Qed.
Lemma modes_low x : OperatingModes_truncate x = N.land (x mod 2 ^ 6) 0x3E.
Proof. unfold OperatingModes_truncate. rewrite <- N.land_ones, <- N.land_assoc. reflexivity. Qed.
Lemma get_modes_alike D c r d : alike D 4 (data r) d -> bothv (fun x y => clear D 0x29 1 -> option_map OperatingModes_truncate x = option_map OperatingModes_truncate y)
  (get_ok c 2 0x29 r) (get_ok c 2 0x29 (with_data d r)).
Proof.
  intros HA x y. unfold get_ok, get, u_sub. change (4 <=? 0x29) with true. cbn [obind].
  destruct (u_add c (usize_bits c) (0x29 - 4) 2) as [b| |]; cbn [obind omap]; try discriminate.
  change (data (with_data d r)) with d. change (0x29 - 4) with 0x25. unfold slice_get. rewrite (alike_len D 4 _ _ HA).
  destruct ((0x25 <=? b) && (b <=? len d))%bool; [|intros [= <-] [= <-] _; reflexivity].
  pose proof (alike_take D 0x29 (b - 0x25) _ _ (alike_drop D 4 0x25 _ _ HA)) as HS. revert HS.
  generalize (take (b - 0x25) (drop 0x25 (data r))) (take (b - 0x25) (drop 0x25 d)). intros s s' HS.
  rewrite (alike_len _ _ _ _ HS). destruct (N.eqb_spec (len s') 2) as [L|L]; cbn [ok]; intros [= <-] [= <-]; [|reflexivity].
  intros HC. cbn [option_map]. f_equal. rewrite !modes_low. f_equal.
  pose proof (alike_at D 0x29 0 1 s s' HS HC) as X.
  assert (Y : forall l, len l = 2 -> le l mod 2 ^ 6 = at_ 0 1 l mod 2 ^ 6).
  { intros l HL. rewrite <- low_mod by (reflexivity || discriminate). f_equal. unfold at_, take, drop. rewrite firstn_all2; [reflexivity|].
    cbn [N.to_nat skipn]. unfold len in HL. lia. }
  pose proof (alike_len _ _ _ _ HS) as HL. rewrite !Y by congruence. rewrite X. reflexivity.
Qed.

Ltac clr := first [ eapply clear_in; [|eassumption]; reflexivity | eapply clear_from_in; [|eassumption]; reflexivity ].
Ltac field :=
  intros ?; try reflexivity; unfold processor_family_or_2;
  repeat match goal with
  | H : alike ?D 4 ?p ?p' |- context [at_ ?a ?w ?p] => rewrite (alike_at D 4 a w p p' H) by clr
  | H : alike ?D 4 ?p ?p' |- context [take ?w (drop ?a ?p)] => rewrite (alike_slice D 4 a w p p' H) by clr
  | H : _ -> ?x = ?y |- context [?x] => rewrite H by first [ clr | eapply alike_at; [eassumption|clr] ]
  end; try reflexivity.
Ltac follow :=
  match goal with
  | |- both _ (obind (read_packed _ _ _) _) _ => eapply both_obind; [apply packed_alike; eassumption|intros ? ? ?; cbv beta in *]
  | |- both _ (rbind (Val (find_string _ _)) _) _ => eapply both_rbind; [apply find_alike|intros ? ? ?; cbv beta in *]
  | |- both _ (rbind (get _ _ _ _) _) _ => eapply both_rbind; [apply get_alike; [eassumption|vm_compute; discriminate]|intros ? ? ?; cbv beta in *]
  | |- both _ (rbind (get_string _ _ _) _) _ => eapply both_rbind; [apply get_string_alike; [eassumption|vm_compute; discriminate]|intros ? ? ?; cbv beta in *]
  | |- both _ (obind (get_ok _ 2 41 _) _) _ => eapply both_obind; [apply get_modes_alike; eassumption|intros ? ? ?; cbv beta in *]
  | |- both _ (obind (get_ok _ _ _ _) _) _ => eapply both_obind; [apply get_ok_alike; [eassumption|vm_compute; discriminate]|intros ? ? ?; cbv beta in *]
  | |- both _ (obind (get_string_ok _ _ _) _) _ => eapply both_obind; [apply get_string_ok_alike; [eassumption|vm_compute; discriminate]|intros ? ? ?; cbv beta in *]
  | |- both _ (obind (basic_string _ _ _) _) _ => eapply both_obind; [apply basic_string_alike; [eassumption|vm_compute; discriminate]|intros ? ? ?; cbv beta in *]
  | |- both _ (if ?b then _ else _) (if ?b then _ else _) => destruct b
  | |- both _ (Val (Ok _)) (Val (Ok _)) => apply both_val
  | |- both _ (Val (Err _)) _ => intros ? ? ?; discriminate
  | |- both _ Panic _ => intros ? ? ?; discriminate
  end.
Ltac fields := repeat (apply aligned_cons; [solve [field]|]); apply aligned_nil.

Section Types.
Variables (D : N -> Prop) (c : cfg) (r : RawStructure) (d : list N).
Hypothesis HA : alike D 4 (data r) d.
Let r' := with_data d r.
Lemma same_len : len d = len (data r).
Proof. symmetry. exact (alike_len D 4 _ _ HA). Qed.

Lemma Bios_aligned : both (fun x y => aligned D (flds (Bios_contents x)) (flds (Bios_contents y)) (places (version r) InfoType_Bios))
  (Bios_try_from c r) (Bios_try_from c r').
Proof.
  unfold Bios_try_from. change (version r') with (version r). change (handle r') with (handle r). change (length_ r') with (length_ r).
  change (data r') with d. rewrite ?same_len. repeat follow; cbv beta iota delta [flds Bios_contents places bios_handle bios_vendor bios_bios_version bios_starting_address_segment bios_release_date bios_rom_size bios_characteristics bios_characteristics_extension_1 bios_characteristics_extension_2 bios_revision bios_firmware_revision]; fields.
Qed.

Lemma System_aligned : both (fun x y => aligned D (flds (System_contents x)) (flds (System_contents y)) (places (version r) InfoType_System))
  (System_try_from c r) (System_try_from c r').
Proof.
  unfold System_try_from. change (version r') with (version r). change (handle r') with (handle r). change (length_ r') with (length_ r).
  change (data r') with d. rewrite ?same_len. repeat follow; cbv beta iota delta [flds System_contents places system_handle system_manufacturer system_product system_version system_serial system_uuid system_wakeup system_sku system_family]; fields.
Qed.

Lemma Processor_aligned : both (fun x y => aligned D (flds (Processor_contents x)) (flds (Processor_contents y)) (places (version r) InfoType_Processor))
  (Processor_try_from c r) (Processor_try_from c r').
Proof.
  unfold Processor_try_from. change (version r') with (version r). change (handle r') with (handle r). change (length_ r') with (length_ r).
  change (data r') with d. rewrite ?same_len. repeat follow; cbv beta iota delta [flds Processor_contents places processor_handle processor_socket_designation processor_processor_type processor_processor_family processor_processor_manufacturer processor_processor_id processor_processor_version processor_voltage processor_external_clock processor_max_speed processor_current_speed processor_status processor_processor_upgrade processor_l1_cache_handle processor_l2_cache_handle processor_l3_cache_handle processor_serial_number processor_asset_tag processor_part_number processor_core_count processor_core_enabled processor_thread_count processor_processor_characteristics]; fields.
Qed.

Lemma PortConnector_aligned : both (fun x y => aligned D (flds (PortConnector_contents x)) (flds (PortConnector_contents y)) (places (version r) InfoType_PortConnector))
  (PortConnector_try_from c r) (PortConnector_try_from c r').
Proof.
  unfold PortConnector_try_from. change (version r') with (version r). change (handle r') with (handle r). change (length_ r') with (length_ r).
  change (data r') with d. rewrite ?same_len. repeat follow; cbv beta iota delta [flds PortConnector_contents places port_handle port_internal_reference_designator port_internal_connector_type port_external_reference_designator port_external_connector_type port_port_type]; fields.
Qed.

Lemma MemoryDevice_aligned : both (fun x y => aligned D (flds (MemoryDevice_contents x)) (flds (MemoryDevice_contents y)) (places (version r) InfoType_MemoryDevice))
  (MemoryDevice_try_from c r) (MemoryDevice_try_from c r').
Proof.
  unfold MemoryDevice_try_from. change (version r') with (version r). change (handle r') with (handle r). change (length_ r') with (length_ r).
  change (data r') with d. rewrite ?same_len. repeat follow; cbv beta iota delta [flds MemoryDevice_contents places memdev_handle memdev_physical_memory_handle memdev_memory_error_handle memdev_total_width memdev_data_width memdev_size memdev_form_factor memdev_device_set memdev_device_locator memdev_bank_locator memdev_memory_type memdev_type_detail memdev_speed memdev_manufacturer memdev_serial memdev_asset_tag memdev_part_number memdev_attributes memdev_extended_size memdev_configured_memory_speed memdev_minimum_voltage memdev_maximum_voltage memdev_configured_voltage memdev_memory_technology memdev_operating_mode_capability memdev_firmware_version memdev_module_manufacturer memdev_module_product_id memdev_memory_subsystem_controller_manufacturer_id memdev_memory_subsystem_controller_product_id memdev_non_volatile_size memdev_volatile_size memdev_cache_size memdev_logical_size memdev_extended_speed memdev_extended_configured_memory_speed]; fields.
Qed.

Lemma MemoryError32_aligned : both (fun x y => aligned D (flds (MemoryError32_contents x)) (flds (MemoryError32_contents y)) (places (version r) InfoType_MemoryError32))
  (MemoryError32_try_from c r) (MemoryError32_try_from c r').
Proof.
  unfold MemoryError32_try_from. change (version r') with (version r). change (handle r') with (handle r). change (length_ r') with (length_ r).
  change (data r') with d. rewrite ?same_len. repeat follow; cbv beta iota delta [flds MemoryError32_contents places me_handle me_error_type me_error_granularity me_error_operation me_vendor_syndrome me_memory_array_error_address me_device_error_address me_error_resolution]; fields.
Qed.

Lemma MemoryArrayMappedAddress_aligned : both (fun x y => aligned D (flds (MemoryArrayMappedAddress_contents x)) (flds (MemoryArrayMappedAddress_contents y)) (places (version r) InfoType_MemoryArrayMappedAddress))
  (MemoryArrayMappedAddress_try_from c r) (MemoryArrayMappedAddress_try_from c r').
Proof.
  unfold MemoryArrayMappedAddress_try_from. change (version r') with (version r). change (handle r') with (handle r). change (length_ r') with (length_ r).
  change (data r') with d. rewrite ?same_len. repeat follow; cbv beta iota delta [flds MemoryArrayMappedAddress_contents places ama_handle ama_starting_address ama_ending_address ama_memory_array_handle ama_partition_width ama_extended_starting_address ama_extended_ending_address]; fields.
Qed.

Lemma MemoryDeviceMappedAddress_aligned : both (fun x y => aligned D (flds (MemoryDeviceMappedAddress_contents x)) (flds (MemoryDeviceMappedAddress_contents y)) (places (version r) InfoType_MemoryDeviceMappedAddress))
  (MemoryDeviceMappedAddress_try_from c r) (MemoryDeviceMappedAddress_try_from c r').
Proof.
  unfold MemoryDeviceMappedAddress_try_from. change (version r') with (version r). change (handle r') with (handle r). change (length_ r') with (length_ r).
  change (data r') with d. rewrite ?same_len. repeat follow; cbv beta iota delta [flds MemoryDeviceMappedAddress_contents places dma_handle dma_starting_address dma_ending_address dma_memory_device_handle dma_memory_array_mapped_address_handle dma_partition_row_position dma_interleave_position dma_interleaved_data_depth dma_extended_starting_address dma_extended_ending_address]; fields.
Qed.

Lemma BuiltInPointingDevice_aligned : both (fun x y => aligned D (flds (BuiltInPointingDevice_contents x)) (flds (BuiltInPointingDevice_contents y)) (places (version r) InfoType_BuiltInPointingDevice))
  (BuiltInPointingDevice_try_from c r) (BuiltInPointingDevice_try_from c r').
Proof.
  unfold BuiltInPointingDevice_try_from. change (version r') with (version r). change (handle r') with (handle r). change (length_ r') with (length_ r).
  change (data r') with d. rewrite ?same_len. repeat follow; cbv beta iota delta [flds BuiltInPointingDevice_contents places pd_handle pd_type pd_interface pd_number_of_buttons]; fields.
Qed.

Lemma PortableBattery_aligned : both (fun x y => aligned D (flds (PortableBattery_contents x)) (flds (PortableBattery_contents y)) (places (version r) InfoType_PortableBattery))
  (PortableBattery_try_from c r) (PortableBattery_try_from c r').
Proof.
  unfold PortableBattery_try_from. change (version r') with (version r). change (handle r') with (handle r). change (length_ r') with (length_ r).
  change (data r') with d. rewrite ?same_len. repeat follow; cbv beta iota delta [flds PortableBattery_contents places battery_handle battery_location battery_manufacturer battery_manufacture_date battery_serial_number battery_device_name battery_device_chemistry battery_design_capacity battery_design_voltage battery_sbds_version_number battery_maximum_error_in_battery_data battery_oem_specific]; fields.
Qed.


Lemma Cache_aligned : both (fun x y => aligned D (flds (Cache_contents x)) (flds (Cache_contents y)) (places (version r) InfoType_Cache))
  (Cache_try_from c r) (Cache_try_from c r').
Proof.
  unfold Cache_try_from. change (version r') with (version r). change (handle r') with (handle r).
  repeat first [ follow | match goal with |- both _ (obind (CacheConfiguration_from ?a) _) (obind (CacheConfiguration_from ?b) _) =>
    eapply both_obind; [apply (bothv_same (a = b)); intros ->; reflexivity|intros ? ? ?; cbv beta in *] end ]; rewrite ?sram_low; cbv beta iota delta [flds Cache_contents places cache_handle cache_socket_designation cache_cache_configuration cache_maximum_cache_size cache_installed_size cache_supported_sram_type cache_current_sram_type cache_cache_speed cache_error_correction_type cache_system_cache_type cache_associativity cache_maximum_cache_size_2 cache_installed_size_2]; fields.
Qed.

Lemma BaseBoard_aligned : both (fun x y => aligned D (flds (BaseBoard_contents x)) (flds (BaseBoard_contents y)) (places (version r) InfoType_BaseBoard))
  (BaseBoard_try_from c r) (BaseBoard_try_from c r').
Proof.
  unfold BaseBoard_try_from. change (handle r') with (handle r). change (data r') with d. rewrite !same_len. follow.
  repeat first [ follow | match goal with |- both _ (rbind (some_if ?b (find_string _ ?i)) _) (rbind (some_if ?b (find_string _ ?j)) _) =>
    eapply both_rbind; [apply (both_same (i = j)); intros ->; reflexivity|intros ? ? ?; cbv beta in *] end ];
  cbv zeta; cbv beta iota delta [flds BaseBoard_contents places baseboard_handle baseboard_manufacturer baseboard_product baseboard_version baseboard_serial baseboard_asset baseboard_feature_flags baseboard_location_in_chassis baseboard_chassis_handle baseboard_board_type]; fields.
Qed.

(* readings one behind the other *)
Definition read_alike (o w : N) (a b : option (N * list N)) : Prop :=
  match a, b with
  | None, None => True
  | Some (n, e), Some (n', e') => (clear D o w -> n = n') /\ alike D (o + w) e e'
  | _, _ => False
  end.
Lemma read_bytes_alike o w e e' : alike D o e e' -> read_alike o w (read_bytes w e) (read_bytes w e').
Proof.
  intros H. unfold read_bytes. rewrite (alike_len D o e e' H). destruct (len e' <? w); [exact I|]. split.
  - intros HC. pose proof (alike_slice D o 0 w e e' H) as X. rewrite N.add_0_r in X. specialize (X HC).
    unfold drop in X. cbn [N.to_nat skipn] in X. rewrite X. reflexivity.
  - apply alike_drop, H.
Qed.
Lemma read_next_alike o w o' w' a b : read_alike o w a b -> o' = o + w ->
  read_alike o' w' (oand_then a (fun '(_, e) => read_bytes w' e)) (oand_then b (fun '(_, e) => read_bytes w' e)).
Proof.
  intros H ->. destruct a as [[n e]|], b as [[n' e']|]; try contradiction; cbn [oand_then]; [|exact I].
  apply read_bytes_alike, H.
Qed.
Lemma read_alike_value {B} (f : N -> B) o w a b : read_alike o w a b -> clear D o w ->
  option_map (fun x => f (fst x)) a = option_map (fun x => f (fst x)) b.
Proof.
  intros H HC. destruct a as [[n e]|], b as [[n' e']|]; try contradiction; cbn; [|reflexivity].
  rewrite (proj1 H HC). reflexivity.
Qed.
Lemma read_alike_fst o w a b : read_alike o w a b -> clear D o w -> option_map fst a = option_map fst b.
Proof. exact (read_alike_value (fun x => x) o w a b). Qed.


Lemma Enclosure_aligned : both (fun x y => aligned D (flds (Enclosure_contents c x)) (flds (Enclosure_contents c y)) (places (version r) InfoType_Enclosure))
  (Enclosure_try_from c r) (Enclosure_try_from c r').
Proof.
  unfold Enclosure_try_from. change (data r') with d. change (handle r') with (handle r). change (after r') with (after r).
  change (info r') with (info r). rewrite same_len.
  destruct (len (data r) <? 5); [intros ? ? ?; discriminate|].
  pose proof (alike_take D 4 5 _ _ HA) as HP. pose proof (alike_drop D 4 5 _ _ HA) as HE.
  revert HP HE. generalize (take 5 (data r)) (take 5 d) (drop 5 (data r)) (drop 5 d). intros p p' e e' HP HE. cbv zeta.
  repeat follow.
  pose proof (read_bytes_alike (4 + 5) 1 e e' HE) as R1.
  pose proof (read_next_alike _ _ 0x0A 1 _ _ R1 eq_refl) as R2.
  pose proof (read_next_alike _ _ 0x0B 1 _ _ R2 eq_refl) as R3.
  pose proof (read_next_alike _ _ 0x0C 1 _ _ R3 eq_refl) as R4.
  pose proof (read_next_alike _ _ 0x0D 4 _ _ R4 eq_refl) as R5.
  pose proof (read_next_alike _ _ 0x11 1 _ _ R5 eq_refl) as R6.
  pose proof (read_next_alike _ _ 0x12 1 _ _ R6 eq_refl) as R7.
  change (4 + 5) with 9 in R1.
  revert R1 R2 R3 R4 R5 R6 R7.
  generalize (oand_then (oand_then (oand_then (oand_then (oand_then (oand_then (read_bytes 1 e) (fun '(_, d0) => read_bytes 1 d0))
    (fun '(_, d0) => read_bytes 1 d0)) (fun '(_, d0) => read_bytes 1 d0)) (fun '(_, d0) => read_bytes 4 d0)) (fun '(_, d0) => read_bytes 1 d0))
    (fun '(_, d0) => read_bytes 1 d0)) as a7.
  generalize (oand_then (oand_then (oand_then (oand_then (oand_then (read_bytes 1 e) (fun '(_, d0) => read_bytes 1 d0))
    (fun '(_, d0) => read_bytes 1 d0)) (fun '(_, d0) => read_bytes 1 d0)) (fun '(_, d0) => read_bytes 4 d0)) (fun '(_, d0) => read_bytes 1 d0)) as a6.
  generalize (oand_then (oand_then (oand_then (oand_then (read_bytes 1 e) (fun '(_, d0) => read_bytes 1 d0))
    (fun '(_, d0) => read_bytes 1 d0)) (fun '(_, d0) => read_bytes 1 d0)) (fun '(_, d0) => read_bytes 4 d0)) as a5.
  generalize (oand_then (oand_then (oand_then (read_bytes 1 e) (fun '(_, d0) => read_bytes 1 d0))
    (fun '(_, d0) => read_bytes 1 d0)) (fun '(_, d0) => read_bytes 1 d0)) as a4.
  generalize (oand_then (oand_then (read_bytes 1 e) (fun '(_, d0) => read_bytes 1 d0)) (fun '(_, d0) => read_bytes 1 d0)) as a3.
  generalize (oand_then (read_bytes 1 e) (fun '(_, d0) => read_bytes 1 d0)) as a2.
  generalize (read_bytes 1 e) as a1.
  generalize (oand_then (oand_then (oand_then (oand_then (oand_then (oand_then (read_bytes 1 e') (fun '(_, d0) => read_bytes 1 d0))
    (fun '(_, d0) => read_bytes 1 d0)) (fun '(_, d0) => read_bytes 1 d0)) (fun '(_, d0) => read_bytes 4 d0)) (fun '(_, d0) => read_bytes 1 d0))
    (fun '(_, d0) => read_bytes 1 d0)) as b7.
  generalize (oand_then (oand_then (oand_then (oand_then (oand_then (read_bytes 1 e') (fun '(_, d0) => read_bytes 1 d0))
    (fun '(_, d0) => read_bytes 1 d0)) (fun '(_, d0) => read_bytes 1 d0)) (fun '(_, d0) => read_bytes 4 d0)) (fun '(_, d0) => read_bytes 1 d0)) as b6.
  generalize (oand_then (oand_then (oand_then (oand_then (read_bytes 1 e') (fun '(_, d0) => read_bytes 1 d0))
    (fun '(_, d0) => read_bytes 1 d0)) (fun '(_, d0) => read_bytes 1 d0)) (fun '(_, d0) => read_bytes 4 d0)) as b5.
  generalize (oand_then (oand_then (oand_then (read_bytes 1 e') (fun '(_, d0) => read_bytes 1 d0))
    (fun '(_, d0) => read_bytes 1 d0)) (fun '(_, d0) => read_bytes 1 d0)) as b4.
  generalize (oand_then (oand_then (read_bytes 1 e') (fun '(_, d0) => read_bytes 1 d0)) (fun '(_, d0) => read_bytes 1 d0)) as b3.
  generalize (oand_then (read_bytes 1 e') (fun '(_, d0) => read_bytes 1 d0)) as b2.
  generalize (read_bytes 1 e') as b1.
  intros b1 b2 b3 b4 b5 b6 b7 a1 a2 a3 a4 a5 a6 a7 R1 R2 R3 R4 R5 R6 R7.
  eapply both_obind.
  { apply (bothv_same (clear_from D 0x13)). intros HC. destruct a7 as [[n7 e7]|], b7 as [[n7' e7']|]; try contradiction; [|reflexivity].
    rewrite (alike_clear D _ _ _ (proj2 R7) HC). reflexivity. }
  intros ct ct' HCT. cbv beta in HCT.
  eapply both_rbind.
  { apply (both_same (clear_from D 0x13)). intros HC. rewrite (HCT HC). reflexivity. }
  intros sk sk' HSK. cbv beta in HSK. apply both_val.
  cbv beta iota delta [flds Enclosure_contents places enclosure_handle enclosure_manufacturer enclosure_chassis_lock enclosure_enclosure_type enclosure_version enclosure_serial_number enclosure_asset_tag_number enclosure_boot_up_state enclosure_power_supply_state enclosure_thermal_state enclosure_security_status enclosure_oem_defined enclosure_height enclosure_power_cords_number enclosure_contained_elements enclosure_sku_number].
  repeat (apply aligned_cons; [first [solve [field]
    | intros U; solve [f_equal; f_equal; eapply read_alike_value; [eassumption|clr]]
    | intros U; solve [f_equal; f_equal; eapply read_alike_fst; [eassumption|clr]] ]|]); apply aligned_nil.
Qed.

Lemma slice_later {A} (n n' : A) (f : A -> N) off : 4 <= off ->
  bothv (fun x y => n = n' -> clear_from D off -> x = y) (get_slice c off (f n) r) (get_slice c off (f n') r').
Proof.
  intros HO x y E E' <- HC. rewrite (slice_same D c r d HA off (f n) HO (clear_later D off off (f n) HC (N.le_refl _))) in E.
  fold r' in E. congruence.
Qed.
Lemma get_later {A} (n n' : A) (f : A -> N) w off : 4 <= off -> (forall k, off <= f k) ->
  bothv (fun x y => n = n' -> clear_from D off -> x = y) (get_ok c w (f n) r) (get_ok c w (f n') r').
Proof.
  intros HO HF x y E E' <- HC. unfold get_ok in *. specialize (HF n).
  rewrite (get_same D c r d HA w (f n) ltac:(lia) (clear_later D off (f n) w HC HF)) in E. fold r' in E. congruence.
Qed.

Lemma SystemSlots_aligned : both (fun x y => aligned D (flds (SystemSlots_contents x)) (flds (SystemSlots_contents y)) (places (version r) InfoType_SystemSlots))
  (SystemSlots_try_from c r) (SystemSlots_try_from c r').
Proof.
  unfold SystemSlots_try_from. change (version r') with (version r). change (handle r') with (handle r). change (data r') with d. rewrite !same_len.
  cbv zeta.
  do 4 (match goal with |- both _ (if ?b then _ else _) _ => destruct b; [intros ? ? ?; discriminate|] end).
  eapply both_obind; [apply get_ok_alike; [eassumption|vm_compute; discriminate]|intros n n' HN; cbv beta in HN].
  repeat (match goal with
    | |- both _ (obind (get_ok _ _ (_ + _) _) _) _ => fail 1
    | |- both _ (obind (get_slice _ _ _ _) _) _ => fail 1
    | _ => follow end).
  eapply both_obind; [apply (slice_later n n' (fun k => 5 * match k with Some x => x | None => 0 end)); vm_compute; discriminate|intros ? ? ?; cbv beta in *].
  eapply both_obind; [apply (get_later n n' (fun k => 0x14 + 5 * match k with Some x => x | None => 0 end) 1 0x14); [vm_compute; discriminate|intros; lia]|intros ? ? ?; cbv beta in *].
  eapply both_obind; [apply (get_later n n' (fun k => 0x15 + 5 * match k with Some x => x | None => 0 end) 1 0x15); [vm_compute; discriminate|intros; lia]|intros ? ? ?; cbv beta in *].
  eapply both_obind; [apply (get_later n n' (fun k => 0x16 + 5 * match k with Some x => x | None => 0 end) 2 0x16); [vm_compute; discriminate|intros; lia]|intros ? ? ?; cbv beta in *].
  apply both_val. cbv beta iota delta [flds SystemSlots_contents places slots_handle slots_slot_designation slots_slot_type slots_slot_data_bus_width slots_current_usage slots_slot_length slots_slot_id slots_slot_characteristics_1 slots_slot_characteristics_2 slots_segment_group_number slots_bus_number slots_device_and_function_number slots_data_bus_width slots_peer_devices slots_slot_information slots_slot_physical_width slots_slot_pitch].
  repeat (apply aligned_cons; [first [solve [field]
    | intros U; match goal with H : n = n' -> _ -> ?x = _ |- context [?x] => rewrite H by first [apply HN; clr|clr] end; reflexivity ]|]);
  apply aligned_nil.
Qed.

Lemma OemStrings_aligned : both (fun x y => aligned D (flds (OemStrings_contents x)) (flds (OemStrings_contents y)) (places (version r) InfoType_OemStrings))
  (OemStrings_try_from c r) (OemStrings_try_from c r').
Proof.
  unfold OemStrings_try_from. apply both_val. cbv beta iota delta [flds OemStrings_contents places oem_handle oem_strings]; fields.
Qed.

Lemma SystemConfigurationOptions_aligned : both (fun x y => aligned D (flds (SystemConfigurationOptions_contents x)) (flds (SystemConfigurationOptions_contents y)) (places (version r) InfoType_SystemConfigurationOptions))
  (SystemConfigurationOptions_try_from c r) (SystemConfigurationOptions_try_from c r').
Proof.
  unfold SystemConfigurationOptions_try_from. follow. change (strings_count r') with (strings_count r).
  change (handle r') with (handle r). change (raw_strings r') with (raw_strings r).
  destruct (strings_count r) as [n| |]; cbn [obind]; try (intros ? ? ?; discriminate).
  match goal with |- both _ (if ?a then _ else _) (if ?b then _ else _) => destruct a, b end; try (intros ? ? ?; discriminate);
    try (intros ? ? ? ?; discriminate).
  apply both_val. cbv beta iota delta [flds SystemConfigurationOptions_contents places options_handle options_strings]; fields.
Qed.
Lemma since_2_1_ge : since_2_1 (version r) = version_ge (version r) (version_of 2 1).
Proof.
  unfold since_2_1, version_ge, version_lt, version_of. cbn [major minor]. change (cast 8 2) with 2. change (cast 8 1) with 1.
  destruct (version r) as [a b]. cbn [major minor].
  destruct (N.ltb_spec 2 a), (N.ltb_spec a 2), (N.eqb_spec a 2), (N.leb_spec 1 b), (N.ltb_spec b 1); cbn; lia.
Qed.
Lemma with_same : data r = d -> r' = r.
Proof. intros <-. unfold r', with_data. destruct r; reflexivity. Qed.

Lemma BiosLanguage_aligned : both (fun x y => aligned D (flds (BiosLanguage_contents x)) (flds (BiosLanguage_contents y)) (places (version r) InfoType_BiosLanguage))
  (BiosLanguage_try_from c r) (BiosLanguage_try_from c r').
Proof.
  unfold BiosLanguage_try_from. change (version r') with (version r). change (handle r') with (handle r).
  unfold places. rewrite since_2_1_ge. repeat follow; cbv beta iota delta [flds BiosLanguage_contents places language_handle language_installable_languages language_flags language_current_language];
  repeat (apply aligned_cons; [first [solve [field] | intros U; rewrite with_same; [reflexivity|];
    apply (alike_clear D 4 _ _ HA); clr]|]); apply aligned_nil.
Qed.

Lemma GroupAssociations_aligned : both (fun x y => aligned D (flds (GroupAssociations_contents x)) (flds (GroupAssociations_contents y)) (places (version r) InfoType_GroupAssociations))
  (GroupAssociations_try_from c r) (GroupAssociations_try_from c r').
Proof.
  unfold GroupAssociations_try_from. change (length_ r') with (length_ r). change (handle r') with (handle r).
  destruct (u_sub c (usize_bits c) (length_ r) 5) as [n| |]; cbn [obind]; try (intros ? ? ?; discriminate).
  eapply both_obind; [apply (slice_later n n (fun k => k)); vm_compute; discriminate|intros s s' HS; cbv beta in HS].
  destruct s as [s|], s' as [s'|]; try (intros ? ? ?; discriminate); try (intros ? ? ? ?; discriminate).
  follow. apply both_val. cbv beta iota delta [flds GroupAssociations_contents places group_handle group_group_name group_items].
  repeat (apply aligned_cons; [first [solve [field] | intros U; assert (X := HS eq_refl ltac:(clr)); injection X as ->; reflexivity]|]);
  apply aligned_nil.
Qed.

Lemma SystemEventLog_aligned : both (fun x y => aligned D (flds (SystemEventLog_contents x)) (flds (SystemEventLog_contents y)) (places (version r) InfoType_SystemEventLog))
  (SystemEventLog_try_from c r) (SystemEventLog_try_from c r').
Proof.
  unfold SystemEventLog_try_from. change (version r') with (version r). change (handle r') with (handle r). change (data r') with d. rewrite !same_len.
  cbv zeta. follow. follow. rename x into n, y into n', H into HN. rename x0 into l, y0 into l', H0 into HL.
  assert (K : forall m m' k : out (res SystemEventLog), (forall x, m <> Val (Ok x)) -> (forall x, m' <> Val (Ok x)) -> True) by trivial. clear K.
  match goal with |- both _ (if ?b then _ else _) _ => destruct b; [intros ? ? ?; discriminate|] end.
  match goal with |- both _ (if ?a then ?m else _) (if ?b then ?m' else _) =>
    destruct a; [intros ? ? E; exfalso; revert E;
      match goal with |- context [match ?o with _ => _ end] => destruct o; discriminate end|];
    destruct b; [intros ? ? _ E; exfalso; revert E;
      match goal with |- context [match ?o with _ => _ end] => destruct o; discriminate end|] end.
  do 2 follow.
  eapply both_obind.
  { apply (bothv_same (clear_from D 0x15)). intros HC.
    rewrite (HN (clear_later D _ _ _ HC (N.le_refl _))), (HL (clear_later D 0x15 0x16 _ HC ltac:(lia))).
    destruct n' as [n'|], l' as [l'|]; try reflexivity.
    unfold r'. rewrite (slice_same D c r d HA 0x17 (n' * l') ltac:(lia) (clear_later D 0x15 0x17 _ HC ltac:(lia))). reflexivity. }
  intros ds ds' HD. cbv beta in HD.
  repeat follow. cbv beta iota delta [flds SystemEventLog_contents places log_handle log_log_area_length log_log_header_start_offset log_log_data_start_offset log_access_method log_log_status log_log_change_token log_log_header_format log_descriptors]; fields.
Qed.
Lemma index_alike k : bothv (fun x y => clear D (4 + k) 1 -> x = y) (index (data r) k) (index d k).
Proof.
  apply bothv_same. intros HC. unfold index. rewrite (proj2 HA (N.to_nat k)); [reflexivity|]. apply HC; lia.
Qed.
Lemma uint_alike w p : both (fun x y => snd x = p + w /\ snd y = p + w /\ (clear D (4 + p) w -> fst x = fst y))
  (get_uint w p (data r)) (get_uint w p d).
Proof.
  unfold get_uint. intros x y. unfold slice_index, slice_get. rewrite <- same_len.
  destruct ((p <=? p + w) && (p + w <=? len d))%bool; [|discriminate]. cbn [obind]. intros [= <-] [= <-]. cbn [fst snd].
  split; [reflexivity|split; [reflexivity|]]. intros HC. replace (p + w - p) with w by lia.
  rewrite (alike_slice D 4 p w _ _ HA HC). reflexivity.
Qed.
Lemma optional_uint_alike w p none : both (fun x y => snd x = p + w /\ snd y = p + w /\ (clear D (4 + p) w -> fst x = fst y))
  (get_optional_uint w p (data r) none) (get_optional_uint w p d none).
Proof.
  unfold get_optional_uint. eapply both_rbind; [apply uint_alike|]. intros [x q] [y q']. cbn [fst snd]. intros [-> [-> H]].
  destruct (N.eqb_spec x none) as [E|E], (N.eqb_spec y none) as [E'|E']; apply both_val; cbn [fst snd];
    (split; [reflexivity|split; [reflexivity|]]); intros HC; specialize (H HC); congruence.
Qed.
Lemma later_2_7 v : version_gt v (version_of 2 7) = true -> version_gt v (version_of 2 1) = true.
Proof.
  unfold version_gt, version_lt, version_of. cbn [major minor]. change (cast 8 2) with 2. change (cast 8 1) with 1. change (cast 8 7) with 7.
  lia.
Qed.
Lemma both_default {A} (R : A -> A -> Prop) m : (forall x, R x x) -> both R m m.
Proof. intros H x y E E'. replace y with x by congruence. apply H. Qed.

Lemma PhysicalMemoryArray_aligned : both (fun x y => aligned D (flds (PhysicalMemoryArray_contents x)) (flds (PhysicalMemoryArray_contents y)) (places (version r) InfoType_PhysicalMemoryArray))
  (PhysicalMemoryArray_try_from c r) (PhysicalMemoryArray_try_from c r').
Proof.
  unfold PhysicalMemoryArray_try_from. change (version r') with (version r). change (handle r') with (handle r). change (data r') with d.
  destruct (version_gt (version r) (version_of 2 1)) eqn:EV.
  2: { destruct (version_gt (version r) (version_of 2 7)) eqn:EW; [apply later_2_7 in EW; congruence|].
    cbn [rbind obind]. apply both_val. cbv beta iota delta [flds PhysicalMemoryArray_contents places array_handle array_location array_use array_memory_error_correction array_maximum_capacity array_memory_error_information_handle array_number_of_memory_devices array_extended_maximum_capacity]; fields. }
  assert (A1 : forall R (k k' : PhysicalMemoryArray * N -> out (res PhysicalMemoryArray)) (m m' : out (res (PhysicalMemoryArray * N))) Q,
    both Q m m' -> (forall x y, Q x y -> both R (k x) (k' y)) -> both R (rbind m k) (rbind m' k')).
  { intros R k k' m m' Q H1 H2. eapply both_rbind; eassumption. }
  eapply A1; clear A1.
  { instantiate (1 := fun x y => snd x = 11 /\ snd y = 11 /\
      (clear D 7 4 -> array_maximum_capacity (fst x) = array_maximum_capacity (fst y)) /\
      aligned D (flds (PhysicalMemoryArray_contents (fst x))) (flds (PhysicalMemoryArray_contents (fst y)))
        (places (version r) InfoType_PhysicalMemoryArray)).
    do 3 (eapply both_obind; [apply index_alike|intros ? ? ?; cbv beta in *]).
    eapply both_rbind; [apply optional_uint_alike|]. intros [mc q1] [mc' q1']. cbn [fst snd]. intros [-> [-> H4]].
    eapply both_rbind; [apply optional_uint_alike|]. intros [eh q2] [eh' q2']. cbn [fst snd]. intros [-> [-> H5]].
    eapply both_rbind; [apply uint_alike|]. intros [dv q3] [dv' q3']. cbn [fst snd]. intros [-> [-> H6]].
    apply both_val. cbn [fst snd array_maximum_capacity]. split; [reflexivity|split; [reflexivity|split; [exact H4|]]].
    cbv beta iota delta [flds PhysicalMemoryArray_contents places array_handle array_location array_use array_memory_error_correction array_maximum_capacity array_memory_error_information_handle array_number_of_memory_devices array_extended_maximum_capacity]; fields. }
  intros [x p] [y p']. cbn [fst snd]. intros [-> [-> [HM HF]]].
  destruct (version_gt (version r) (version_of 2 7)); [|apply both_val; exact HF].
  eapply both_rbind with (R := fun a b => clear D 7 4 -> clear D 0x0F 8 -> a = b).
  { intros a b E E' C1 C2. rewrite (HM C1) in E. destruct (array_maximum_capacity y); [congruence|].
    revert E E'. pose proof (optional_uint_alike 8 11 0) as X. unfold both in X.
    destruct (get_optional_uint 8 11 (data r) 0) as [[[u q]|]| |]; cbn; try discriminate.
    destruct (get_optional_uint 8 11 d 0) as [[[u' q']|]| |]; cbn; try discriminate.
    destruct (X _ _ eq_refl eq_refl) as [_ [_ X']]. cbn [fst] in X'. specialize (X' C2). congruence. }
  intros ex ex' HX. cbv beta in HX. apply both_val. revert HF. cbv beta iota delta [flds PhysicalMemoryArray_contents places array_handle array_location array_use array_memory_error_correction array_maximum_capacity array_memory_error_information_handle array_number_of_memory_devices array_extended_maximum_capacity].
  intros HF.
  repeat match goal with H : aligned _ (_ :: _) _ _ |- _ => inversion H; clear H; subst end.
  repeat (apply aligned_cons; [first [assumption | intros U; rewrite HX by clr; reflexivity]|]); apply aligned_nil.
Qed.
End Types.

Lemma Other_aligned D r d : alike D 4 (data r) d ->
  aligned D (flds (RawStructure_contents r)) (flds (RawStructure_contents (with_data d r)))
    [("version", []); ("info", []); ("length", []); ("handle", []); ("data", [From 0x04]); ("strings", [])]%string.
Proof.
  intros HA. unfold with_data. cbv beta iota delta [flds RawStructure_contents version info length_ handle data strings]. fold (data r) in *.
  repeat (apply aligned_cons; [first [solve [field] | intros U; rewrite <- (alike_clear D 4 _ _ HA); [reflexivity|clr]]|]); apply aligned_nil.
Qed.

Lemma map_ok_both {A} D c (f : A -> Structure) (F : A -> shown_as) case t m m' :
  (forall x, exists type fs, F x = As_struct type fs) ->
  (forall x, Structure_contents c (f x) = As_tuple case [F x]) ->
  both (fun x y => aligned D (flds (F x)) (flds (F y)) t) m m' ->
  both (fun x y => exists fs fs', fields_of c x fs /\ fields_of c y fs' /\ aligned D fs fs' t) (map_ok f m) (map_ok f m').
Proof.
  intros HF HS H X Y. unfold map_ok, omap. destruct m as [[x|]| |]; cbn; try discriminate. intros [= <-].
  destruct m' as [[y|]| |]; cbn; try discriminate. intros [= <-]. specialize (H x y eq_refl eq_refl). cbv beta in H.
  destruct (HF x) as [type [fs E]], (HF y) as [type' [fs' E']]. exists fs, fs'. rewrite E, E' in H. cbn [flds] in H.
  split; [|split; [|exact H]].
  - exists case, type. rewrite HS, E. reflexivity.
  - exists case, type'. rewrite HS, E'. reflexivity.
Qed.

Lemma dispatch_aligned D c r d : alike D 4 (data r) d ->
  both (fun x y => exists fs fs', fields_of c x fs /\ fields_of c y fs' /\ aligned D fs fs' (places (version r) (info r)))
    (dispatch c r) (dispatch c (with_data d r)).
Proof.
  intros HA. unfold dispatch. change (info (with_data d r)) with (info r). destruct (info r);
  lazymatch goal with
  | |- both _ (map_ok SBios _) _ => eapply map_ok_both; [intros x; eexists; eexists; reflexivity|intros x; reflexivity|]; exact (Bios_aligned D c r d HA)
  | |- both _ (map_ok SSystem _) _ => eapply map_ok_both; [intros x; eexists; eexists; reflexivity|intros x; reflexivity|]; exact (System_aligned D c r d HA)
  | |- both _ (map_ok SBaseBoard _) _ => eapply map_ok_both; [intros x; eexists; eexists; reflexivity|intros x; reflexivity|]; exact (BaseBoard_aligned D c r d HA)
  | |- both _ (map_ok SEnclosure _) _ => eapply map_ok_both; [intros x; eexists; eexists; reflexivity|intros x; reflexivity|]; exact (Enclosure_aligned D c r d HA)
  | |- both _ (map_ok SProcessor _) _ => eapply map_ok_both; [intros x; eexists; eexists; reflexivity|intros x; reflexivity|]; exact (Processor_aligned D c r d HA)
  | |- both _ (map_ok SCache _) _ => eapply map_ok_both; [intros x; eexists; eexists; reflexivity|intros x; reflexivity|]; exact (Cache_aligned D c r d HA)
  | |- both _ (map_ok SPortConnector _) _ => eapply map_ok_both; [intros x; eexists; eexists; reflexivity|intros x; reflexivity|]; exact (PortConnector_aligned D c r d HA)
  | |- both _ (map_ok SSystemSlots _) _ => eapply map_ok_both; [intros x; eexists; eexists; reflexivity|intros x; reflexivity|]; exact (SystemSlots_aligned D c r d HA)
  | |- both _ (map_ok SOemStrings _) _ => eapply map_ok_both; [intros x; eexists; eexists; reflexivity|intros x; reflexivity|]; exact (OemStrings_aligned D c r d)
  | |- both _ (map_ok SSystemConfigurationOptions _) _ => eapply map_ok_both; [intros x; eexists; eexists; reflexivity|intros x; reflexivity|]; exact (SystemConfigurationOptions_aligned D c r d HA)
  | |- both _ (map_ok SBiosLanguage _) _ => eapply map_ok_both; [intros x; eexists; eexists; reflexivity|intros x; reflexivity|]; exact (BiosLanguage_aligned D c r d HA)
  | |- both _ (map_ok SGroupAssociations _) _ => eapply map_ok_both; [intros x; eexists; eexists; reflexivity|intros x; reflexivity|]; exact (GroupAssociations_aligned D c r d HA)
  | |- both _ (map_ok SSystemEventLog _) _ => eapply map_ok_both; [intros x; eexists; eexists; reflexivity|intros x; reflexivity|]; exact (SystemEventLog_aligned D c r d HA)
  | |- both _ (map_ok SPhysicalMemoryArray _) _ => eapply map_ok_both; [intros x; eexists; eexists; reflexivity|intros x; reflexivity|]; exact (PhysicalMemoryArray_aligned D c r d HA)
  | |- both _ (map_ok SMemoryDevice _) _ => eapply map_ok_both; [intros x; eexists; eexists; reflexivity|intros x; reflexivity|]; exact (MemoryDevice_aligned D c r d HA)
  | |- both _ (map_ok SMemoryError32 _) _ => eapply map_ok_both; [intros x; eexists; eexists; reflexivity|intros x; reflexivity|]; exact (MemoryError32_aligned D c r d HA)
  | |- both _ (map_ok SMemoryArrayMappedAddress _) _ => eapply map_ok_both; [intros x; eexists; eexists; reflexivity|intros x; reflexivity|]; exact (MemoryArrayMappedAddress_aligned D c r d HA)
  | |- both _ (map_ok SMemoryDeviceMappedAddress _) _ => eapply map_ok_both; [intros x; eexists; eexists; reflexivity|intros x; reflexivity|]; exact (MemoryDeviceMappedAddress_aligned D c r d HA)
  | |- both _ (map_ok SBuiltInPointingDevice _) _ => eapply map_ok_both; [intros x; eexists; eexists; reflexivity|intros x; reflexivity|]; exact (BuiltInPointingDevice_aligned D c r d HA)
  | |- both _ (map_ok SPortableBattery _) _ => eapply map_ok_both; [intros x; eexists; eexists; reflexivity|intros x; reflexivity|]; exact (PortableBattery_aligned D c r d HA)
  | |- _ => apply both_val; eexists; eexists; split; [eexists; eexists; reflexivity|split; [eexists; eexists; reflexivity|]]; exact (Other_aligned D r d HA)
  end.
Qed.

Lemma fields_of_fun c x fs fs' : fields_of c x fs -> fields_of c x fs' -> fs = fs'.
Proof. intros [a [b E]] [a' [b' E']]. congruence. Qed.
Fixpoint distinct (l : list string) : bool :=
  match l with [] => true | s :: l => negb (existsb (String.eqb s) l) && distinct l end.
Lemma distinct_NoDup l : distinct l = true -> NoDup l.
Proof.
  induction l as [|s l IH]; cbn [distinct]; [constructor|]. intros H. apply andb_prop in H as [H1 H2]. constructor; [|apply IH, H2].
  intros HI. apply negb_true_iff in H1. assert (X : existsb (String.eqb s) l = true); [|congruence].
  apply existsb_exists. exists s. split; [exact HI|apply String.eqb_refl].
Qed.
Lemma names_distinct v i : NoDup (map fst (places v i)).
Proof. apply distinct_NoDup. destruct i; vm_compute; reflexivity. Qed.

Lemma field_local c r d D x y name ps v v' : differ_at D (data r) d ->
  dispatch c r = Val (Ok x) -> dispatch c (with_data d r) = Val (Ok y) ->
  In (name, ps) (places (version r) (info r)) -> untouched D ps ->
  field_of c x name v -> field_of c y name v' -> v = v'.
Proof.
  intros HA EX EY HP U [fs [F I]] [fs' [F' I']].
  destruct (dispatch_aligned D c r d HA x y EX EY) as [gs [gs' [G [G' HL]]]].
  rewrite (fields_of_fun _ _ _ _ F G) in I. rewrite (fields_of_fun _ _ _ _ F' G') in I'.
  exact (aligned_field D gs gs' _ name v v' ps HL (names_distinct _ _) I I' HP U).
Qed.
Lemma fields_complete c r x : dispatch c r = Val (Ok x) ->
  exists fs, fields_of c x fs /\ map fst fs = map fst (places (version r) (info r)).
Proof.
  intros E. assert (HA : alike (fun _ => False) 4 (data r) (data r)) by (split; [reflexivity|intros; reflexivity]).
  assert (W : with_data (data r) r = r) by (unfold with_data; destruct r; reflexivity).
  pose proof (dispatch_aligned _ c r (data r) HA x x E) as X. rewrite W in X. destruct (X E) as [fs [fs' [F [_ HL]]]].
  exists fs. split; [exact F|]. exact (proj1 (aligned_names _ _ _ _ HL)).
Qed.
