(* Lemmas for C104: what each decoder's outcome depends on. *)
From Coq Require Import ZArith Lia ZifyBool ZifyNat ZifyN.
From Coq Require Import String.
From Verif Require Import Base G_Enums M_Raw M_Entry M_Bios M_System M_BaseBoard M_Enclosure M_Processor M_Cache M_PortConnector.
From Verif Require Import M_SystemSlots M_Strings M_GroupAssociations M_SystemEventLog M_PhysicalMemoryArray M_MemoryDevice M_Memory.
From Verif Require Import M_PortableBattery M_Iter Spec S_Iter S_Decode S_ShowFields S_Reworded S_Places S_Deciding L_Base L_Strings L_Cache L_Places.
Local Open Scope N_scope.

Lemma since_ge v a b : a < 256 -> b < 256 -> since v a b = version_ge v (version_of a b).
Proof.
  intros HA HB. unfold since, version_ge, version_lt, version_of. cbn [major minor]. unfold cast.
  change (2 ^ 8) with 256. rewrite !N.mod_small by assumption. destruct v as [x y]. cbn [major minor]. lia.
Qed.
Lemma gt_ge v a b : a < 256 -> b + 1 < 256 -> version_gt v (version_of a b) = version_ge v (version_of a (b + 1)).
Proof.
  intros HA HB. unfold version_gt, version_ge, version_lt, version_of. cbn [major minor]. unfold cast.
  change (2 ^ 8) with 256. rewrite !N.mod_small by lia. destruct v as [x y]. cbn [major minor]. lia.
Qed.
Lemma ge_lt v a b : version_ge v (version_of a b) = negb (version_lt v (version_of a b)).
Proof. reflexivity. Qed.

Lemma nth_behind {A} n k (l : list A) x : nth k (skipn n l) x = nth (n + k) l x.
Proof. revert l; induction n as [|n IH]; intros [|y l]; cbn; try reflexivity; [destruct k; reflexivity|apply IH]. Qed.

(* ------------------------------------------------------------ the same outcome *)

Definition course {A B} (R : A -> B -> Prop) (m : out (res A)) (m' : out (res B)) : Prop :=
  match m, m' with
  | Val (Ok x), Val (Ok y) => R x y
  | Val (Err e), Val (Err f) => e = f
  | Panic, Panic => True
  | UB, UB => True
  | _, _ => False
  end.
Definition coursev {A B} (R : A -> B -> Prop) (m : out A) (m' : out B) : Prop :=
  match m, m' with Val x, Val y => R x y | Panic, Panic => True | UB, UB => True | _, _ => False end.
Notation any := (fun _ _ => True).

Lemma course_rbind {A A' B B'} (R : A -> A' -> Prop) (S : B -> B' -> Prop) m m' (k : A -> out (res B)) (k' : A' -> out (res B')) :
  course R m m' -> (forall x y, R x y -> course S (k x) (k' y)) -> course S (rbind m k) (rbind m' k').
Proof. intros H K. destruct m as [[]| |], m' as [[]| |]; cbn in *; try contradiction; auto. Qed.
Lemma course_obind {A A' B B'} (R : A -> A' -> Prop) (S : B -> B' -> Prop) m m' (k : A -> out (res B)) (k' : A' -> out (res B')) :
  coursev R m m' -> (forall x y, R x y -> course S (k x) (k' y)) -> course S (obind m k) (obind m' k').
Proof. intros H K. destruct m, m'; cbn in *; try contradiction; auto. Qed.
Lemma course_refl {A} (m : out (res A)) : course eq m m.
Proof. destruct m as [[]| |]; cbn; auto. Qed.
Lemma course_any {A B} (R : A -> B -> Prop) m m' : course R m m' -> course any m m'.
Proof. destruct m as [[]| |], m' as [[]| |]; cbn; auto. Qed.
Lemma coursev_any {A B} (R : A -> B -> Prop) m m' : coursev R m m' -> coursev any m m'.
Proof. destruct m, m'; cbn; auto. Qed.
Lemma coursev_refl {A} (m : out A) : coursev eq m m.
Proof. destruct m; cbn; auto. Qed.
Lemma coursev_ok {A B} (R : A -> B -> Prop) m m' : course R m m' -> coursev any (omap ok m) (omap ok m').
Proof. destruct m as [[]| |], m' as [[]| |]; cbn; auto. Qed.

Ltac clr := first [ eapply clear_in; [|eassumption]; reflexivity | eapply clear_from_in; [|eassumption]; reflexivity ].

Section Outcomes.
Variables (D : N -> Prop) (c : cfg) (r : RawStructure) (d : list N).
Hypothesis HA : alike D 4 (data r) d.
Hypothesis HB : all_bytes (data r).
Hypothesis HB' : all_bytes d.
Let r' := with_data d r.

Lemma same_size : len d = len (data r).
Proof. symmetry. exact (alike_len D 4 _ _ HA). Qed.
Lemma packed_course n : coursev (alike D 4) (read_packed c n r) (read_packed c n r').
Proof.
  unfold read_packed, r', with_data; cbn [data after]. rewrite !len_app, (alike_len D 4 _ _ HA).
  destruct (n <=? len d); [apply alike_take, HA|].
  destruct (flat_memory c && (n <=? len d + len (after r)))%bool; [|exact I]. apply alike_take, alike_app, HA.
Qed.
Lemma find_course i i' : i = i' -> course any (Val (find_string r i)) (Val (find_string r' i')).
Proof. intros <-. apply course_any with (R := eq). apply course_refl. Qed.
Lemma get_course w off : course any (get c w off r) (get c w off r').
Proof.
  unfold get. destruct (u_sub c (usize_bits c) off 4) as [a| |]; cbn [obind]; try exact I.
  destruct (u_add c (usize_bits c) a w) as [b| |]; cbn [obind]; try exact I.
  change (data r') with d. unfold slice_get. rewrite same_size. destruct ((a <=? b) && (b <=? len (data r)))%bool.
  - unfold take, drop, len. rewrite !firstn_length, !skipn_length, (proj1 HA). destruct (N.of_nat _ =? w); cbn; auto.
  - destruct (len [] =? w); cbn; auto.
Qed.
Lemma get_ok_course w off : coursev any (get_ok c w off r) (get_ok c w off r').
Proof. apply coursev_ok with (R := any). apply get_course. Qed.
Lemma get_string_course off : 4 <= off -> clear D off 1 -> course any (get_string c off r) (get_string c off r').
Proof. intros HO HC. unfold r'. rewrite <- (get_string_same D c r d HA off HO HC). apply course_any with (R := eq), course_refl. Qed.
Lemma get_string_ok_course off : coursev any (get_string_ok c off r) (get_string_ok c off r').
Proof.
  unfold get_string_ok, get_string. pose proof (get_course 1 off) as H.
  destruct (get c 1 off r) as [[]| |], (get c 1 off r') as [[]| |]; cbn in H; try contradiction; cbn; auto.
Qed.
Lemma basic_string_course off : coursev any (basic_string c off r) (basic_string c off r').
Proof.
  unfold basic_string. pose proof (get_ok_course 1 off) as H.
  destruct (get_ok c 1 off r), (get_ok c 1 off r'); cbn in H; try contradiction; cbn; auto.
Qed.

Ltac same_index := solve [ reflexivity | eapply alike_at; [eassumption|clr] ].
Ltac follow :=
  match goal with
  | |- course _ (obind (read_packed _ _ _) _) _ => eapply course_obind; [apply packed_course|intros ? ? ?; cbv beta in *]
  | |- course _ (rbind (Val (find_string _ _)) _) _ => eapply course_rbind; [apply find_course; same_index|intros ? ? ?; cbv beta in *]
  | |- course _ (rbind (get _ _ _ _) _) _ => eapply course_rbind; [apply get_course|intros ? ? ?; cbv beta in *]
  | |- course _ (rbind (get_string _ _ _) _) _ =>
      eapply course_rbind; [apply get_string_course; [vm_compute; discriminate|clr]|intros ? ? ?; cbv beta in *]
  | |- course _ (obind (get_ok _ _ _ _) _) _ => eapply course_obind; [apply get_ok_course|intros ? ? ?; cbv beta in *]
  | |- course _ (obind (get_string_ok _ _ _) _) _ => eapply course_obind; [apply get_string_ok_course|intros ? ? ?; cbv beta in *]
  | |- course _ (obind (basic_string _ _ _) _) _ => eapply course_obind; [apply basic_string_course|intros ? ? ?; cbv beta in *]
  | |- course _ (if ?b then _ else _) (if ?b then _ else _) => destruct b eqn:?
  | |- course _ (Val (Ok _)) (Val (Ok _)) => exact I
  | |- course _ (Val (Err _)) (Val (Err _)) => reflexivity
  | |- course _ Panic Panic => exact I
  end.
Ltac start f :=
  unfold f, deciding; change (version r') with (version r); change (handle r') with (handle r); change (length_ r') with (length_ r);
  change (info r') with (info r); change (data r') with d; rewrite ?same_size.

Notation decided i := (untouched D (deciding (version r) i (data r))).

Lemma Bios_course : decided InfoType_Bios -> course any (Bios_try_from c r) (Bios_try_from c r').
Proof. start Bios_try_from. intros U. repeat follow. Qed.
Lemma System_course : decided InfoType_System -> course any (System_try_from c r) (System_try_from c r').
Proof.
  start System_try_from. rewrite since_ge by lia. unfold version_ge.
  destruct (version_lt (version r) (version_of 2 4)); cbn [negb]; intros U; repeat follow.
Qed.
Lemma BaseBoard_course : decided InfoType_BaseBoard -> course any (BaseBoard_try_from c r) (BaseBoard_try_from c r').
Proof.
  start BaseBoard_try_from. intros U. follow. cbv zeta.
  repeat first [ follow | match goal with
    |- course _ (rbind (some_if ?b (find_string _ ?i)) _) (rbind (some_if ?b (find_string _ ?j)) _) =>
      replace j with i by same_index; eapply course_rbind; [apply course_any with (R := eq), course_refl|intros ? ? ?; cbv beta in *] end ].
Qed.
Lemma before_2_3 v : version_lt v (version_of 2 1) = true -> version_lt v (version_of 2 3) = true.
Proof.
  unfold version_lt, version_of. cbn [major minor]. change (cast 8 2) with 2. change (cast 8 1) with 1. change (cast 8 3) with 3. lia.
Qed.
Lemma Processor_course : decided InfoType_Processor -> course any (Processor_try_from c r) (Processor_try_from c r').
Proof.
  start Processor_try_from. rewrite since_ge by lia. unfold version_ge.
  destruct (version_lt (version r) (version_of 2 3)) eqn:E; cbn [negb]; intros U; [repeat follow|].
  destruct (version_lt (version r) (version_of 2 1)) eqn:E'; [apply before_2_3 in E'; congruence|]. repeat follow.
Qed.
Lemma configuration_course {A} w w' (k k' : CacheConfiguration -> out (res A)) : (forall x y, course any (k x) (k' y)) ->
  course any (obind (CacheConfiguration_from w) k) (obind (CacheConfiguration_from w') k').
Proof.
  intros H. destruct (configuration_total w) as [x ->], (configuration_total w') as [y ->]. cbn [obind]. apply H.
Qed.
Lemma later_2_1 v : version_gt v (version_of 2 1) = true -> version_gt v (version_of 2 0) = true.
Proof.
  unfold version_gt, version_lt, version_of. cbn [major minor]. change (cast 8 2) with 2. change (cast 8 1) with 1. change (cast 8 0) with 0. lia.
Qed.
Lemma later_3_1 v : version_gt v (version_of 3 1) = true -> version_gt v (version_of 2 0) = true.
Proof.
  unfold version_gt, version_lt, version_of. cbn [major minor]. change (cast 8 2) with 2. change (cast 8 1) with 1. change (cast 8 0) with 0.
  change (cast 8 3) with 3. lia.
Qed.
Lemma Cache_course : decided InfoType_Cache -> course any (Cache_try_from c r) (Cache_try_from c r').
Proof.
  start Cache_try_from. rewrite since_ge by lia. change 1 with (0 + 1) at 1. rewrite <- gt_ge by lia.
  destruct (version_gt (version r) (version_of 2 0)) eqn:E; intros U.
  - repeat first [ follow | apply configuration_course; intros ? ? ].
  - destruct (version_gt (version r) (version_of 3 1)) eqn:E1; [apply later_3_1 in E1; congruence|].
    destruct (version_gt (version r) (version_of 2 1)) eqn:E2; [apply later_2_1 in E2; congruence|]. exact I.
Qed.
Lemma PortConnector_course : decided InfoType_PortConnector -> course any (PortConnector_try_from c r) (PortConnector_try_from c r').
Proof. start PortConnector_try_from. intros U. repeat follow. Qed.
Lemma MemoryDevice_course : decided InfoType_MemoryDevice -> course any (MemoryDevice_try_from c r) (MemoryDevice_try_from c r').
Proof. start MemoryDevice_try_from. intros U. repeat follow. Qed.
Lemma MemoryError32_course : course any (MemoryError32_try_from c r) (MemoryError32_try_from c r').
Proof. start MemoryError32_try_from. repeat follow. Qed.
Lemma MemoryArrayMappedAddress_course : course any (MemoryArrayMappedAddress_try_from c r) (MemoryArrayMappedAddress_try_from c r').
Proof. start MemoryArrayMappedAddress_try_from. cbv zeta. repeat follow. Qed.
Lemma MemoryDeviceMappedAddress_course : course any (MemoryDeviceMappedAddress_try_from c r) (MemoryDeviceMappedAddress_try_from c r').
Proof. start MemoryDeviceMappedAddress_try_from. cbv zeta. repeat follow. Qed.
Lemma BuiltInPointingDevice_course : course any (BuiltInPointingDevice_try_from c r) (BuiltInPointingDevice_try_from c r').
Proof. start BuiltInPointingDevice_try_from. repeat follow. Qed.
Lemma PortableBattery_course : decided InfoType_PortableBattery -> course any (PortableBattery_try_from c r) (PortableBattery_try_from c r').
Proof. start PortableBattery_try_from. intros U. cbv zeta. repeat follow. Qed.
Lemma OemStrings_course : course any (OemStrings_try_from c r) (OemStrings_try_from c r').
Proof. exact I. Qed.
Lemma BiosLanguage_course : course any (BiosLanguage_try_from c r) (BiosLanguage_try_from c r').
Proof. start BiosLanguage_try_from. repeat follow. Qed.
Lemma get_same_course w off : 4 <= off -> clear D off w -> course eq (get c w off r) (get c w off r').
Proof. intros HO HC. unfold r'. rewrite <- (get_same D c r d HA w off HO HC). apply course_refl. Qed.
Lemma SystemConfigurationOptions_course : decided InfoType_SystemConfigurationOptions ->
  course any (SystemConfigurationOptions_try_from c r) (SystemConfigurationOptions_try_from c r').
Proof.
  start SystemConfigurationOptions_try_from. intros U. eapply course_rbind; [apply get_same_course; [vm_compute; discriminate|clr]|].
  intros x y <-. change (strings_count r') with (strings_count r). eapply course_obind; [apply coursev_refl|]. intros n n' <-.
  repeat follow.
Qed.
Lemma slice_course off n : coursev (fun x y => (x = None <-> y = None)) (get_slice c off n r) (get_slice c off n r').
Proof.
  unfold get_slice. destruct (u_sub c (usize_bits c) off 4) as [a| |]; cbn [obind]; try exact I.
  destruct (u_add c (usize_bits c) a n) as [b| |]; cbn [obind]; try exact I. change (data r') with d. unfold slice_get. rewrite same_size.
  destruct ((a <=? b) && (b <=? len (data r)))%bool; cbn; split; congruence.
Qed.
Lemma GroupAssociations_course : decided InfoType_GroupAssociations ->
  course any (GroupAssociations_try_from c r) (GroupAssociations_try_from c r').
Proof.
  start GroupAssociations_try_from. intros U. eapply course_obind; [apply coursev_refl|]. intros n n' <-.
  eapply course_obind; [apply slice_course|]. intros [s|] [s'|] HS; cbv beta in HS.
  - repeat follow.
  - exfalso. destruct HS as [_ HS]. discriminate (HS eq_refl).
  - exfalso. destruct HS as [HS _]. discriminate (HS eq_refl).
  - reflexivity.
Qed.
(* values read from one byte *)
Lemma get_byte (q : RawStructure) off x : all_bytes (data q) -> get_ok c 1 off q = Val (Some x) -> x < 256.
Proof.
  intros HQ. unfold get_ok, get. destruct (u_sub c (usize_bits c) off 4) as [a| |]; cbn [obind omap]; try discriminate.
  destruct (u_add c (usize_bits c) a 1) as [b| |]; cbn [obind omap]; try discriminate. unfold slice_get.
  destruct ((a <=? b) && (b <=? len (data q)))%bool; [|discriminate].
  destruct (N.eqb_spec (len (take (b - a) (drop a (data q)))) 1) as [L|L]; cbn [ok]; [|discriminate]. intros [= <-].
  destruct (take (b - a) (drop a (data q))) as [|u [|w l]] eqn:E; try (cbn in L; lia); try (unfold len in L; cbn in L; lia).
  cbn [le]. rewrite N.mul_0_r, N.add_0_r.
  assert (X : all_bytes (take (b - a) (drop a (data q)))) by (apply all_bytes_take, all_bytes_drop, HQ).
  rewrite E in X. unfold all_bytes in X. inversion X; assumption.
Qed.
Lemma SystemSlots_course : decided InfoType_SystemSlots -> course any (SystemSlots_try_from c r) (SystemSlots_try_from c r').
Proof.
  start SystemSlots_try_from. intros U. cbv zeta. do 4 follow; try reflexivity.
  destruct (get_ok c 1 18 r) as [n| |] eqn:EN; pose proof (get_ok_course 1 18) as HN; rewrite EN in HN;
    (destruct (get_ok c 1 18 r') as [n'| |] eqn:EN'; cbn in HN; try contradiction); cbn [obind]; try exact I.
  set (m := match n with Some x => x | None => 0 end). set (m' := match n' with Some x => x | None => 0 end).
  assert (M : m < 256) by (destruct n; [apply (get_byte r 18 _ HB EN)|reflexivity]).
  assert (M' : m' < 256) by (destruct n'; [apply (get_byte r' 18 _ HB' EN')|reflexivity]).
  clearbody m m'. pose proof (usize_room c) as [RM _]. change (2 ^ 32) with 4294967296 in RM.
  repeat (match goal with
    | |- course _ (obind (get_ok _ _ (_ + _) _) _) _ => fail 1
    | |- course _ (obind (get_slice _ _ _ _) _) _ => fail 1
    | _ => follow end).
  rewrite !get_slice_fit by lia. cbn [obind]. unfold get_ok. rewrite !get_fit by lia. exact I.
Qed.
Lemma not_2_0 v : ((major v =? 2) && (minor v =? 0))%bool = version_eq v (version_of 2 0).
Proof. reflexivity. Qed.
Lemma SystemEventLog_course : decided InfoType_SystemEventLog -> course any (SystemEventLog_try_from c r) (SystemEventLog_try_from c r').
Proof.
  start SystemEventLog_try_from. cbv zeta. rewrite not_2_0. destruct (version_eq (version r) (version_of 2 0)) eqn:EV; intros U.
  - pose proof (usize_room c) as [RM _]. change (2 ^ 32) with 4294967296 in RM. cbn [andb].
    destruct (N.eqb_spec (len (data r) + 4) 0x14) as [L|L]; cbn [negb].
    + assert (X : forall off, 20 <= off -> off <= 255 -> get_ok c 1 off r = Val None /\ get_ok c 1 off r' = Val None).
      { intros off H1 H2. unfold get_ok. rewrite !get_fit by lia. unfold field. change (data r') with d. rewrite !same_size.
        destruct (N.leb_spec (off + 1) (4 + len (data r))); [lia|]. rewrite andb_false_r. split; reflexivity. }
      rewrite !(proj1 (X 0x15 ltac:(lia) ltac:(lia))), !(proj1 (X 0x16 ltac:(lia) ltac:(lia))),
        !(proj2 (X 0x15 ltac:(lia) ltac:(lia))), !(proj2 (X 0x16 ltac:(lia) ltac:(lia))).
      cbn [obind oand_then]. repeat follow.
    + follow. follow. reflexivity.
  - assert (X1 : get_ok c 1 0x15 r' = get_ok c 1 0x15 r).
    { unfold get_ok, r'. rewrite <- (get_same D c r d HA) by first [lia|clr]. reflexivity. }
    assert (X2 : get_ok c 1 0x16 r' = get_ok c 1 0x16 r).
    { unfold get_ok, r'. rewrite <- (get_same D c r d HA) by first [lia|clr]. reflexivity. }
    rewrite X1, X2.
    destruct (get_ok c 1 0x15 r) as [n| |]; cbn [obind]; try exact I.
    destruct (get_ok c 1 0x16 r) as [l| |]; cbn [obind andb]; try exact I.
    match goal with |- course _ (if ?b then _ else _) _ => destruct b end.
    { destruct (oand_then n (fun x => option_map (fun y => 23 + x * y) l)); reflexivity. }
    do 2 follow.
    eapply course_obind with (R := any); [|intros ? ? ?; repeat follow].
    destruct n as [n|]; [|exact I]. destruct l as [l|]; [|exact I].
    pose proof (slice_course 0x17 (n * l)) as HS.
    destruct (get_slice c 0x17 (n * l) r) as [s| |], (get_slice c 0x17 (n * l) r') as [s'| |]; cbn in HS; try contradiction; cbn [obind]; try exact I.
    destruct s as [s|], s' as [s'|]; try exact I.
    + unfold EventLogTypeDescriptors_new. destruct (l =? 0); exact I.
    + destruct HS as [_ HS]. discriminate (HS eq_refl).
    + destruct HS as [HS _]. discriminate (HS eq_refl).
Qed.
Lemma index_course k : coursev any (index (data r) k) (index d k).
Proof.
  unfold index. destruct (nth_error (data r) (N.to_nat k)) eqn:E, (nth_error d (N.to_nat k)) eqn:E'; try exact I.
  - apply nth_error_None in E'. assert (X : nth_error (data r) (N.to_nat k) <> None) by congruence. apply nth_error_Some in X.
    destruct HA as [HL _]. lia.
  - apply nth_error_None in E. assert (X : nth_error d (N.to_nat k) <> None) by congruence. apply nth_error_Some in X.
    destruct HA as [HL _]. lia.
Qed.
Lemma uint_course w p : course (fun x y => snd x = p + w /\ snd y = p + w /\ (clear D (4 + p) w -> fst x = fst y))
  (get_uint w p (data r)) (get_uint w p d).
Proof.
  unfold get_uint, slice_index, slice_get. rewrite same_size.
  destruct ((p <=? p + w) && (p + w <=? len (data r)))%bool; [|exact I]. cbn [obind course fst snd].
  split; [reflexivity|split; [reflexivity|]]. intros HC. replace (p + w - p) with w by lia.
  rewrite (alike_slice D 4 p w _ _ HA HC). reflexivity.
Qed.
Lemma optional_uint_course w p none : course (fun x y => snd x = p + w /\ snd y = p + w /\ (clear D (4 + p) w -> fst x = fst y))
  (get_optional_uint w p (data r) none) (get_optional_uint w p d none).
Proof.
  unfold get_optional_uint. eapply course_rbind; [apply uint_course|]. intros [x q] [y q']. cbn [fst snd]. intros [-> [-> H]].
  destruct (N.eqb_spec x none) as [E|E], (N.eqb_spec y none) as [E'|E']; cbn [course fst snd];
    (split; [reflexivity|split; [reflexivity|]]); intros HC; specialize (H HC); congruence.
Qed.
Lemma PhysicalMemoryArray_course : decided InfoType_PhysicalMemoryArray ->
  course any (PhysicalMemoryArray_try_from c r) (PhysicalMemoryArray_try_from c r').
Proof.
  start PhysicalMemoryArray_try_from. rewrite since_ge by lia. change 8 with (7 + 1) at 1. rewrite <- gt_ge by lia. intros U.
  destruct (version_gt (version r) (version_of 2 1)) eqn:EV.
  2: { destruct (version_gt (version r) (version_of 2 7)) eqn:EW; [apply later_2_7 in EW; congruence|]. exact I. }
  eapply course_rbind with (R := fun x y => snd x = 11 /\ snd y = 11 /\
    (clear D 7 4 -> array_maximum_capacity (fst x) = array_maximum_capacity (fst y))).
  { do 3 (eapply course_obind; [apply index_course|intros ? ? ?; cbv beta in *]).
    eapply course_rbind; [apply optional_uint_course|]. intros [mc q1] [mc' q1']. cbn [fst snd]. intros [-> [-> H4]].
    eapply course_rbind; [apply optional_uint_course|]. intros [eh q2] [eh' q2']. cbn [fst snd]. intros [-> [-> H5]].
    eapply course_rbind; [apply uint_course|]. intros [dv q3] [dv' q3']. cbn [fst snd]. intros [-> [-> H6]].
    cbn [course fst snd array_maximum_capacity]. split; [reflexivity|split; [reflexivity|exact H4]]. }
  intros [x p] [y p']. cbn [fst snd]. intros [-> [-> HM]].
  destruct (version_gt (version r) (version_of 2 7)); [|exact I]. rewrite (HM ltac:(clr)).
  eapply course_rbind with (R := any); [|intros ? ? ?; exact I].
  destruct (array_maximum_capacity y); [exact I|].
  eapply course_rbind; [apply optional_uint_course|]. intros [u q] [u' q'] _. exact I.
Qed.

Definition left_alike (o : N) (a b : option (ContainedElements * list N)) : Prop :=
  match a, b with None, None => True | Some (_, e), Some (_, e') => alike D o e e' | _, _ => False end.
Lemma read_byte_head e n e1 : read_bytes 1 e = Some (n, e1) -> n = nth 0 e 0 /\ e1 = drop 1 e /\ 1 <= len e.
Proof.
  unfold read_bytes. destruct (N.ltb_spec (len e) 1); [discriminate|]. intros [= <- <-].
  destruct e as [|x e]; [unfold len in *; cbn in *; lia|]. split; [|split; [reflexivity|assumption]].
  change (take 1 (x :: e)) with [x]. cbn [le nth]. lia.
Qed.
Lemma contained_course e e' aft p : alike D 0x13 e e' -> clear D 0x13 2 ->
  p = 0x15 + (nth 0 e 0 * nth 1 e 0) mod 256 ->
  coursev (left_alike p) (ContainedElements_new c e aft) (ContainedElements_new c e' aft).
Proof.
  intros HE HC HP. unfold ContainedElements_new. pose proof (read_bytes_alike D 0x13 1 e e' HE) as R1.
  destruct (read_bytes 1 e) as [[n e1]|] eqn:E1, (read_bytes 1 e') as [[n' e1']|]; try contradiction; [|exact I].
  destruct R1 as [N1 A1]. rewrite <- (N1 (clear_less D _ 2 1 HC ltac:(lia))). clear n' N1.
  pose proof (read_bytes_alike D (0x13 + 1) 1 e1 e1' A1) as R2.
  destruct (read_bytes 1 e1) as [[m e2]|] eqn:E2, (read_bytes 1 e1') as [[m' e2']|]; try contradiction; [|exact I].
  destruct R2 as [N2 A2]. rewrite <- (N2 ltac:(intros k K1 K2; apply HC; lia)). clear m' N2.
  apply read_byte_head in E1 as [E1 [D1 _]]. apply read_byte_head in E2 as [E2 _].
  assert (EM : m = nth 1 e 0) by (rewrite E2, D1; destruct e as [|u [|w e]]; reflexivity). rewrite <- E1, <- EM in HP.
  change (0x13 + 1 + 1) with 0x15 in A2.
  destruct ((n =? 0) || (m =? 0))%bool eqn:EZ.
  - cbn [coursev left_alike]. replace (n * m) with 0 in HP by (destruct (N.eqb_spec n 0), (N.eqb_spec m 0); subst; cbn in EZ; lia).
    change (0 mod 256) with 0 in HP. rewrite N.add_0_r in HP. subst p. exact A2.
  - unfold u_mul. change (2 ^ 8) with 256. destruct (N.ltb_spec (n * m) 256) as [L|L]; [|destruct (overflow_checks c); [exact I|]];
      cbn [obind]; unfold slice_get; rewrite (alike_len _ _ _ _ A2).
    + rewrite N.mod_small in HP by exact L. destruct ((0 <=? n * m) && (n * m <=? len e2'))%bool; [|exact I].
      cbn [coursev left_alike]. subst p. apply alike_drop, A2.
    + destruct ((0 <=? (n * m) mod 256) && ((n * m) mod 256 <=? len e2'))%bool; [|exact I].
      cbn [coursev left_alike]. subst p. apply alike_drop, A2.
Qed.
Lemma read_rest w l n e : read_bytes w l = Some (n, e) -> e = drop w l.
Proof. unfold read_bytes. destruct (len l <? w); [discriminate|]. intros [= _ <-]. reflexivity. Qed.
Lemma next_rest (o : option (N * list N)) w l k n e : (forall m u, o = Some (m, u) -> u = drop k l) ->
  oand_then o (fun '(_, u) => read_bytes w u) = Some (n, e) -> e = drop (k + w) l.
Proof.
  intros H. destruct o as [[m u]|]; cbn [oand_then]; [|discriminate]. intros E. apply read_rest in E. rewrite E, (H m u eq_refl).
  rewrite drop_drop. f_equal. lia.
Qed.
Lemma Enclosure_course : decided InfoType_Enclosure -> course any (Enclosure_try_from c r) (Enclosure_try_from c r').
Proof.
  start Enclosure_try_from. change (after r') with (after r). intros U.
  destruct (len (data r) <? 5); [reflexivity|].
  pose proof (alike_take D 4 5 _ _ HA) as HP. pose proof (alike_drop D 4 5 _ _ HA) as HE. cbv zeta.
  repeat follow.
  set (e := drop 5 (data r)) in *. set (e' := drop 5 d) in *.
  pose proof (read_bytes_alike D (4 + 5) 1 e e' HE) as R1.
  pose proof (read_next_alike D _ _ 0x0A 1 _ _ R1 eq_refl) as R2.
  pose proof (read_next_alike D _ _ 0x0B 1 _ _ R2 eq_refl) as R3.
  pose proof (read_next_alike D _ _ 0x0C 1 _ _ R3 eq_refl) as R4.
  pose proof (read_next_alike D _ _ 0x0D 4 _ _ R4 eq_refl) as R5.
  pose proof (read_next_alike D _ _ 0x11 1 _ _ R5 eq_refl) as R6.
  pose proof (read_next_alike D _ _ 0x12 1 _ _ R6 eq_refl) as R7.
  clear R1 R2 R3 R4 R5 R6.
  assert (HR : forall n u, oand_then (oand_then (oand_then (oand_then (oand_then (oand_then (read_bytes 1 e) (fun '(_, d0) => read_bytes 1 d0))
    (fun '(_, d0) => read_bytes 1 d0)) (fun '(_, d0) => read_bytes 1 d0)) (fun '(_, d0) => read_bytes 4 d0)) (fun '(_, d0) => read_bytes 1 d0))
    (fun '(_, d0) => read_bytes 1 d0) = Some (n, u) -> u = drop 15 (data r)).
  { intros n u E. assert (X : u = drop (1 + 1 + 1 + 1 + 4 + 1 + 1) e).
    { revert n u E. do 6 (intros n u E; eapply next_rest; [clear n u E|exact E]). exact (read_rest 1 e). }
    rewrite X. unfold e. rewrite drop_drop. reflexivity. }
  revert R7 HR.
  match goal with |- read_alike _ _ _ ?a ?b -> _ => generalize a; generalize b end.
  intros b7 a7 R7 HR.
  eapply course_obind with (R := left_alike (0x15 + (offset_byte 0x13 (data r) * offset_byte 0x14 (data r)) mod 256)).
  { destruct a7 as [[n7 e7]|], b7 as [[n7' e7']|]; try contradiction; [|exact I]. apply contained_course; [exact (proj2 R7)|clr|].
    rewrite (HR n7 e7 eq_refl). unfold offset_byte. change (N.to_nat (0x13 - 4)) with 15%nat. change (N.to_nat (0x14 - 4)) with 16%nat.
    unfold drop. change (N.to_nat 15) with 15%nat. rewrite !nth_behind. reflexivity. }
  intros ct ct' HCT.
  eapply course_rbind with (R := any); [|intros ? ? ?; exact I].
  destruct ct as [[s1 u]|], ct' as [[s2 u']|]; cbn in HCT; try contradiction; [|exact I]. cbn [oand_then].
  pose proof (read_bytes_alike D _ 1 u u' HCT) as RU.
  destruct (read_bytes 1 u) as [[n1 u1]|], (read_bytes 1 u') as [[n2 u2]|]; try contradiction; [|exact I].
  assert (EN : n1 = n2).
  { apply (proj1 RU). eapply clear_in; [|exact U]. cbn [existsb]. rewrite !N.leb_refl. cbn. rewrite ?orb_true_r. reflexivity. }
  subst n2. change (find_string r' n1) with (find_string r n1). destruct (find_string r n1); cbn; auto.
Qed.
End Outcomes.

Lemma course_map {A} (f : A -> Structure) m m' : course any m m' -> same_outcome (map_ok f m) (map_ok f m').
Proof. unfold map_ok, same_outcome. destruct m as [[]| |], m' as [[]| |]; cbn; auto. Qed.

Lemma dispatch_outcome c r d D : differ_at D (data r) d -> all_bytes (data r) -> all_bytes d ->
  untouched D (deciding (version r) (info r) (data r)) -> same_outcome (dispatch c r) (dispatch c (with_data d r)).
Proof.
  intros HA HB HB'. unfold dispatch. change (info (with_data d r)) with (info r). destruct (info r); intros U;
    first [ exact I
    | apply course_map;
      first [ apply (Bios_course D); assumption | apply (System_course D); assumption | apply (BaseBoard_course D); assumption
            | apply (Enclosure_course D); assumption | apply (Processor_course D); assumption | apply (Cache_course D); assumption
            | apply (PortConnector_course D); assumption | apply (SystemSlots_course D); assumption | apply (OemStrings_course)
            | apply (SystemConfigurationOptions_course D); assumption | apply (BiosLanguage_course D); assumption
            | apply (GroupAssociations_course D); assumption | apply (SystemEventLog_course D); assumption
            | apply (PhysicalMemoryArray_course D); assumption | apply (MemoryDevice_course D); assumption
            | apply (MemoryError32_course D); assumption | apply (MemoryArrayMappedAddress_course D); assumption
            | apply (MemoryDeviceMappedAddress_course D); assumption | apply (BuiltInPointingDevice_course D); assumption
            | apply (PortableBattery_course D); assumption ] ].
Qed.
