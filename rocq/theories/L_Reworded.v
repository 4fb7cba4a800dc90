From Coq Require Import ZArith Lia ZifyBool ZifyNat ZifyN.
From Coq Require Import String.
From Verif Require Import Base G_Enums M_Raw M_Entry M_Bios M_System M_BaseBoard M_Enclosure M_Processor M_Cache M_PortConnector.
From Verif Require Import M_SystemSlots M_Strings M_GroupAssociations M_SystemEventLog M_PhysicalMemoryArray M_MemoryDevice M_Memory.
From Verif Require Import M_PortableBattery M_Iter Spec S_Iter S_Decode S_Lists S_Origin S_Reworded L_Base L_Strings L_Decode L_Lists L_Iter.
Local Open Scope N_scope.

Section Reworded.
Variables (c : cfg) (r : RawStructure) (ss aft : list N).
Let r' := reworded ss aft r.
Hypothesis numbers : same_numbers r r'.

Lemma find_reworded i : same_item (same_number r r') (find_string r i) (find_string r' i).
Proof.
  destruct (find_string r i) as [t|e] eqn:E, (find_string r' i) as [t'|e'] eqn:E'; cbn [same_item].
  - apply find_string_ok in E. apply find_string_ok in E'. exists i. split; assumption.
  - apply find_string_ok in E. apply find_string_err in E'. destruct E' as [_ E'].
    destruct (proj1 (numbers i) (ex_intro _ t E)) as [u U]. exact (E' u U).
  - apply find_string_err in E. apply find_string_ok in E'. destruct E as [_ E].
    destruct (proj2 (numbers i) (ex_intro _ t' E')) as [u U]. exact (E u U).
  - apply find_string_err in E. apply find_string_err in E'. destruct E as [-> _], E' as [-> _]. reflexivity.
Qed.

Definition same_option {A} (R : A -> A -> Prop) (x y : option A) : Prop :=
  match x, y with Some a, Some b => R a b | None, None => True | _, _ => False end.

Lemma course_rbind {A B} (R : A -> A -> Prop) (S : B -> B -> Prop) (m m' : out (res A)) k k' :
  same_course (same_item R) m m' -> (forall x y, R x y -> same_course (same_item S) (k x) (k' y)) ->
  same_course (same_item S) (rbind m k) (rbind m' k').
Proof.
  intros H K. destruct m as [[x|e]| |], m' as [[y|f]| |]; cbn [same_course same_item] in H; try contradiction; cbn; try exact Logic.I.
  - exact (K x y H).
  - exact H.
Qed.
Lemma course_obind {A B} (R : A -> A -> Prop) (S : B -> B -> Prop) (m m' : out A) k k' :
  same_course R m m' -> (forall x y, R x y -> same_course S (k x) (k' y)) ->
  same_course S (obind m k) (obind m' k').
Proof.
  intros H K. destruct m as [x| |], m' as [y| |]; cbn [same_course] in H; try contradiction; cbn; try exact Logic.I.
  exact (K x y H).
Qed.
Lemma course_same {A} (m : out A) : same_course eq m m.
Proof. destruct m; cbn; reflexivity || exact Logic.I. Qed.
Lemma course_find i : same_course (same_item (same_number r r')) (Val (find_string r i)) (Val (find_string r' i)).
Proof. exact (find_reworded i). Qed.
Lemma course_res {A} (m : out (res A)) : same_course (same_item eq) m m.
Proof. destruct m as [[]| |]; cbn; reflexivity || exact Logic.I. Qed.
Lemma course_get_string off : same_course (same_item (same_number r r')) (get_string c off r) (get_string c off r').
Proof.
  unfold get_string. change (get c 1 off r') with (get c 1 off r). eapply course_rbind; [apply course_res|].
  intros x y <-. apply course_find.
Qed.
Lemma course_ok {A} (R : A -> A -> Prop) m m' : same_course (same_item R) m m' -> same_course (same_option R) (omap ok m) (omap ok m').
Proof. destruct m as [[]| |], m' as [[]| |]; cbn; auto. Qed.
Lemma course_get_string_ok off : same_course (same_option (same_number r r')) (get_string_ok c off r) (get_string_ok c off r').
Proof. apply course_ok, course_get_string. Qed.
Lemma course_basic off : same_course (same_option (same_number r r')) (basic_string c off r) (basic_string c off r').
Proof.
  unfold basic_string. change (get_ok c 1 off r') with (get_ok c 1 off r). eapply course_obind; [apply course_same|].
  intros x y <-. destruct x as [i|]; cbn; [|exact Logic.I]. destruct (negb (i =? 0)); cbn; [|exact Logic.I].
  pose proof (find_reworded i) as H. destruct (find_string r i), (find_string r' i); cbn in *; auto.
Qed.
Lemma course_map {A} (R : A -> A -> Prop) (S : Structure -> Structure -> Prop) f (m m' : out (res A)) :
  (forall x y, R x y -> S (f x) (f y)) -> same_course (same_item R) m m' ->
  same_course (same_item S) (map_ok f m) (map_ok f m').
Proof. intros HF H. unfold map_ok. destruct m as [[]| |], m' as [[]| |]; cbn in *; auto. Qed.

Hypothesis strict : flat_memory c = false.

Lemma packed_reworded n : read_packed c n r' = read_packed c n r.
Proof. unfold read_packed. rewrite strict. reflexivity. Qed.

Ltac go :=
  match goal with
  | |- same_course _ (obind (get_string_ok _ _ _) _) _ => eapply course_obind; [apply course_get_string_ok|intros ? ? ?]
  | |- same_course _ (obind (basic_string _ _ _) _) _ => eapply course_obind; [apply course_basic|intros ? ? ?]
  | |- same_course _ (obind (read_packed _ _ _) _) _ =>
      rewrite ?packed_reworded; eapply course_obind; [apply course_same|intros ? ? <-]
  | |- same_course _ (obind ?m _) (obind ?m' _) => change m' with m; eapply course_obind; [apply course_same|intros ? ? <-]
  | |- same_course _ (rbind (Val (find_string _ _)) _) _ => eapply course_rbind; [apply course_find|intros ? ? ?]
  | |- same_course _ (rbind (get_string _ _ _) _) _ => eapply course_rbind; [apply course_get_string|intros ? ? ?]
  | |- same_course _ (rbind ?m _) (rbind ?m' _) => change m' with m; eapply course_rbind; [apply course_res|intros ? ? <-]
  | |- same_course _ (if ?b then _ else _) (if ?b then _ else _) => destruct b
  | |- same_course _ (Val (Err _)) (Val (Err _)) => reflexivity
  | |- same_course _ Panic Panic => exact Logic.I
  end.
Ltac texts := cbn; repeat (first [apply Forall2_nil|apply Forall2_cons]); try assumption.

Notation tr K := (fun x y => translated r r' (K x) (K y)).
Lemma Bios_reworded : same_course (same_item (tr SBios)) (Bios_try_from c r) (Bios_try_from c r').
Proof. unfold Bios_try_from. change (version r') with (version r). repeat go. all: split; [reflexivity|texts]. Qed.
Lemma System_reworded : same_course (same_item (tr SSystem)) (System_try_from c r) (System_try_from c r').
Proof. unfold System_try_from. change (version r') with (version r). repeat go. all: split; [reflexivity|texts]. Qed.
Lemma Processor_reworded : same_course (same_item (tr SProcessor)) (Processor_try_from c r) (Processor_try_from c r').
Proof. unfold Processor_try_from. change (version r') with (version r). repeat go. all: split; [reflexivity|texts]. Qed.
Lemma Cache_reworded : same_course (same_item (tr SCache)) (Cache_try_from c r) (Cache_try_from c r').
Proof. unfold Cache_try_from. change (version r') with (version r). repeat go. all: split; [reflexivity|texts]. Qed.
Lemma PortConnector_reworded : same_course (same_item (tr SPortConnector)) (PortConnector_try_from c r) (PortConnector_try_from c r').
Proof. unfold PortConnector_try_from. repeat go. all: split; [reflexivity|texts]. Qed.
Lemma SystemSlots_reworded : same_course (same_item (tr SSystemSlots)) (SystemSlots_try_from c r) (SystemSlots_try_from c r').
Proof.
  unfold SystemSlots_try_from. change (version r') with (version r). change (data r') with (data r). change (handle r') with (handle r).
  repeat go. all: split; [reflexivity|texts].
Qed.
Lemma BiosLanguage_reworded : same_course (same_item (tr SBiosLanguage)) (BiosLanguage_try_from c r) (BiosLanguage_try_from c r').
Proof. unfold BiosLanguage_try_from. change (version r') with (version r). repeat go. all: split; [reflexivity|texts]. Qed.
Lemma GroupAssociations_reworded :
  same_course (same_item (tr SGroupAssociations)) (GroupAssociations_try_from c r) (GroupAssociations_try_from c r').
Proof.
  unfold GroupAssociations_try_from. change (length_ r') with (length_ r). go. go. destruct x0; [|exact Logic.I || reflexivity].
  repeat go. all: split; [reflexivity|texts].
Qed.
Lemma option_blank a b : same_option (same_number r r') a b -> blank a = blank b /\ Forall2 (same_number r r') (optional a) (optional b).
Proof. destruct a, b; cbn; try contradiction; split; try reflexivity; repeat constructor; assumption. Qed.
Lemma MemoryDevice_reworded : same_course (same_item (tr SMemoryDevice)) (MemoryDevice_try_from c r) (MemoryDevice_try_from c r').
Proof.
  unfold MemoryDevice_try_from. change (data r') with (data r). change (handle r') with (handle r). repeat go.
  match goal with H : same_option _ _ _ |- _ => apply option_blank in H; destruct H as [HB HT] end.
  split; [unfold without_texts; cbn [forget blank_texts memdev_firmware_version]; rewrite HB; reflexivity|].
  cbn [shown_texts]. apply Forall2_app; [texts|exact HT].
Qed.
Lemma date_blank a b n : same_option (same_number r r') a b ->
  blank_date (ManufactureDate_new a n) = blank_date (ManufactureDate_new b n) /\
  Forall2 (same_number r r') (date_text (ManufactureDate_new a n)) (date_text (ManufactureDate_new b n)).
Proof. destruct a, b; cbn [same_option]; try contradiction; intros H; split; try reflexivity; destruct n; repeat constructor; assumption. Qed.
Lemma serial_blank a b n : same_option (same_number r r') a b ->
  blank_serial (SerialNumber_new a n) = blank_serial (SerialNumber_new b n) /\
  Forall2 (same_number r r') (serial_text (SerialNumber_new a n)) (serial_text (SerialNumber_new b n)).
Proof. destruct a, b; cbn [same_option]; try contradiction; intros H; split; try reflexivity; destruct n; repeat constructor; assumption. Qed.
Lemma chemistry_blank n a b : same_option (same_number r r') a b ->
  blank_chemistry (DeviceChemistry_new n a) = blank_chemistry (DeviceChemistry_new n b) /\
  Forall2 (same_number r r') (chemistry_text (DeviceChemistry_new n a)) (chemistry_text (DeviceChemistry_new n b)).
Proof.
  intros H. unfold DeviceChemistry_new.
  repeat match goal with |- context [if ?b then _ else _] => destruct b; [try (split; [reflexivity|constructor])|] end.
  - destruct a, b; cbn [same_option] in H; try contradiction; split; try reflexivity; repeat constructor; assumption.
  - split; [reflexivity|constructor].
Qed.
Lemma PortableBattery_reworded : same_course (same_item (tr SPortableBattery)) (PortableBattery_try_from c r) (PortableBattery_try_from c r').
Proof.
  unfold PortableBattery_try_from. change (version r') with (version r). change (handle r') with (handle r).
  change (length_ r') with (length_ r). repeat go.
  repeat match goal with
  | |- context [ManufactureDate_new ?x ?n] =>
      match goal with H : same_option _ x ?y |- _ => destruct (date_blank x y n H) as [D1 D2]; clear H end
  | |- context [SerialNumber_new ?x ?n] =>
      match goal with H : same_option _ x ?y |- _ => destruct (serial_blank x y n H) as [S1 S2]; clear H end
  | |- context [DeviceChemistry_new ?n ?x] =>
      match goal with H : same_option _ x ?y |- _ => destruct (chemistry_blank n x y H) as [C1 C2]; clear H end
  end.
  split.
  - unfold without_texts. cbn [forget blank_texts battery_handle battery_manufacture_date battery_serial_number battery_device_chemistry
      battery_design_capacity battery_design_voltage battery_maximum_error_in_battery_data battery_oem_specific].
    rewrite D1, S1, C1. reflexivity.
  - cbn [shown_texts battery_location battery_manufacturer battery_manufacture_date battery_serial_number battery_device_name
      battery_device_chemistry battery_sbds_version_number].
    repeat first [apply Forall2_app|apply Forall2_cons|apply Forall2_nil|assumption].
Qed.
Lemma course_some_if b i :
  same_course (same_item (same_option (same_number r r'))) (some_if b (find_string r i)) (some_if b (find_string r' i)).
Proof.
  destruct b; [|reflexivity || exact Logic.I]. pose proof (find_reworded i) as H. unfold some_if.
  destruct (find_string r i), (find_string r' i); cbn in *; assumption.
Qed.
Lemma BaseBoard_reworded : same_course (same_item (tr SBaseBoard)) (BaseBoard_try_from c r) (BaseBoard_try_from c r').
Proof.
  unfold BaseBoard_try_from. change (data r') with (data r). go.
  eapply course_rbind; [apply course_some_if|intros a a' HA]. eapply course_rbind; [apply course_some_if|intros l l' HL]. repeat go.
  apply option_blank in HA. apply option_blank in HL. destruct HA as [A1 A2], HL as [L1 L2]. split.
  - unfold without_texts. cbn [forget blank_texts baseboard_asset baseboard_location_in_chassis baseboard_handle
      baseboard_feature_flags baseboard_chassis_handle baseboard_board_type]. rewrite A1, L1. reflexivity.
  - cbn [shown_texts baseboard_asset baseboard_location_in_chassis baseboard_manufacturer baseboard_product baseboard_version baseboard_serial].
    repeat first [apply Forall2_app|apply Forall2_cons|apply Forall2_nil|assumption].
Qed.

Definition same_elements (a b : option (ContainedElements * list N)) : Prop :=
  same_option (fun x y => bare_elements (fst x) = bare_elements (fst y) /\ snd x = snd y) a b.
Lemma elements_reworded d a a' : same_course same_elements (ContainedElements_new c d a) (ContainedElements_new c d a').
Proof.
  unfold ContainedElements_new. destruct (read_bytes 1 d) as [[n d1]|]; [|exact Logic.I].
  destruct (read_bytes 1 d1) as [[m d2]|]; [|exact Logic.I].
  destruct ((n =? 0) || (m =? 0)); [split; reflexivity|].
  eapply course_obind; [apply course_same|intros x y <-]. destruct (slice_get d2 0 x); [split; reflexivity|exact Logic.I].
Qed.
Lemma Enclosure_reworded : same_course (same_item (tr SEnclosure)) (Enclosure_try_from c r) (Enclosure_try_from c r').
Proof.
  unfold Enclosure_try_from. change (data r') with (data r). change (handle r') with (handle r). change (info r') with (info r). repeat go.
  cbv zeta.
  eapply course_obind with (R := same_elements).
  { match goal with |- same_course _ (match ?o with Some _ => _ | None => _ end) _ => destruct o as [[n d]|] end; [apply elements_reworded|exact Logic.I]. }
  intros a b HE.
  assert (HS : oand_then a (fun '(_, d) => read_bytes 1 d) = oand_then b (fun '(_, d) => read_bytes 1 d)).
  { destruct a as [[? ?]|], b as [[? ?]|]; cbn in HE; try contradiction; [destruct HE as [_ ->]|]; reflexivity. }
  rewrite HS. clear HS.
  eapply course_rbind with (R := same_option (same_number r r')).
  { destruct (oand_then b (fun '(_, d) => read_bytes 1 d)) as [[n d]|]; [|exact Logic.I]. pose proof (find_reworded n) as FR.
    destruct (find_string r n), (find_string r' n); cbn in *; assumption. }
  intros k k' HK. apply option_blank in HK. destruct HK as [K1 K2].
  assert (HB : option_map bare_elements (option_map fst a) = option_map bare_elements (option_map fst b)).
  { destruct a as [[? ?]|], b as [[? ?]|]; cbn in *; try contradiction; [destruct HE as [HE _]; f_equal; exact HE|reflexivity]. }
  split.
  - unfold without_texts. cbn [forget blank_texts enclosure_contained_elements enclosure_sku_number]. rewrite HB, K1. reflexivity.
  - cbn [shown_texts enclosure_sku_number enclosure_manufacturer enclosure_version enclosure_serial_number enclosure_asset_tag_number].
    repeat first [apply Forall2_app|apply Forall2_cons|apply Forall2_nil|assumption].
Qed.

Lemma strings_of_reworded l l' : strings_of (strings r) l -> strings_of ss l' -> len l = len l'.
Proof.
  intros H H'.
  assert (G : forall (a b : list text) A B, strings_of A a -> strings_of B b ->
    (forall k, (exists t, string_number A k t) -> exists t, string_number B k t) -> len a <= len b).
  { intros a b A B HA HB HI. destruct (N.le_gt_cases (len a) (len b)) as [|L]; [assumption|exfalso].
    destruct (nth_error a (N.to_nat (len b))) as [t|] eqn:E.
    - destruct (HI (len b + 1)) as [t' HT].
      { exists t. apply HA; [lia|]. replace (len b + 1 - 1) with (len b) by lia. exact E. }
      apply HB in HT; [|lia]. replace (len b + 1 - 1) with (len b) in HT by lia.
      assert (nth_error b (N.to_nat (len b)) <> None) as HN by congruence. apply nth_error_Some in HN. unfold len in HN. lia.
    - apply nth_error_None in E. unfold len in *. lia. }
  assert (Q : forall k t, string_number (strings r) k t -> exists t', string_number ss k t').
  { intros k t S. destruct (proj1 (numbers k)) as [t' [[-> _]|[_ T]]]; [exists t; right| |exists t'; exact T].
    - split; [|exact S]. destruct S as [? [? [? _]]]. lia.
    - destruct S as [? [? [? _]]]. lia. }
  assert (Q' : forall k t, string_number ss k t -> exists t', string_number (strings r) k t').
  { intros k t S. destruct (proj2 (numbers k)) as [t' [[-> _]|[_ T]]]; [exists t; right| |exists t'; exact T].
    - split; [|exact S]. destruct S as [? [? [? _]]]. lia.
    - destruct S as [? [? [? _]]]. lia. }
  apply N.le_antisymm.
  - apply (G l l' _ _ H H'). intros k [t S]. exact (Q k t S).
  - apply (G l' l _ _ H' H). intros k [t S]. exact (Q' k t S).
Qed.
Lemma options_reworded : same_course (same_item (tr SSystemConfigurationOptions))
  (SystemConfigurationOptions_try_from c r) (SystemConfigurationOptions_try_from c r').
Proof.
  destruct (strings_of_total r) as [l HL]. destruct (strings_of_total r') as [l' HL'].
  rewrite (options_eq c r l HL), (options_eq c r' l' HL'). change (field r' 4 1) with (field r 4 1). change (handle r') with (handle r).
  rewrite <- (strings_of_reworded l l' HL HL'). destruct (field r 4 1) as [n|]; [|reflexivity].
  destruct (n =? len l); [|reflexivity]. split; [reflexivity|constructor].
Qed.

Lemma dispatch_reworded : same_course (same_item (translated r r')) (dispatch c r) (dispatch c r').
Proof.
  unfold dispatch. change (info r') with (info r).
  destruct (info r); try (eapply course_map; [intros ? ? H; exact H|]).
  all: try first [apply Bios_reworded|apply System_reworded|apply BaseBoard_reworded|apply Enclosure_reworded|apply Processor_reworded|
    apply Cache_reworded|apply PortConnector_reworded|apply SystemSlots_reworded|apply options_reworded|apply BiosLanguage_reworded|
    apply GroupAssociations_reworded|apply MemoryDevice_reworded|apply PortableBattery_reworded].
  all: try (split; [reflexivity|constructor]).
  all: match goal with |- same_course _ ?m ?m' => change m' with m; destruct m as [[x|]| |]; [split; [reflexivity|constructor]|reflexivity|exact Logic.I|exact Logic.I] end.
Qed.
End Reworded.

(* --------------------------------------------------------- written strings *)

From Verif Require Import L_Write L_Longer.

Lemma written_number r ss k t : Forall good_string ss -> strings r = encode_strings ss ->
  (text_number r k t <-> (k = 0 /\ t = []) \/ (0 < k /\ nth_error ss (N.to_nat (k - 1)) = Some t)).
Proof.
  intros HG HS. pose proof (encode_strings_of ss HG) as HO. unfold text_number. rewrite HS. split; intros [H|[H1 H2]].
  - left. exact H.
  - right. split; [lia|]. apply HO; [lia|exact H2].
  - left. exact H.
  - right. split; [lia|]. apply HO; [exact H1|exact H2].
Qed.
Lemma written_numbers r r' ss ss' : Forall good_string ss -> Forall good_string ss' -> length ss = length ss' ->
  strings r = encode_strings ss -> strings r' = encode_strings ss' -> same_numbers r r'.
Proof.
  intros G G' HL S S' k.
  assert (Q : forall a b : list text, length a = length b -> forall i x, nth_error a i = Some x -> exists y, nth_error b i = Some y).
  { intros a b L i x H. destruct (nth_error b i) as [y|] eqn:E; [exists y; reflexivity|]. apply nth_error_None in E.
    assert (nth_error a i <> None) as N by congruence. apply nth_error_Some in N. lia. }
  split; intros [t H].
  - apply (written_number r ss k t G S) in H. destruct H as [[-> _]|[HK H]]; [exists []; left; split; reflexivity|].
    destruct (Q ss ss' HL _ _ H) as [u U]. exists u. apply (written_number r' ss' k u G' S'). right. split; assumption.
  - apply (written_number r' ss' k t G' S') in H. destruct H as [[-> _]|[HK H]]; [exists []; left; split; reflexivity|].
    destruct (Q ss' ss (eq_sym HL) _ _ H) as [u U]. exists u. apply (written_number r ss k u G S). right. split; assumption.
Qed.
Lemma written_place r r' ss ss' t t' : Forall good_string ss -> Forall good_string ss' ->
  strings r = encode_strings ss -> strings r' = encode_strings ss' -> same_number r r' t t' -> same_place ss ss' t t'.
Proof.
  intros G G' S S' [k [H H']]. apply (written_number r ss k t G S) in H. apply (written_number r' ss' k t' G' S') in H'.
  destruct H as [[-> ->]|[HK H]], H' as [[K ->]|[HK' H']]; try lia; [left; split; reflexivity|].
  right. exists (N.to_nat (k - 1)). split; assumption.
Qed.

Lemma translated_written c v s ss ss' rest rest' : flat_memory c = false -> e_strings s = ss ->
  Forall good_string ss -> Forall good_string ss' -> length ss = length ss' ->
  same_course (same_item (fun x y => without_texts x = without_texts y /\ Forall2 (same_place ss ss') (shown_texts x) (shown_texts y)))
    (dispatch c (raw_of v s rest)) (dispatch c (raw_of v (translation s ss') rest')).
Proof.
  intros HF HE G G' HL.
  pose proof (dispatch_reworded c (raw_of v s rest) (encode_strings ss') (encode_strings ss' ++ rest')) as H.
  change (reworded (encode_strings ss') (encode_strings ss' ++ rest') (raw_of v s rest)) with (raw_of v (translation s ss') rest') in H.
  assert (S : strings (raw_of v s rest) = encode_strings ss) by (cbn [raw_of strings]; rewrite HE; reflexivity).
  assert (S' : strings (raw_of v (translation s ss') rest') = encode_strings ss') by reflexivity.
  specialize (H (written_numbers _ _ ss ss' G G' HL S S') HF).
  destruct (dispatch c (raw_of v s rest)) as [[x|]| |], (dispatch c (raw_of v (translation s ss') rest')) as [[y|]| |];
    cbn [same_course same_item] in *; try contradiction; try exact H.
  destruct H as [H1 H2]. split; [exact H1|].
  induction H2 as [|a b la lb HA _ IH]; constructor; [|exact IH]. eapply written_place; eassumption.
Qed.

Lemma translated_table c v rest l : flat_memory c = false ->
  Forall (fun p => Forall good_string (e_strings (fst p)) /\ Forall good_string (snd p) /\ length (e_strings (fst p)) = length (snd p)) l ->
  forall xs, Forall2 (fun r x => dispatch c r = Val x) (shown v (map fst l) rest) xs ->
  exists ys, Forall2 (fun r y => dispatch c r = Val y) (shown v (map (fun p => translation (fst p) (snd p)) l) rest) ys /\
    length ys = length xs /\
    forall i p x y, nth_error l i = Some p -> nth_error xs i = Some x -> nth_error ys i = Some y ->
      same_item (fun x y => without_texts x = without_texts y /\
        Forall2 (same_place (e_strings (fst p)) (snd p)) (shown_texts x) (shown_texts y)) x y.
Proof.
  intros HF. induction l as [|[s ss] l IH]; intros HO xs H; cbn [map shown fst snd] in *.
  - inversion H; subst. exists []. split; [constructor|]. split; [reflexivity|]. intros [|i]; discriminate.
  - inversion H as [|r x rs xs' HX HXS]; subst. inversion HO as [|? ? HO1 HO2]; subst. destruct HO1 as [G [G' HL]]. cbn [fst snd] in *.
    pose proof (translated_written c v s (e_strings s) ss (table (map fst l) ++ rest)
      (table (map (fun p => translation (fst p) (snd p)) l) ++ rest) HF eq_refl G G' HL) as T.
    rewrite HX in T. cbn [same_course] in T.
    destruct (dispatch c (raw_of v (translation s ss) (table (map (fun p => translation (fst p) (snd p)) l) ++ rest))) as [y| |] eqn:E; try contradiction.
    change (e_type (translation s ss)) with (e_type s).
    destruct ((3 <=? major v) && (e_type s =? 127)).
    + inversion HXS; subst. exists [y]. split; [constructor; [exact E|constructor]|]. split; [reflexivity|].
      intros [|i] p a b; cbn [nth_error]; [|destruct i; discriminate]. intros [= <-] [= <-] [= <-]. exact T.
    + destruct (IH HO2 xs' HXS) as [ys [I1 [I2 I3]]]. exists (y :: ys). split; [constructor; assumption|].
      split; [cbn; congruence|]. intros [|i] p a b; cbn [nth_error]; [|apply I3]. intros [= <-] [= <-] [= <-]. exact T.
Qed.

(* --------------------------------------------------------- appended strings *)

Section More.
Variables (c : cfg) (r : RawStructure) (ss aft : list N).
Let r' := reworded ss aft r.
Hypothesis strict : flat_memory c = false.
Hypothesis more : more_strings r ss.

Lemma find_more i t : find_string r i = Ok t -> find_string r' i = Ok t.
Proof.
  intros H. apply find_string_ok in H. apply find_string_ok. destruct H as [H|[HK H]]; [left; exact H|right].
  split; [exact HK|]. exact (more i t H).
Qed.
Lemma yields_find i : yields eq (Val (find_string r i)) (Val (find_string r' i)).
Proof. intros t H. injection H as H. exists t. rewrite (find_more i t H). split; reflexivity. Qed.
Lemma yields_get_string off : yields eq (get_string c off r) (get_string c off r').
Proof.
  unfold get_string. change (get c 1 off r') with (get c 1 off r). eapply yields_rbind; [apply yields_same|].
  intros x y <-. apply yields_find.
Qed.
Lemma leads_same {A} (m : out A) : leads eq m m.
Proof. intros x H. exists x. split; [exact H|reflexivity]. Qed.
Lemma packed_more n : read_packed c n r' = read_packed c n r.
Proof. unfold read_packed. rewrite strict. reflexivity. Qed.

Ltac go :=
  match goal with
  | |- yields _ (obind (read_packed _ _ _) _) _ =>
      rewrite ?packed_more; eapply yields_obind; [apply leads_same|intros ? ? <-]
  | |- yields _ (obind ?m _) (obind ?m' _) => change m' with m; eapply yields_obind; [apply leads_same|intros ? ? <-]
  | |- yields _ (rbind (Val (find_string _ _)) _) _ => eapply yields_rbind; [apply yields_find|intros ? ? <-]
  | |- yields _ (rbind (get_string _ _ _) _) _ => eapply yields_rbind; [apply yields_get_string|intros ? ? <-]
  | |- yields _ (rbind ?m _) (rbind ?m' _) => change m' with m; eapply yields_rbind; [apply yields_same|intros ? ? <-]
  | |- yields _ (if ?b then _ else _) (if ?b then _ else _) => destruct b
  | |- yields _ (Val (Err _)) _ => intros ? ?; discriminate
  | |- yields _ Panic _ => intros ? ?; discriminate
  | |- yields _ (Val (Ok _)) (Val (Ok _)) => apply yields_val
  end.

Lemma Bios_more : yields eq (Bios_try_from c r) (Bios_try_from c r').
Proof. unfold Bios_try_from. change (version r') with (version r). repeat go; reflexivity. Qed.
Lemma System_more : yields eq (System_try_from c r) (System_try_from c r').
Proof. unfold System_try_from. change (version r') with (version r). repeat go; reflexivity. Qed.
Lemma Processor_more : yields eq (Processor_try_from c r) (Processor_try_from c r').
Proof. unfold Processor_try_from. change (version r') with (version r). repeat go; reflexivity. Qed.
Lemma Cache_more : yields eq (Cache_try_from c r) (Cache_try_from c r').
Proof. unfold Cache_try_from. change (version r') with (version r). repeat go; reflexivity. Qed.
Lemma PortConnector_more : yields eq (PortConnector_try_from c r) (PortConnector_try_from c r').
Proof. unfold PortConnector_try_from. repeat go; reflexivity. Qed.
Lemma SystemSlots_more : yields eq (SystemSlots_try_from c r) (SystemSlots_try_from c r').
Proof.
  unfold SystemSlots_try_from. change (version r') with (version r). change (data r') with (data r). change (handle r') with (handle r).
  repeat go. reflexivity.
Qed.
Lemma GroupAssociations_more : yields eq (GroupAssociations_try_from c r) (GroupAssociations_try_from c r').
Proof.
  unfold GroupAssociations_try_from. change (length_ r') with (length_ r). go. go. destruct x0; [|intros ? ?; discriminate].
  repeat go. reflexivity.
Qed.
Lemma yields_some_if b i : yields eq (some_if b (find_string r i)) (some_if b (find_string r' i)).
Proof.
  destruct b; [|apply yields_same]. unfold some_if. intros o H. destruct (find_string r i) as [t|] eqn:E; [|discriminate].
  injection H as <-. rewrite (find_more i t E). exists (Some t). split; reflexivity.
Qed.
Lemma BaseBoard_more : yields eq (BaseBoard_try_from c r) (BaseBoard_try_from c r').
Proof.
  unfold BaseBoard_try_from. change (data r') with (data r). go.
  eapply yields_rbind; [apply yields_some_if|intros ? ? <-]. eapply yields_rbind; [apply yields_some_if|intros ? ? <-].
  repeat go. reflexivity.
Qed.
Lemma Enclosure_more : yields (fun x y => forget (SEnclosure x) = forget (SEnclosure y)) (Enclosure_try_from c r) (Enclosure_try_from c r').
Proof.
  unfold Enclosure_try_from. change (data r') with (data r). change (handle r') with (handle r). change (info r') with (info r). repeat go.
  cbv zeta. eapply yields_obind with (R := same_elements).
  { match goal with |- leads _ (match ?o with Some _ => _ | None => _ end) _ => destruct o as [[n d]|] end.
    - intros a HA. pose proof (elements_reworded c d (after r) (after r')) as HE. rewrite HA in HE. cbn [same_course] in HE.
      destruct (ContainedElements_new c d (after r')) as [b| |]; try contradiction. exists b. split; [reflexivity|exact HE].
    - intros a [= <-]. exists None. split; [reflexivity|exact Logic.I]. }
  intros a b HE.
  assert (HS : oand_then a (fun '(_, d) => read_bytes 1 d) = oand_then b (fun '(_, d) => read_bytes 1 d)).
  { destruct a as [[? ?]|], b as [[? ?]|]; cbn in HE; try contradiction; [destruct HE as [_ ->]|]; reflexivity. }
  rewrite HS. clear HS.
  eapply yields_rbind with (R := eq).
  { destruct (oand_then b (fun '(_, d) => read_bytes 1 d)) as [[n d]|]; [|apply yields_same]. exact (yields_some_if true n). }
  intros k k' <-. apply yields_val.
  assert (HB : option_map bare_elements (option_map fst a) = option_map bare_elements (option_map fst b)).
  { destruct a as [[? ?]|], b as [[? ?]|]; cbn in *; try contradiction; [destruct HE as [HE _]; f_equal; exact HE|reflexivity]. }
  cbn [forget enclosure_contained_elements]. rewrite HB. reflexivity.
Qed.
Lemma BiosLanguage_more : yields (fun x y => without_texts (SBiosLanguage x) = without_texts (SBiosLanguage y))
  (BiosLanguage_try_from c r) (BiosLanguage_try_from c r').
Proof. unfold BiosLanguage_try_from. change (version r') with (version r). repeat go; reflexivity. Qed.

Let there o := match field r o 1 with Some k => exists t, text_number r k t | None => True end.
Lemma find_there i : (exists t, text_number r i t) -> find_string r' i = find_string r i.
Proof. intros [t H]. apply find_string_ok in H. rewrite H. exact (find_more i t H). Qed.
Lemma get_string_ok_there off : 4 <= off < 5000 -> there off -> get_string_ok c off r' = get_string_ok c off r.
Proof.
  intros HO HT. unfold get_string_ok, get_string. change (get c 1 off r') with (get c 1 off r). rewrite get_field by lia. unfold there in HT.
  destruct (field r off 1) as [k|]; [|reflexivity]. cbn [rbind]. rewrite (find_there k HT). reflexivity.
Qed.
Lemma basic_there off : 4 <= off < 5000 -> there off -> basic_string c off r' = basic_string c off r.
Proof.
  intros HO HT. unfold basic_string. change (get_ok c 1 off r') with (get_ok c 1 off r). rewrite get_ok_field by lia. unfold there in HT.
  destruct (field r off 1) as [k|]; [|reflexivity]. cbn [obind ofilter oand_then]. destruct (negb (k =? 0)); [|reflexivity].
  cbn [oand_then]. rewrite (find_there k HT). reflexivity.
Qed.
Lemma MemoryDevice_more : there 0x2B -> yields eq (MemoryDevice_try_from c r) (MemoryDevice_try_from c r').
Proof.
  intros HT. unfold MemoryDevice_try_from. change (data r') with (data r). change (handle r') with (handle r).
  rewrite (get_string_ok_there 0x2B) by (assumption || lia). repeat go. reflexivity.
Qed.
Lemma PortableBattery_more : there 0x06 -> there 0x07 -> there 0x14 -> yields eq (PortableBattery_try_from c r) (PortableBattery_try_from c r').
Proof.
  intros H6 H7 H14. unfold PortableBattery_try_from. change (version r') with (version r). change (handle r') with (handle r).
  change (length_ r') with (length_ r).
  rewrite (get_string_ok_there 0x14), (basic_there 6), (basic_there 7) by (assumption || lia). repeat go; reflexivity.
Qed.

Lemma yields_mapped {A} (R : A -> A -> Prop) (S : Structure -> Structure -> Prop) f (m m' : out (res A)) :
  (forall x y, R x y -> S (f x) (f y)) -> yields R m m' -> yields S (map_ok f m) (map_ok f m').
Proof. apply yields_map. Qed.
Lemma dispatch_more : no_dangling r -> yields (fun x y => without_lists x = without_lists y) (dispatch c r) (dispatch c r').
Proof.
  unfold no_dangling, dispatch. change (info r') with (info r). intros HD.
  destruct (info r); try contradiction.
  all: try match goal with |- yields _ (map_ok SBiosLanguage _) _ => eapply yields_mapped; [|apply BiosLanguage_more]; intros ? ? H; exact H end.
  all: try match goal with |- yields _ (map_ok SOemStrings _) _ => apply yields_val; reflexivity end.
  all: try match goal with |- yields _ (map_ok SEnclosure _) _ => eapply yields_mapped; [|apply Enclosure_more]; intros ? ? H; exact H end.
  all: try match goal with |- yields _ (map_ok _ _) _ => eapply yields_mapped; [intros ? ? H; apply f_equal, f_equal; exact H|] end.
  all: try first [apply Bios_more|apply System_more|apply BaseBoard_more|apply Processor_more|
    apply Cache_more|apply PortConnector_more|apply SystemSlots_more|
    apply GroupAssociations_more|apply MemoryDevice_more; apply HD|apply PortableBattery_more; apply HD].
  all: try (apply yields_val; reflexivity).
  all: try match goal with |- yields _ ?m ?m' => change m' with m; apply yields_same end.
Qed.
End More.
