From Coq Require Import ZArith Lia ZifyBool ZifyNat ZifyN.
From Coq Require Import String.
From Verif Require Import Base G_Enums M_Raw M_Entry M_Bios M_System M_BaseBoard M_Enclosure M_Processor M_Cache M_PortConnector.
From Verif Require Import M_SystemSlots M_Strings M_GroupAssociations M_SystemEventLog M_PhysicalMemoryArray M_MemoryDevice M_Memory.
From Verif Require Import M_PortableBattery M_Iter Spec S_Iter S_Decode S_Versions L_Base L_Decode L_Frame.
Ltac Zify.zify_post_hook ::= Z.div_mod_to_equations.
Local Open Scope N_scope.

(* ------------------------------------------------------------- versions *)

Lemma lt_since v a b : a < 256 -> b < 256 -> version_lt v (version_of a b) = negb (since v a b).
Proof.
  intros HA HB. destruct (version_lt v (version_of a b)) eqn:E; destruct (since v a b) eqn:F; try reflexivity.
  - apply version_lt_iff in E; [|lia|lia]. apply since_iff in F. unfold before_version, from_version in *. lia.
  - apply version_lt_not in E; [|lia|lia]. apply since_not in F. unfold before_version, from_version in *. lia.
Qed.
Lemma ge_since v a b : a < 256 -> b < 256 -> version_ge v (version_of a b) = since v a b.
Proof. intros HA HB. unfold version_ge. rewrite lt_since by assumption. apply negb_involutive. Qed.
Lemma gt_since v a b : a < 256 -> b < 256 -> version_gt v (version_of a b) = since v a (b + 1).
Proof.
  intros HA HB. destruct (version_gt v (version_of a b)) eqn:E; destruct (since v a (b + 1)) eqn:F; try reflexivity.
  - apply version_gt_iff in E; [|lia|lia]. apply since_not in F. unfold before_version, from_version in *. lia.
  - apply version_gt_not in E; [|lia|lia]. apply since_iff in F. unfold before_version, from_version in *. lia.
Qed.
Lemma since_mono v w a b : no_later v w -> since v a b = true -> since w a b = true.
Proof. rewrite !since_iff. unfold no_later, from_version. lia. Qed.

Lemma kept_if {A} v w a b (x : A) : no_later v w ->
  kept (if since v a b then Some x else None) (if since w a b then Some x else None).
Proof.
  intros H y E. destruct (since v a b) eqn:S; [|discriminate]. rewrite (since_mono v w a b H S). exact E.
Qed.
Lemma kept_refl {A} (o : option A) : kept o o.
Proof. intros x H. exact H. Qed.
Lemma not_between v w a b : no_later v w -> ~ between v w a b -> since v a b = since w a b.
Proof.
  intros HV H. destruct (since v a b) eqn:S; [symmetry; exact (since_mono v w a b HV S)|].
  destruct (since w a b) eqn:T; [|reflexivity]. exfalso. apply H. split; [apply since_not; exact S|apply since_iff; exact T].
Qed.
Lemma is_between v w a b : since v a b = false -> since w a b = true -> between v w a b.
Proof. intros S T. split; [apply since_not; exact S|apply since_iff; exact T]. Qed.

(* the bytes from the start of the structure on *)
Definition seen (r : RawStructure) : list N := data r ++ after r.

Lemma packed_take c n r p : read_packed c n r = Val p -> p = take n (seen r).
Proof.
  unfold read_packed, seen. destruct (N.leb_spec n (len (data r))) as [L|L].
  - intros [= <-]. rewrite take_app_le by exact L. reflexivity.
  - destruct (flat_memory c && (n <=? len (data r ++ after r))); [|discriminate]. intros [= <-]. reflexivity.
Qed.

(* a text that is there from a version on *)
Definition text_since (v : SmbiosVersion) (a b : N) (r : RawStructure) (k : N) (o : option text) : Prop :=
  if since v a b then exists t, find_string r (at_ k 1 (seen r)) = Ok t /\ o = Some t else o = None.

Lemma text_since_kept v w a b r k o o' : no_later v w ->
  text_since v a b r k o -> text_since w a b r k o' -> kept o o'.
Proof.
  intros HV. unfold text_since. destruct (since v a b) eqn:S.
  - rewrite (since_mono v w a b HV S). intros [t [E ->]] [t' [E' ->]] x [= <-]. congruence.
  - intros -> _ x H. discriminate.
Qed.

Lemma rbind_ok {A B} (x : A) (f : A -> out (res B)) : rbind (Val (Ok x)) f = f x.
Proof. reflexivity. Qed.

Ltac opens :=
  repeat match goal with
  | H : context [version_lt _ _] |- _ => rewrite lt_since in H by reflexivity
  | H : context [version_ge _ _] |- _ => rewrite ge_since in H by reflexivity
  | H : context [version_gt _ _] |- _ => rewrite gt_since in H by reflexivity
  end.
Ltac branch :=
  match goal with
  | H : (if negb (since ?v ?a ?b) then _ else _) = _ |- _ => destruct (since v a b) eqn:?; cbn [negb] in H
  | H : (if since ?v ?a ?b then _ else _) = _ |- _ => destruct (since v a b) eqn:?
  end.
Ltac packed :=
  match goal with
  | H : obind (read_packed ?c ?n ?r) _ = _ |- _ =>
    let p := fresh "p" in let E := fresh "E" in
    destruct (read_packed c n r) as [p| |] eqn:E; cbn [obind] in H; [|discriminate H|discriminate H];
    apply packed_take in E; subst p; rewrite !at_take in H by lia
  end.
Ltac text_step :=
  match goal with
  | H : (rbind (Val (find_string ?r ?k)) _) = _ |- _ =>
    destruct (find_string r k) eqn:?; [|discriminate H]; rewrite rbind_ok in H; cbv beta in H
  end.

(* what since says about one version about another *)
Ltac contra :=
  exfalso; repeat match goal with
  | H : since _ _ _ = true |- _ => apply since_iff in H
  | H : since _ _ _ = false |- _ => apply since_not in H
  end; unfold from_version, before_version in *; lia.
Ltac known v a b :=
  match goal with
  | H : since v a b = _ |- _ => rewrite H
  | _ => let H := fresh in first
         [assert (H : since v a b = true) by (apply Bool.not_false_is_true; intros ?; contra); rewrite H
         |assert (H : since v a b = false) by (apply Bool.not_true_is_false; intros ?; contra); rewrite H]
  end.
Ltac sinces_known := repeat match goal with |- context [since ?v ?a ?b] => known v a b end.

(* --------------------------------------------------------------- type 0 *)

Lemma Bios_form c r b : Bios_try_from c r = Val (Ok b) ->
  let D := seen r in let v := version r in exists t1 t2 t3,
  find_string r (at_ 0 1 D) = Ok t1 /\ find_string r (at_ 1 1 D) = Ok t2 /\ find_string r (at_ 4 1 D) = Ok t3 /\
  b = {| bios_handle := handle r; bios_vendor := t1; bios_bios_version := t2; bios_starting_address_segment := at_ 2 2 D;
         bios_release_date := t3;
         bios_rom_size := {| basic := at_ 5 1 D; extended := if since v 3 1 then Some (at_ 20 2 D) else None |};
         bios_characteristics := at_ 6 8 D;
         bios_characteristics_extension_1 := if since v 2 4 then Some (at_ 14 1 D) else None;
         bios_characteristics_extension_2 := if since v 2 4 then Some (at_ 15 1 D) else None;
         bios_revision := if since v 2 4 then Some {| rev_major := at_ 16 1 D; rev_minor := at_ 17 1 D |} else None;
         bios_firmware_revision := if since v 2 4 then Some {| rev_major := at_ 18 1 D; rev_minor := at_ 19 1 D |} else None |}.
Proof.
  intros H. cbv zeta. unfold Bios_try_from in H. opens.
  repeat branch; packed; repeat text_step; injection H as <-; do 3 eexists; repeat (split; [reflexivity|]);
    sinces_known; reflexivity.
Qed.

Lemma Bios_grow c r v w x y : no_later v w -> Bios_try_from c (at_version v r) = Val (Ok x) ->
  Bios_try_from c (at_version w r) = Val (Ok y) -> Bios_grows x y.
Proof.
  intros HV HX HY. apply Bios_form in HX. apply Bios_form in HY. cbv zeta in HX, HY.
  destruct HX as [t1 [t2 [t3 [F1 [F2 [F3 ->]]]]]]. destruct HY as [u1 [u2 [u3 [G1 [G2 [G3 ->]]]]]].
  change (find_string (at_version v r) (at_ 0 1 (seen r)) = Ok t1) in F1.
  change (find_string (at_version v r) (at_ 0 1 (seen r)) = Ok u1) in G1.
  change (find_string (at_version v r) (at_ 1 1 (seen r)) = Ok t2) in F2.
  change (find_string (at_version v r) (at_ 1 1 (seen r)) = Ok u2) in G2.
  change (find_string (at_version v r) (at_ 4 1 (seen r)) = Ok t3) in F3.
  change (find_string (at_version v r) (at_ 4 1 (seen r)) = Ok u3) in G3.
  constructor; cbn; try reflexivity; try congruence; try (apply (kept_if v w); exact HV).
Qed.

(* --------------------------------------------------------------- type 1 *)

Lemma uuid_bytes (D : list N) n : 20 <= n -> take 16 (drop 4 (take n D)) = take 16 (drop 4 D).
Proof.
  intros H. unfold take, drop. rewrite skipn_firstn_comm, firstn_firstn. f_equal. lia.
Qed.

Lemma packed_len c n r p : read_packed c n r = Val p -> n <= len (seen r).
Proof.
  unfold read_packed, seen. destruct (N.leb_spec n (len (data r))); [rewrite len_app; lia|].
  destruct (flat_memory c); cbn [andb]; [|discriminate].
  destruct (N.leb_spec n (len (data r ++ after r))); [auto|discriminate].
Qed.

Ltac packed_longer :=
  match goal with
  | H : obind (read_packed ?c ?n ?r) _ = _ |- _ =>
    let p := fresh "p" in let E := fresh "E" in
    destruct (read_packed c n r) as [p| |] eqn:E; cbn [obind] in H; [|discriminate H|discriminate H];
    pose proof (packed_len c n r p E); apply packed_take in E; subst p; rewrite !at_take in H by lia
  end.
Ltac texts := unfold text_since; sinces_known; first [assumption|reflexivity|eexists; split; [eassumption|reflexivity]].

Lemma System_form c r s : System_try_from c r = Val (Ok s) ->
  let D := seen r in let v := version r in exists t1 t2 t3 t4 o5 o6,
  s = {| system_handle := handle r; system_manufacturer := t1; system_product := t2; system_version := t3;
         system_serial := t4;
         system_uuid := if since v 2 1 then Some (decode_by_smbios_version (take 16 (drop 4 D)) v) else None;
         system_wakeup := if since v 2 1 then Some (WakeupType_from (at_ 20 1 D)) else None;
         system_sku := o5; system_family := o6 |} /\
  find_string r (at_ 0 1 D) = Ok t1 /\ find_string r (at_ 1 1 D) = Ok t2 /\ find_string r (at_ 2 1 D) = Ok t3 /\
  find_string r (at_ 3 1 D) = Ok t4 /\ text_since v 2 4 r 21 o5 /\ text_since v 2 4 r 22 o6 /\
  (since v 2 1 = true -> 20 <= len D).
Proof.
  intros H. cbv zeta. unfold System_try_from in H. opens.
  repeat branch; packed_longer; repeat text_step; injection H as <-; rewrite ?uuid_bytes by lia;
    do 6 eexists; (split; [sinces_known; reflexivity|]); repeat (split; [texts|]); intros ?; try lia; contra.
Qed.

Lemma find_at v r k : find_string (at_version v r) k = find_string r k.
Proof. reflexivity. Qed.
Lemma seen_at v r : seen (at_version v r) = seen r.
Proof. reflexivity. Qed.
Lemma text_since_at v a b w r k o : text_since v a b (at_version w r) k o = text_since v a b r k o.
Proof. reflexivity. Qed.

Lemma list16 (l : list N) : 20 <= len l -> exists b0 b1 b2 b3 b4 b5 b6 b7 rest,
  take 16 (drop 4 l) = b0 :: b1 :: b2 :: b3 :: b4 :: b5 :: b6 :: b7 :: rest /\ len rest = 8.
Proof.
  intros H. assert (L : len (take 16 (drop 4 l)) = 16) by (rewrite len_take, len_drop; lia).
  destruct (take 16 (drop 4 l)) as [|b0 [|b1 [|b2 [|b3 [|b4 [|b5 [|b6 [|b7 rest]]]]]]]];
    try (unfold len in L; cbn [length] in L; lia).
  do 9 eexists. split; [reflexivity|]. unfold len in *. cbn [length] in L. lia.
Qed.

Lemma System_grow c r v w x y : no_later v w -> System_try_from c (at_version v r) = Val (Ok x) ->
  System_try_from c (at_version w r) = Val (Ok y) -> System_grows v w x y.
Proof.
  intros HV HX HY. apply System_form in HX. apply System_form in HY. cbv zeta in HX, HY.
  destruct HX as [t1 [t2 [t3 [t4 [o5 [o6 [-> [F1 [F2 [F3 [F4 [F5 [F6 F7]]]]]]]]]]]]].
  destruct HY as [u1 [u2 [u3 [u4 [p5 [p6 [-> [G1 [G2 [G3 [G4 [G5 [G6 G7]]]]]]]]]]]]].
  cbn [version at_version handle] in *.
  rewrite !find_at, ?text_since_at, !seen_at in *.
  constructor; cbn [system_handle system_manufacturer system_product system_version system_serial system_uuid system_wakeup
                    system_sku system_family]; try reflexivity; try congruence; try (apply (kept_if v w); exact HV).
  - intros NB. unfold decode_by_smbios_version. rewrite !lt_since by reflexivity.
    rewrite (not_between v w 2 6 HV NB). apply kept_if. exact HV.
  - intros [B1 B2] u E. destruct (since v 2 1) eqn:S; [|discriminate]. rewrite (since_mono v w 2 1 HV S).
    injection E as <-. eexists. split; [reflexivity|].
    unfold decode_by_smbios_version. rewrite !lt_since by reflexivity.
    apply since_not in B1. apply since_iff in B2. rewrite B1, B2. cbn [negb].
    destruct (list16 (seen r) (F7 eq_refl)) as [b0 [b1 [b2 [b3 [b4 [b5 [b6 [b7 [rest [-> HL]]]]]]]]]].
    unfold uuid_from_bytes. do 9 eexists. split; [reflexivity|]. split; [exact HL|]. reflexivity.
  - exact (text_since_kept v w 2 4 r 21 o5 p5 HV F5 G5).
  - exact (text_since_kept v w 2 4 r 22 o6 p6 HV F6 G6).
Qed.

(* --------------------------------------------------------------- type 4 *)

Lemma family_take n D : 38 <= n -> processor_family_or_2 (take n D) = processor_family_or_2 D.
Proof. intros H. unfold processor_family_or_2. rewrite !at_take by lia. reflexivity. Qed.

Definition count_of (v : SmbiosVersion) (D : list N) (k k2 : N) : option N :=
  if since v 2 5
  then (if since v 3 0 then (if at_ k 1 D =? 0xFF then Some (at_ k2 2 D) else Some (at_ k 1 D)) else Some (at_ k 1 D))
  else None.

Lemma count_kept v w D k k2 : no_later v w -> count_grows v w (count_of v D k k2) (count_of w D k k2).
Proof.
  intros HV. unfold count_of, count_grows. destruct (since v 2 5) eqn:S; [|left; intros x H; discriminate].
  rewrite (since_mono v w 2 5 HV S). destruct (since v 3 0) eqn:T.
  - rewrite (since_mono v w 3 0 HV T). left. apply kept_refl.
  - destruct (since w 3 0) eqn:U; [|left; apply kept_refl].
    destruct (N.eqb_spec (at_ k 1 D) 0xFF) as [E|E].
    + right. split; [exact (is_between v w 3 0 T U)|]. rewrite E. split; [reflexivity|eexists; reflexivity].
    + left. apply kept_refl.
Qed.

Lemma Processor_form c r s : Processor_try_from c r = Val (Ok s) ->
  let D := seen r in let v := version r in exists t1 t2 t3 o4 o5 o6,
  s = {| processor_handle := handle r;
      processor_socket_designation := t1;
      processor_processor_type := ProcessorType_from (at_ 1 1 D);
      processor_processor_family := if since v 2 6 then processor_family_or_2 D else ProcessorFamily_from_u8 (at_ 2 1 D);
      processor_processor_manufacturer := t2;
      processor_processor_id := at_ 4 8 D;
      processor_processor_version := t3;
      processor_voltage := Voltage_from (at_ 13 1 D);
      processor_external_clock := at_ 14 2 D;
      processor_max_speed := at_ 16 2 D;
      processor_current_speed := at_ 18 2 D;
      processor_status := ProcessorStatus_truncate (at_ 20 1 D);
      processor_processor_upgrade := ProcessorUpgrade_from (at_ 21 1 D);
      processor_l1_cache_handle := if since v 2 1 then Some (at_ 22 2 D) else None;
      processor_l2_cache_handle := if since v 2 1 then Some (at_ 24 2 D) else None;
      processor_l3_cache_handle := if since v 2 1 then Some (at_ 26 2 D) else None;
      processor_serial_number := o4;
      processor_asset_tag := o5;
      processor_part_number := o6;
      processor_core_count := count_of v D 31 38;
      processor_core_enabled := count_of v D 32 40;
      processor_thread_count := count_of v D 33 42;
      processor_processor_characteristics :=
        if since v 2 6 then Some (ProcessorCharacteristics_truncate (at_ 34 2 D)) else None |} /\
  find_string r (at_ 0 1 D) = Ok t1 /\ find_string r (at_ 3 1 D) = Ok t2 /\ find_string r (at_ 12 1 D) = Ok t3 /\
  text_since v 2 3 r 28 o4 /\ text_since v 2 3 r 29 o5 /\ text_since v 2 3 r 30 o6.
Proof.
  intros H. cbv zeta. unfold Processor_try_from in H. opens. unfold count_of.
  repeat branch; packed; repeat text_step; injection H as <-; rewrite ?family_take by lia;
    do 6 eexists; (split; [sinces_known; reflexivity|]); repeat (split; [texts|]); texts.
Qed.

Lemma Processor_grow c r v w x y : no_later v w -> Processor_try_from c (at_version v r) = Val (Ok x) ->
  Processor_try_from c (at_version w r) = Val (Ok y) -> Processor_grows v w x y.
Proof.
  intros HV HX HY. apply Processor_form in HX. apply Processor_form in HY. cbv zeta in HX, HY.
  destruct HX as [t1 [t2 [t3 [o4 [o5 [o6 [-> [F1 [F2 [F3 [F4 [F5 F6]]]]]]]]]]]].
  destruct HY as [u1 [u2 [u3 [p4 [p5 [p6 [-> [G1 [G2 [G3 [G4 [G5 G6]]]]]]]]]]]].
  cbn [version at_version handle] in *.
  rewrite !find_at, ?text_since_at, !seen_at in *.
  constructor; cbn [processor_handle processor_socket_designation processor_processor_type processor_processor_family
    processor_processor_manufacturer processor_processor_id processor_processor_version processor_voltage
    processor_external_clock processor_max_speed processor_current_speed processor_status processor_processor_upgrade
    processor_l1_cache_handle processor_l2_cache_handle processor_l3_cache_handle processor_serial_number processor_asset_tag
    processor_part_number processor_core_count processor_core_enabled processor_thread_count processor_processor_characteristics];
    try reflexivity; try congruence; try (apply (kept_if v w); exact HV); try (apply count_kept; exact HV).
  - destruct (since v 2 6) eqn:S; [rewrite (since_mono v w 2 6 HV S); left; reflexivity|].
    destruct (since w 2 6) eqn:T; [|left; reflexivity].
    pose proof (is_between v w 2 6 S T) as B. unfold processor_family_or_2.
    destruct (ProcessorFamily_from_u8 (at_ 2 1 (seen r))); first [left; reflexivity|right; split; [exact B|reflexivity]].
  - exact (text_since_kept v w 2 3 r 28 o4 p4 HV F4 G4).
  - exact (text_since_kept v w 2 3 r 29 o5 p5 HV F5 G5).
  - exact (text_since_kept v w 2 3 r 30 o6 p6 HV F6 G6).
Qed.

(* --------------------------------------------------------------- type 7 *)

Lemma Cache_form c r s : Cache_try_from c r = Val (Ok s) ->
  let D := seen r in let v := version r in exists t1 k,
  s = {| cache_handle := handle r;
      cache_socket_designation := t1;
      cache_cache_configuration := k;
      cache_maximum_cache_size := CacheSize_from (at_ 3 2 D);
      cache_installed_size := CacheSize_from (at_ 5 2 D);
      cache_supported_sram_type := CacheSramType_truncate (at_ 7 2 D);
      cache_current_sram_type := CacheSramType_truncate (at_ 9 2 D);
      cache_cache_speed := if since v 2 2 then Some (at_ 11 1 D) else None;
      cache_error_correction_type := if since v 2 2 then Some (CacheErrorCorrectionType_from (at_ 12 1 D)) else None;
      cache_system_cache_type := if since v 2 2 then Some (SystemCacheType_from (at_ 13 1 D)) else None;
      cache_associativity := if since v 2 2 then Some (CacheAssociativity_from (at_ 14 1 D)) else None;
      cache_maximum_cache_size_2 := if since v 3 2 then Some (CacheSize2_from (at_ 15 4 D)) else None;
      cache_installed_size_2 := if since v 3 2 then Some (CacheSize2_from (at_ 19 4 D)) else None |} /\
  find_string r (at_ 0 1 D) = Ok t1 /\ CacheConfiguration_from (at_ 1 2 D) = Val k.
Proof.
  intros H. cbv zeta. unfold Cache_try_from in H. opens.
  change (3, 1 + 1) with (3, 2) in *. change (1 + 1) with 2 in H. change (0 + 1) with 1 in H.
  repeat branch; try discriminate H; packed; repeat text_step;
    (destruct (CacheConfiguration_from (at_ 1 2 (seen r))) as [k| |] eqn:K; cbn [obind] in H; [|discriminate H|discriminate H]);
    injection H as <-; do 2 eexists; (split; [sinces_known; reflexivity|]); split; try assumption; reflexivity.
Qed.

Lemma Cache_grow c r v w x y : no_later v w -> Cache_try_from c (at_version v r) = Val (Ok x) ->
  Cache_try_from c (at_version w r) = Val (Ok y) -> Cache_grows x y.
Proof.
  intros HV HX HY. apply Cache_form in HX. apply Cache_form in HY. cbv zeta in HX, HY.
  destruct HX as [t1 [k [-> [F1 F2]]]]. destruct HY as [u1 [l [-> [G1 G2]]]].
  cbn [version at_version handle] in *. rewrite !find_at, !seen_at in *.
  constructor; cbn [cache_handle cache_socket_designation cache_cache_configuration cache_maximum_cache_size
    cache_installed_size cache_supported_sram_type cache_current_sram_type cache_cache_speed cache_error_correction_type
    cache_system_cache_type cache_associativity cache_maximum_cache_size_2 cache_installed_size_2];
    try reflexivity; try congruence; try (apply (kept_if v w); exact HV).
Qed.

(* -------------------------------------------------------------- type 13 *)

Lemma BiosLanguage_grow c r v w x y : no_later v w -> BiosLanguage_try_from c (at_version v r) = Val (Ok x) ->
  BiosLanguage_try_from c (at_version w r) = Val (Ok y) -> BiosLanguage_grows v w x y.
Proof.
  intros HV HX HY. unfold BiosLanguage_try_from in HX, HY. opens. cbn [version at_version] in *.
  destruct (since v 2 1) eqn:S; destruct (since w 2 1) eqn:T.
  all: try (rewrite (since_mono v w 2 1 HV S) in T; discriminate T).
  all: repeat match goal with
       | H : obind (read_packed ?c ?n ?r) _ = _ |- _ =>
         let p := fresh "p" in let E := fresh "E" in
         destruct (read_packed c n r) as [p| |] eqn:E; cbn [obind] in H; [|discriminate H|discriminate H];
         apply packed_take in E; subst p; rewrite !at_take in H by lia
       end.
  all: injection HX as <-; injection HY as <-.
  all: constructor; cbn [language_handle language_flags language_current_language language_installable_languages
                         InstallableLanguages_new il_index il_structure]; try reflexivity; try apply kept_refl.
  - intros z H. discriminate.
  - intros NB. exfalso. apply NB. exact (is_between v w 2 1 S T).
Qed.

(* -------------------------------------------------------------- type 16 *)

Lemma PhysicalMemoryArray_grow c r v w x y : no_later v w -> PhysicalMemoryArray_try_from c (at_version v r) = Val (Ok x) ->
  PhysicalMemoryArray_try_from c (at_version w r) = Val (Ok y) -> between v w 2 2 \/ PhysicalMemoryArray_grows x y.
Proof.
  intros HV HX HY. unfold PhysicalMemoryArray_try_from in HX, HY. opens. cbn [version at_version data handle] in *.
  change (1 + 1) with 2 in *. change (7 + 1) with 8 in *.
  destruct (since v 2 2) eqn:S.
  - rewrite (since_mono v w 2 2 HV S) in HY.
    match type of HX with rbind ?m _ = _ => destruct m as [[[pma p]|]| |] eqn:EM end; try discriminate HX.
    rewrite rbind_ok in HX, HY. right.
    assert (EN : array_extended_maximum_capacity pma = None).
    { repeat match type of EM with
             | obind ?m _ = _ => destruct m; cbn [obind] in EM; try discriminate EM
             | rbind ?m _ = _ => destruct m as [[[? ?]|]| |]; [rewrite rbind_ok in EM|discriminate EM|discriminate EM|discriminate EM]
             end.
      injection EM as <- _. reflexivity. }
    destruct (since v 2 8) eqn:T.
    + rewrite (since_mono v w 2 8 HV T) in HY. rewrite HX in HY. injection HY as <-. constructor; try reflexivity; apply kept_refl.
    + cbv beta iota in HX. injection HX as <-. destruct (since w 2 8) eqn:U.
      * match type of HY with rbind ?m _ = _ => destruct m as [[ext|]| |] end; try discriminate HY.
        rewrite rbind_ok in HY. injection HY as <-. constructor; try reflexivity.
        intros z HZ. congruence.
      * cbv beta iota in HY. injection HY as <-. constructor; try reflexivity; apply kept_refl.
  - destruct (since w 2 2) eqn:U; [left; exact (is_between v w 2 2 S U)|]. right. rewrite !rbind_ok in HX, HY.
    cbv beta iota in HX, HY.
    assert (V8 : since v 2 8 = false) by (apply Bool.not_true_is_false; intros ?; contra).
    assert (W8 : since w 2 8 = false) by (apply Bool.not_true_is_false; intros ?; contra).
    rewrite V8 in HX. rewrite W8 in HY. injection HX as <-. injection HY as <-. constructor; try reflexivity; apply kept_refl.
Qed.

(* ------------------------------------- decoders whose result has no version *)

Ltac unversion H :=
  try unfold basic_string in H;
  unfold get_ok, get_string_ok, get_string, get_slice, get, read_packed, find_string, raw_strings in H;
  cbn [version at_version data handle length_ info strings after] in H.
Ltac skip H :=
  repeat match type of H with
  | (if ?b then Val (Err _) else _) = Val (Ok _) => destruct b; [discriminate H|]
  | (if ?b then match ?m with _ => _ end else _) = Val (Ok _) => destruct b; [destruct m; discriminate H|]
  end.
Ltac same D :=
  let HX := fresh "HX" in let HY := fresh "HY" in
  intros HX HY; unfold D in HX, HY; cbv zeta in HX, HY; unversion HX; unversion HY; skip HX; skip HY;
  congruence.

Lemma SystemSlots_same c r v w x y : SystemSlots_try_from c (at_version v r) = Val (Ok x) ->
  SystemSlots_try_from c (at_version w r) = Val (Ok y) -> x = y.
Proof. same SystemSlots_try_from. Qed.
Lemma SystemEventLog_same c r v w x y : SystemEventLog_try_from c (at_version v r) = Val (Ok x) ->
  SystemEventLog_try_from c (at_version w r) = Val (Ok y) -> x = y.
Proof.
  intros HX HY. unfold SystemEventLog_try_from in HX, HY. cbv zeta in HX, HY. unversion HX. unversion HY.
  do 2 (match type of HX with obind ?m _ = _ =>
          revert HX HY; destruct m as [?| |]; intros HX HY; cbn [obind] in HX, HY; [|discriminate HX|discriminate HX] end).
  skip HX. skip HY. congruence.
Qed.
Lemma MemoryError32_same c r v w x y : MemoryError32_try_from c (at_version v r) = Val (Ok x) ->
  MemoryError32_try_from c (at_version w r) = Val (Ok y) -> x = y.
Proof. same MemoryError32_try_from. Qed.
Lemma MemoryArrayMappedAddress_same c r v w x y : MemoryArrayMappedAddress_try_from c (at_version v r) = Val (Ok x) ->
  MemoryArrayMappedAddress_try_from c (at_version w r) = Val (Ok y) -> x = y.
Proof. same MemoryArrayMappedAddress_try_from. Qed.
Lemma MemoryDeviceMappedAddress_same c r v w x y : MemoryDeviceMappedAddress_try_from c (at_version v r) = Val (Ok x) ->
  MemoryDeviceMappedAddress_try_from c (at_version w r) = Val (Ok y) -> x = y.
Proof. same MemoryDeviceMappedAddress_try_from. Qed.
Lemma BuiltInPointingDevice_same c r v w x y : BuiltInPointingDevice_try_from c (at_version v r) = Val (Ok x) ->
  BuiltInPointingDevice_try_from c (at_version w r) = Val (Ok y) -> x = y.
Proof. same BuiltInPointingDevice_try_from. Qed.
Lemma PortableBattery_same c r v w x y : PortableBattery_try_from c (at_version v r) = Val (Ok x) ->
  PortableBattery_try_from c (at_version w r) = Val (Ok y) -> x = y.
Proof. same PortableBattery_try_from. Qed.

(* these never look at the version *)
Lemma BaseBoard_at c v r : BaseBoard_try_from c (at_version v r) = BaseBoard_try_from c r.
Proof. unfold BaseBoard_try_from. reflexivity. Qed.
Lemma Enclosure_at c v r : Enclosure_try_from c (at_version v r) = Enclosure_try_from c r.
Proof. unfold Enclosure_try_from. reflexivity. Qed.
Lemma PortConnector_at c v r : PortConnector_try_from c (at_version v r) = PortConnector_try_from c r.
Proof. unfold PortConnector_try_from. reflexivity. Qed.
Lemma OemStrings_at c v r : OemStrings_try_from c (at_version v r) = OemStrings_try_from c r.
Proof. unfold OemStrings_try_from. reflexivity. Qed.
Lemma SystemConfigurationOptions_at c v r : SystemConfigurationOptions_try_from c (at_version v r) = SystemConfigurationOptions_try_from c r.
Proof. unfold SystemConfigurationOptions_try_from. reflexivity. Qed.
Lemma GroupAssociations_at c v r : GroupAssociations_try_from c (at_version v r) = GroupAssociations_try_from c r.
Proof. unfold GroupAssociations_try_from. reflexivity. Qed.
Lemma MemoryDevice_at c v r : MemoryDevice_try_from c (at_version v r) = MemoryDevice_try_from c r.
Proof. unfold MemoryDevice_try_from. reflexivity. Qed.

Lemma map_ok_inv {A} (f : A -> Structure) m x : map_ok f m = Val (Ok x) -> exists a, m = Val (Ok a) /\ x = f a.
Proof. destruct m as [[a|e]| |]; cbn; try discriminate. intros [= <-]. eauto. Qed.

Lemma dispatch_grows c r v w x y : no_later v w -> dispatch c (at_version v r) = Val (Ok x) ->
  dispatch c (at_version w r) = Val (Ok y) -> grows v w x y.
Proof.
  intros HV HX HY. unfold dispatch in HX, HY. cbn [info at_version] in HX, HY.
  destruct (info r).
  all: repeat match goal with
       | H : map_ok _ _ = Val (Ok _) |- _ =>
         let a := fresh "a" in let E := fresh "E" in apply map_ok_inv in H; destruct H as [a [E ->]]
       end.
  all: cbn [grows].
  all: first
  [ injection HX as <-; injection HY as <-; reflexivity
  | eapply Bios_grow; eassumption
  | eapply System_grow; eassumption
  | eapply Processor_grow; eassumption
  | eapply Cache_grow; eassumption
  | eapply BiosLanguage_grow; eassumption
  | eapply PhysicalMemoryArray_grow; eassumption
  | f_equal; eapply SystemSlots_same; eassumption
  | f_equal; eapply SystemEventLog_same; eassumption
  | f_equal; eapply MemoryError32_same; eassumption
  | f_equal; eapply MemoryArrayMappedAddress_same; eassumption
  | f_equal; eapply MemoryDeviceMappedAddress_same; eassumption
  | f_equal; eapply BuiltInPointingDevice_same; eassumption
  | f_equal; eapply PortableBattery_same; eassumption
  | rewrite BaseBoard_at in *; congruence
  | rewrite Enclosure_at in *; congruence
  | rewrite PortConnector_at in *; congruence
  | rewrite OemStrings_at in *; congruence
  | rewrite SystemConfigurationOptions_at in *; congruence
  | rewrite GroupAssociations_at in *; congruence
  | rewrite MemoryDevice_at in *; congruence ].
Qed.

(* ------------------------------------------------------------- framing *)

Lemma next_raw_announcing c v s : next_raw c (announcing v s) =
  omap (fun '(o, s') => (option_map (rmap (at_version v)) o, announcing v s')) (next_raw c s).
Proof.
  unfold next_raw. cbn [announcing smbios_len_ idx buffer smbios_version].
  repeat match goal with
  | |- (if ?b then _ else _) = _ => destruct b; [reflexivity|]
  | |- obind ?m _ = _ => destruct m as [?| |]; cbn [obind omap]; [|reflexivity|reflexivity]
  | |- match ?m with _ => _ end = _ => destruct m; [|reflexivity]
  end.
  reflexivity.
Qed.

Lemma next_announcing c v s : next c (announcing v s) =
  match next_raw c s with
  | Val (None, s1) => Val (None, announcing v s1)
  | Val (Some (Err e), s1) => Val (Some (Err e), announcing v {| smbios_version := smbios_version s1; smbios_len_ := idx s1;
                          idx := idx s1; buffer := buffer s1 |})
  | Val (Some (Ok r), s1) =>
    let s2 := if (3 <=? major v) && is_end (info r)
              then {| smbios_version := smbios_version s1; smbios_len_ := idx s1; idx := idx s1; buffer := buffer s1 |}
              else s1 in
    let! x := dispatch c (at_version v r) in Val (Some x, announcing v s2)
  | Panic => Panic
  | UB => UB
  end.
Proof.
  unfold next. rewrite next_raw_announcing. destruct (next_raw c s) as [[[[r|e]|] s1]| |]; cbn [omap obind option_map rmap]; try reflexivity.
  cbn [announcing smbios_version idx buffer info at_version].
  destruct ((3 <=? major v) && is_end (info r)); reflexivity.
Qed.

Lemma drains_grow c v w l : no_later v w -> (3 <= major v <-> 3 <= major w) -> forall s e l' e',
  drains (next c) (announcing v s) l e -> drains (next c) (announcing w s) l' e' -> Forall2 (item_grows v w) l l'.
Proof.
  intros HV HM. induction l as [|x l IH]; intros s e l' e' H1 H2.
  - inversion H1 as [? ? E1|]; subst. rewrite next_announcing in E1.
    destruct (next_raw c s) as [[[[r|er]|] s1]| |] eqn:R; try discriminate E1.
    { destruct (dispatch c (at_version v r)); discriminate E1. }
    inversion H2 as [|? ? ? ? ? E2]; subst; [constructor|]. rewrite next_announcing, R in E2. discriminate E2.
  - inversion H1 as [|? ? s1 ? ? E1 D1]; subst. rewrite next_announcing in E1.
    inversion H2 as [? ? E2|? y s2 ? ? E2 D2]; subst; rewrite next_announcing in E2.
    { destruct (next_raw c s) as [[[[r|er]|] s2]| |] eqn:R; try discriminate E1; try discriminate E2.
      destruct (dispatch c (at_version w r)); discriminate E2. }
    destruct (next_raw c s) as [[[[r|er]|] s3]| |] eqn:R; try discriminate E1.
    + assert (HB : (3 <=? major v) = (3 <=? major w)) by lia. cbv zeta in E1, E2. rewrite <- HB in E2.
      destruct (dispatch c (at_version v r)) as [x'| |] eqn:DV; cbn [obind] in E1; try discriminate E1.
      destruct (dispatch c (at_version w r)) as [y'| |] eqn:DW; cbn [obind] in E2; try discriminate E2.
      injection E1 as <- <-. injection E2 as <- <-. constructor; [|eapply IH; eassumption].
      destruct x' as [a|e1]; destruct y' as [b|e2]; cbn [item_grows].
      * exact (dispatch_grows c r v w a b HV DV DW).
      * exact (fine_dispatch c (at_version w r) e2 DW).
      * intros F. destruct (fine_dispatch c (at_version v r) e1 DV F).
      * intros F. destruct (fine_dispatch c (at_version v r) e1 DV F).
    + injection E1 as <- <-. injection E2 as <- <-. constructor; [|eapply IH; eassumption].
      cbn [item_grows]. reflexivity.
Qed.
