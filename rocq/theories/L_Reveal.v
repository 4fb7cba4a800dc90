(* Lemmas about what decoded structures show of what was written. *)
From Coq Require Import String.
From Coq Require Import ZArith Lia ZifyBool ZifyNat ZifyN.
From Verif Require Import Base G_Enums M_Raw M_Bios M_System M_BaseBoard M_Enclosure M_Processor M_Cache.
From Verif Require Import M_PortConnector M_SystemSlots M_Strings M_GroupAssociations M_SystemEventLog.
From Verif Require Import M_PhysicalMemoryArray M_MemoryDevice M_Memory M_PortableBattery M_Entry M_Iter M_Hash M_Eq G_Eq.
From Verif Require Import Spec S_Enums S_Iter S_Decode S_System S_Hardware S_Lists S_EventLog S_Memory S_Same S_Write S_Reveal.
From Verif Require Import L_Base L_Strings L_Enums L_Decode L_Frame L_Iter L_EventLog L_Same L_Write P_Enums.
Local Open Scope N_scope.
Ltac Zify.zify_post_hook ::= Z.div_mod_to_equations.

(* ----------------------------------------------------- single fields *)
Lemma WakeupType_inj a b : meaning WakeupType_codes WakeupType_Undefined a = meaning WakeupType_codes WakeupType_Undefined b <-> a = b.
Proof. rewrite <- !WakeupType_from_meaning. split; [apply C49_WakeupType_injective|intros ->; reflexivity]. Qed.
Lemma BoardType_inj a b : meaning BoardType_codes BoardType_Undefined a = meaning BoardType_codes BoardType_Undefined b <-> a = b.
Proof. rewrite <- !BoardType_from_meaning. split; [apply C49_BoardType_injective|intros ->; reflexivity]. Qed.
Lemma EnclosureType_inj a b : meaning EnclosureType_codes EnclosureType_Undefined a = meaning EnclosureType_codes EnclosureType_Undefined b <-> a = b.
Proof. rewrite <- !EnclosureType_from_meaning. split; [apply C49_EnclosureType_injective|intros ->; reflexivity]. Qed.
Lemma State_inj a b : meaning State_codes State_Undefined a = meaning State_codes State_Undefined b <-> a = b.
Proof. rewrite <- !State_from_meaning. split; [apply C49_State_injective|intros ->; reflexivity]. Qed.
Lemma SecurityStatus_inj a b : meaning SecurityStatus_codes SecurityStatus_Undefined a = meaning SecurityStatus_codes SecurityStatus_Undefined b <-> a = b.
Proof. rewrite <- !SecurityStatus_from_meaning. split; [apply C49_SecurityStatus_injective|intros ->; reflexivity]. Qed.
Lemma ProcessorType_inj a b : meaning ProcessorType_codes ProcessorType_Undefined a = meaning ProcessorType_codes ProcessorType_Undefined b <-> a = b.
Proof. rewrite <- !ProcessorType_from_meaning. split; [apply C49_ProcessorType_injective|intros ->; reflexivity]. Qed.
Lemma ProcessorUpgrade_inj a b : meaning ProcessorUpgrade_codes ProcessorUpgrade_Undefined a = meaning ProcessorUpgrade_codes ProcessorUpgrade_Undefined b <-> a = b.
Proof. rewrite <- !ProcessorUpgrade_from_meaning. split; [apply C49_ProcessorUpgrade_injective|intros ->; reflexivity]. Qed.
Lemma CacheErrorCorrectionType_inj a b : meaning CacheErrorCorrectionType_codes CacheErrorCorrectionType_Undefined a = meaning CacheErrorCorrectionType_codes CacheErrorCorrectionType_Undefined b <-> a = b.
Proof. rewrite <- !CacheErrorCorrectionType_from_meaning. split; [apply C49_CacheErrorCorrectionType_injective|intros ->; reflexivity]. Qed.
Lemma SystemCacheType_inj a b : meaning SystemCacheType_codes SystemCacheType_Undefined a = meaning SystemCacheType_codes SystemCacheType_Undefined b <-> a = b.
Proof. rewrite <- !SystemCacheType_from_meaning. split; [apply C49_SystemCacheType_injective|intros ->; reflexivity]. Qed.
Lemma CacheAssociativity_inj a b : meaning CacheAssociativity_codes CacheAssociativity_Undefined a = meaning CacheAssociativity_codes CacheAssociativity_Undefined b <-> a = b.
Proof. rewrite <- !CacheAssociativity_from_meaning. split; [apply C49_CacheAssociativity_injective|intros ->; reflexivity]. Qed.
Lemma ConnectorType_inj a b : meaning ConnectorType_codes ConnectorType_Undefined a = meaning ConnectorType_codes ConnectorType_Undefined b <-> a = b.
Proof. rewrite <- !ConnectorType_from_meaning. split; [apply C49_ConnectorType_injective|intros ->; reflexivity]. Qed.
Lemma PortType_inj a b : meaning PortType_codes PortType_Undefined a = meaning PortType_codes PortType_Undefined b <-> a = b.
Proof. rewrite <- !PortType_from_meaning. split; [apply C49_PortType_injective|intros ->; reflexivity]. Qed.
Lemma SlotWidth_inj a b : meaning SlotWidth_codes SlotWidth_Undefined a = meaning SlotWidth_codes SlotWidth_Undefined b <-> a = b.
Proof. rewrite <- !SlotWidth_from_meaning. split; [apply C49_SlotWidth_injective|intros ->; reflexivity]. Qed.
Lemma CurrentUsage_inj a b : meaning CurrentUsage_codes CurrentUsage_Undefined a = meaning CurrentUsage_codes CurrentUsage_Undefined b <-> a = b.
Proof. rewrite <- !CurrentUsage_from_meaning. split; [apply C49_CurrentUsage_injective|intros ->; reflexivity]. Qed.
Lemma SlotLength_inj a b : meaning SlotLength_codes SlotLength_Undefined a = meaning SlotLength_codes SlotLength_Undefined b <-> a = b.
Proof. rewrite <- !SlotLength_from_meaning. split; [apply C49_SlotLength_injective|intros ->; reflexivity]. Qed.
Lemma LogHeaderFormat_inj a b : a < 256 -> b < 256 ->
  meaning LogHeaderFormat_codes LogHeaderFormat_other a = meaning LogHeaderFormat_codes LogHeaderFormat_other b <-> a = b.
Proof. intros A B. rewrite <- !LogHeaderFormat_from_meaning by assumption. split; [apply C49_LogHeaderFormat_injective|intros ->; reflexivity]. Qed.
Lemma MemoryArrayUse_inj a b : meaning MemoryArrayUse_codes MemoryArrayUse_Undefined a = meaning MemoryArrayUse_codes MemoryArrayUse_Undefined b <-> a = b.
Proof. rewrite <- !MemoryArrayUse_from_meaning. split; [apply C49_MemoryArrayUse_injective|intros ->; reflexivity]. Qed.
Lemma MemoryArrayErrorCorrectionTypes_inj a b : meaning MemoryArrayErrorCorrectionTypes_codes MemoryArrayErrorCorrectionTypes_Undefined a = meaning MemoryArrayErrorCorrectionTypes_codes MemoryArrayErrorCorrectionTypes_Undefined b <-> a = b.
Proof. rewrite <- !MemoryArrayErrorCorrectionTypes_from_meaning. split; [apply C49_MemoryArrayErrorCorrectionTypes_injective|intros ->; reflexivity]. Qed.
Lemma MemoryTechnology_inj a b : meaning MemoryTechnology_codes MemoryTechnology_Undefined a = meaning MemoryTechnology_codes MemoryTechnology_Undefined b <-> a = b.
Proof. rewrite <- !MemoryTechnology_from_meaning. split; [apply C49_MemoryTechnology_injective|intros ->; reflexivity]. Qed.
Lemma MEErrorType_inj a b : meaning MEErrorType_codes MEErrorType_Undefined a = meaning MEErrorType_codes MEErrorType_Undefined b <-> a = b.
Proof. rewrite <- !MEErrorType_from_meaning. split; [apply C49_MEErrorType_injective|intros ->; reflexivity]. Qed.
Lemma MEErrorGranularity_inj a b : meaning MEErrorGranularity_codes MEErrorGranularity_Undefined a = meaning MEErrorGranularity_codes MEErrorGranularity_Undefined b <-> a = b.
Proof. rewrite <- !MEErrorGranularity_from_meaning. split; [apply C49_MEErrorGranularity_injective|intros ->; reflexivity]. Qed.
Lemma MEErrorOperation_inj a b : meaning MEErrorOperation_codes MEErrorOperation_Undefined a = meaning MEErrorOperation_codes MEErrorOperation_Undefined b <-> a = b.
Proof. rewrite <- !MEErrorOperation_from_meaning. split; [apply C49_MEErrorOperation_injective|intros ->; reflexivity]. Qed.
Lemma PointingDeviceType_inj a b : meaning PointingDeviceType_codes PointingDeviceType_Undefined a = meaning PointingDeviceType_codes PointingDeviceType_Undefined b <-> a = b.
Proof. rewrite <- !PointingDeviceType_from_meaning. split; [apply C49_PointingDeviceType_injective|intros ->; reflexivity]. Qed.
Lemma PointingDeviceInterface_inj a b : meaning PointingDeviceInterface_codes PointingDeviceInterface_Undefined a = meaning PointingDeviceInterface_codes PointingDeviceInterface_Undefined b <-> a = b.
Proof. rewrite <- !PointingDeviceInterface_from_meaning. split; [apply C49_PointingDeviceInterface_injective|intros ->; reflexivity]. Qed.
Lemma ProcessorFamily_inj a b : a < 65536 -> b < 65536 ->
  meaning ProcessorFamily_codes ProcessorFamily_other a = meaning ProcessorFamily_codes ProcessorFamily_other b <-> a = b.
Proof. intros A B. rewrite <- !ProcessorFamily_from_meaning by assumption. split; [apply C49_ProcessorFamily_injective|intros ->; reflexivity]. Qed.
Lemma SlotType_inj a b : meaning SlotType_codes_here SlotType_Undefined a = meaning SlotType_codes_here SlotType_Undefined b <-> slot_name a = slot_name b.
Proof. rewrite <- !SlotType_from_meaning. apply C49_SlotType_collisions. Qed.
Lemma FormFactor_inj a b : meaning FormFactor_codes_here FormFactor_Undefined a = meaning FormFactor_codes_here FormFactor_Undefined b <-> form_name a = form_name b.
Proof.
  rewrite <- !FormFactor_from_meaning, C49_FormFactor_collisions. unfold form_name.
  destruct (N.eqb_spec a 8), (N.eqb_spec b 8); lia.
Qed.
Lemma MemoryType_inj a b : meaning MemoryType_codes MemoryType_Undefined a = meaning MemoryType_codes MemoryType_Undefined b <-> memory_name a = memory_name b.
Proof.
  rewrite <- !MemoryType_from_meaning, C49_MemoryType_collisions. unfold memory_name.
  destruct (N.eqb_spec a 0x16), (N.eqb_spec a 0x17), (N.eqb_spec b 0x16), (N.eqb_spec b 0x17); cbn [orb]; lia.
Qed.
Lemma MemoryArrayLocation_inj a b :
  meaning MemoryArrayLocation_codes_here MemoryArrayLocation_Undefined a = meaning MemoryArrayLocation_codes_here MemoryArrayLocation_Undefined b <-> a = b.
Proof. rewrite <- !MemoryArrayLocation_from_meaning. split; [apply C49_MemoryArrayLocation_injective|intros ->; reflexivity]. Qed.
Lemma unless_inj u a b : unless u a = unless u b <-> a = b.
Proof.
  unfold unless. destruct (N.eqb_spec a u), (N.eqb_spec b u); split; intros H; try discriminate; try (injection H as H); subst; auto; congruence.
Qed.
Lemma voltage_inj a b : voltage_means a = voltage_means b <-> a = b.
Proof.
  split; [|intros ->; reflexivity]. unfold voltage_means.
  destruct (N.leb_spec 128 a), (N.leb_spec 128 b), (N.ltb_spec a 8), (N.ltb_spec b 8); intros H'; try discriminate; injection H'; lia.
Qed.
Lemma size_inj a b : size_means a = size_means b <-> a = b.
Proof.
  split; [|intros ->; reflexivity]. unfold size_means.
  destruct (N.ltb_spec a 0x8000), (N.ltb_spec b 0x8000); intros H'; try discriminate; injection H'; lia.
Qed.
Lemma size2_inj a b : size2_means a = size2_means b <-> a = b.
Proof.
  split; [|intros ->; reflexivity]. unfold size2_means.
  destruct (N.ltb_spec a 0x80000000), (N.ltb_spec b 0x80000000); intros H'; try discriminate; injection H'; lia.
Qed.
Lemma function_inj a b : option_map function_means (unless 0xFF a) = option_map function_means (unless 0xFF b) <-> a = b.
Proof.
  unfold unless. destruct (N.eqb_spec a 0xFF), (N.eqb_spec b 0xFF); cbn [option_map]; split; intros H; try discriminate; try congruence.
  injection H. lia.
Qed.
(* the word without bit 4 and bits 10 to 15 *)
Definition configuration_parts (w : N) : N :=
  w mod 8 + 8 * N.b2n (N.testbit w 3) + 32 * (w / 32 mod 4) + 128 * N.b2n (N.testbit w 7) + 256 * (w / 256 mod 4).
Lemma configuration_word w : N.land w 0x3EF = configuration_parts w.
Proof.
  assert (K : forall m, m < 1024 -> N.land m 0x3EF = configuration_parts m).
  { assert (C : forallb (fun k => N.land (N.of_nat k) 0x3EF =? configuration_parts (N.of_nat k)) (seq 0 1024) = true) by (vm_compute; reflexivity).
    intros m H. rewrite forallb_forall in C. specialize (C (N.to_nat m)). rewrite in_seq, Nnat.N2Nat.id in C.
    apply N.eqb_eq, C. lia. }
  change 0x3EF with (N.land (N.ones 10) 0x3EF) at 1. rewrite N.land_assoc, N.land_ones, K by (apply N.mod_upper_bound; discriminate).
  unfold configuration_parts. rewrite !(N.mod_pow2_bits_low w 10) by lia. change (2 ^ 10) with 1024.
  replace ((w mod 1024) mod 8) with (w mod 8) by lia. replace (w mod 1024 / 32 mod 4) with (w / 32 mod 4) by lia.
  replace (w mod 1024 / 256 mod 4) with (w / 256 mod 4) by lia. reflexivity.
Qed.
Lemma named_inj {A} (codes : list (N * A)) a b x :
  (forall p q, In p codes -> In q codes -> snd p = snd q -> fst p = fst q) ->
  named codes a = Some x -> named codes b = Some x -> a = b.
Proof.
  intros D HA HB.
  assert (K : forall l k, named l k = Some x -> In (k, x) l).
  { induction l as [|[k y] l IH]; intros i H; [discriminate H|]. cbn [named] in H.
    destruct (_ =? _) eqn:E; [apply N.eqb_eq in E; subst|].
    - left. congruence.
    - right. apply IH, H. }
  apply (D (a, x) (b, x) (K _ _ HA) (K _ _ HB) eq_refl).
Qed.
Lemma configuration_inj a b x y : configuration_means a x -> configuration_means b y -> (x = y <-> N.land a 0x3EF = N.land b 0x3EF).
Proof.
  intros [A1 [A2 [A3 [A4 A5]]]] [B1 [B2 [B3 [B4 B5]]]]. rewrite !configuration_word.
  destruct x as [x1 x2 x3 x4 x5], y as [y1 y2 y3 y4 y5]. cbn [level socketed location enabled_at_boot_time operational_mode] in *.
  assert (L : x1 = y1 <-> a mod 8 = b mod 8).
  { split; [intros <-|congruence]. refine (named_inj CacheLevel_codes _ _ x1 _ A1 B1).
    intros p q HP HQ. cbn in HP, HQ. intuition (subst; cbn in *; congruence || discriminate). }
  assert (M : x3 = y3 <-> a / 32 mod 4 = b / 32 mod 4).
  { split; [intros <-|congruence]. refine (named_inj CacheLocation_codes _ _ x3 _ A3 B3).
    intros p q HP HQ. cbn in HP, HQ. intuition (subst; cbn in *; congruence || discriminate). }
  assert (O : x5 = y5 <-> a / 256 mod 4 = b / 256 mod 4).
  { split; [intros <-|congruence]. refine (named_inj CacheOperationalMode_codes _ _ x5 _ A5 B5).
    intros p q HP HQ. cbn in HP, HQ. intuition (subst; cbn in *; congruence || discriminate). }
  unfold configuration_parts. split.
  - intros H. injection H as E1 E2 E3 E4 E5. apply L in E1. apply M in E3. apply O in E5.
    rewrite E1, E3, E5, <- A2, <- A4, E2, E4, B2, B4. reflexivity.
  - intros H.
    assert (E : a mod 8 = b mod 8 /\ N.testbit a 3 = N.testbit b 3 /\ a / 32 mod 4 = b / 32 mod 4 /\
                N.testbit a 7 = N.testbit b 7 /\ a / 256 mod 4 = b / 256 mod 4).
    { pose proof (N.mod_upper_bound a 8 ltac:(discriminate)). pose proof (N.mod_upper_bound b 8 ltac:(discriminate)).
      pose proof (N.mod_upper_bound (a / 32) 4 ltac:(discriminate)). pose proof (N.mod_upper_bound (b / 32) 4 ltac:(discriminate)).
      pose proof (N.mod_upper_bound (a / 256) 4 ltac:(discriminate)). pose proof (N.mod_upper_bound (b / 256) 4 ltac:(discriminate)).
      clear - H H0 H1 H2 H3 H4 H5.
      generalize dependent (a mod 8). generalize dependent (b mod 8). generalize dependent (a / 32 mod 4).
      generalize dependent (b / 32 mod 4). generalize dependent (a / 256 mod 4). generalize dependent (b / 256 mod 4). intros.
      destruct (N.testbit a 3), (N.testbit b 3), (N.testbit a 7), (N.testbit b 7); cbn [N.b2n] in H; repeat split; lia. }
    destruct E as [E1 [E2 [E3 [E4 E5]]]]. apply L in E1. apply M in E3. apply O in E5. congruence.
Qed.
Lemma access_inj m a m' a' : m < 256 -> a < 2 ^ 32 -> m' < 256 -> a' < 2 ^ 32 ->
  (access_means m a = access_means m' a' <-> m = m' /\ N.land a (address_bits m) = N.land a' (address_bits m')).
Proof.
  intros HM HA HM' HA'. rewrite <- (address_kept m a), <- (address_kept m' a'), !access_new by assumption. split.
  - intros H. split; [|rewrite H; reflexivity]. revert H. unfold access_means.
    destruct (N.eqb_spec m 0), (N.eqb_spec m' 0); try discriminate; [congruence|intros H; repeat (destruct (_ =? _) in H; try discriminate H); destruct (_ <? _) in H; discriminate H..|].
    destruct (N.eqb_spec m 1), (N.eqb_spec m' 1); try discriminate; [congruence|intros H; repeat (destruct (_ =? _) in H; try discriminate H); destruct (_ <? _) in H; discriminate H..|].
    destruct (N.eqb_spec m 2), (N.eqb_spec m' 2); try discriminate; [congruence|intros H; repeat (destruct (_ =? _) in H; try discriminate H); destruct (_ <? _) in H; discriminate H..|].
    destruct (N.eqb_spec m 3), (N.eqb_spec m' 3); try discriminate; [congruence|intros H; repeat (destruct (_ =? _) in H; try discriminate H); destruct (_ <? _) in H; discriminate H..|].
    destruct (N.eqb_spec m 4), (N.eqb_spec m' 4); try discriminate; [congruence|intros H; repeat (destruct (_ =? _) in H; try discriminate H); destruct (_ <? _) in H; discriminate H..|].
    destruct (m <? 128), (m' <? 128); try discriminate; intros H; injection H; auto.
  - intros [<- H]. revert H. unfold access_means. change (2 ^ 32) with 4294967296 in *.
    pose proof (N.mod_upper_bound a 256 ltac:(discriminate)) as X0. pose proof (N.mod_upper_bound a' 256 ltac:(discriminate)) as Y0.
    pose proof (N.mod_upper_bound (a / 256) 256 ltac:(discriminate)) as X1. pose proof (N.mod_upper_bound (a' / 256) 256 ltac:(discriminate)) as Y1.
    assert (Z : forall x, x mod 65536 = byte_of 0 (x mod 65536) + 256 * byte_of 1 (x mod 65536) /\
                byte_of 0 (x mod 65536) < 256 /\ byte_of 1 (x mod 65536) < 256)
      by (clear; intros x; unfold byte_of; change (256 ^ 0) with 1; change (256 ^ 1) with 256; lia).
    pose proof (Z a) as X. pose proof (Z a') as Y. revert X0 X1 X Y0 Y1 Y. clear.
    generalize (a mod 65536) (a' mod 65536) (a mod 256) (a' mod 256) (a / 256 mod 256) (a' / 256 mod 256) (a / 65536 mod 256) (a' / 65536 mod 256).
    intros x y x0 y0 x1 y1 x2 y2 X0 X1 [X [XA XB]] Y0 Y1 [Y [YA YB]].
    destruct (m =? 0); [cbn [AccessMethod_address le fold_right]; intros H; f_equal; lia|].
    destruct (m =? 1); [cbn [AccessMethod_address le fold_right]; intros H; f_equal; lia|].
    destruct (m =? 2).
    { cbn [AccessMethod_address le fold_right]. intros H.
      assert (byte_of 0 x = byte_of 0 y /\ byte_of 1 x = byte_of 1 y /\ x2 = y2) as [A [B ->]]
        by (clear X Y; generalize dependent (byte_of 0 x); generalize dependent (byte_of 1 x);
            generalize dependent (byte_of 0 y); generalize dependent (byte_of 1 y); intros; lia).
      rewrite X, Y, A, B. reflexivity. }
    destruct (m =? 3); [cbn [AccessMethod_address]; intros ->; reflexivity|].
    destruct (m =? 4); [cbn [AccessMethod_address]; intros ->; reflexivity|].
    destruct (m <? 128); cbn [AccessMethod_address]; intros ->; reflexivity.
Qed.
Lemma date_inj a b :
  MD_SmartBatteryDataSpecification (1980 + a / 512) (a / 32 mod 16) (a mod 32) = MD_SmartBatteryDataSpecification (1980 + b / 512) (b / 32 mod 16) (b mod 32) <-> a = b.
Proof.
  split; [|intros ->; reflexivity]. intros H.
  assert (A : 1980 + a / 512 = 1980 + b / 512) by congruence. assert (B : a / 32 mod 16 = b / 32 mod 16) by congruence.
  assert (C : a mod 32 = b mod 32) by congruence. clear H.
  change 512 with (32 * 16) in A. rewrite <- !N.div_div in A by discriminate. lia.
Qed.
Lemma uuid_inj v a b : len a = 16 -> len b = 16 -> stored_uuid v a = stored_uuid v b -> a = b.
Proof.
  intros A B. assert (K : forall l : list N, len l = 16 -> exists a b c d e f g h i j k l' m n o p, l = [a; b; c; d; e; f; g; h; i; j; k; l'; m; n; o; p]).
  { intros l H. unfold len in H. do 16 (destruct l as [|? l]; [discriminate H|]). destruct l; [|cbn in H; lia]. do 16 eexists. reflexivity. }
  destruct (K a A) as (?&?&?&?&?&?&?&?&?&?&?&?&?&?&?&?& ->). destruct (K b B) as (?&?&?&?&?&?&?&?&?&?&?&?&?&?&?&?& ->).
  unfold stored_uuid. destruct (since v 2 6); intros H; injection H; intros; congruence.
Qed.
Lemma lists_inj {A} (a b : list A) : (forall n, nth_error a n = nth_error b n) -> a = b.
Proof.
  revert b. induction a as [|x a IH]; intros [|y b] H.
  - reflexivity.
  - discriminate (H O).
  - discriminate (H O).
  - pose proof (H O) as E. cbn in E. injection E as ->. f_equal. apply IH. intros n. exact (H (S n)).
Qed.
Lemma strings_inj a b : Forall good_string a -> Forall good_string b -> encode_strings a = encode_strings b -> a = b.
Proof.
  intros A B H. apply encode_strings_of in A. apply encode_strings_of in B. rewrite H in A.
  apply lists_inj. intros n.
  assert (K : forall t, nth_error a n = Some t <-> nth_error b n = Some t).
  { intros t. specialize (A (N.of_nat n + 1) t). specialize (B (N.of_nat n + 1) t).
    rewrite N.add_sub, Nnat.Nat2N.id in A, B. rewrite A, B by lia. reflexivity. }
  destruct (nth_error a n) as [t|] eqn:E; [symmetry; apply K; reflexivity|].
  destruct (nth_error b n) as [t|]; [|reflexivity]. apply (proj2 (K t)). reflexivity.
Qed.

(* -------------------------------------------------------- whole structures *)

(* two structures of type ty with the fields its1 and its2 *)
Definition shows (v : SmbiosVersion) (ty : N) : Prop := forall r1 r2 s1 s2 its1 its2 m1 m2,
  lays_out v r1 s1 ty its1 m1 -> lays_out v r2 s2 ty its2 m2 -> Forall item_ok its1 -> Forall item_ok its2 ->
  (Structure_eq s1 s2 = true <-> handle r1 = handle r2 /\ visible v ty its1 = visible v ty its2 /\ m1 = m2).

Ltac undecoded := match goal with H : ~ In _ decoded_types |- _ => exfalso; apply H; unfold decoded_types; cbn [In]; tauto end.
Ltac laid := let L1 := fresh in let L2 := fresh in
  intros r1 r2 s1 s2 its1 its2 m1 m2 L1 L2 OK1 OK2; inversion L1; subst; try undecoded; inversion L2; subst; try undecoded;
  clear L1 L2; rewrite (proj1 (structure_eq_iff _ _)); cbn [structure_same]; unfold visible; cbn [N.eqb Pos.eqb].
Ltac versions v := repeat match goal with |- context [since v ?a ?b] => destruct (since v a b) end;
  cbn [given part app fields firstn skipn Nat.sub number_of nth_error no_text andb].
Ltac field H := lazymatch type of H with
  | meaning WakeupType_codes _ _ = _ => apply WakeupType_inj in H
  | meaning BoardType_codes _ _ = _ => apply BoardType_inj in H
  | meaning EnclosureType_codes _ _ = _ => apply EnclosureType_inj in H
  | meaning State_codes _ _ = _ => apply State_inj in H
  | meaning SecurityStatus_codes _ _ = _ => apply SecurityStatus_inj in H
  | meaning ProcessorType_codes _ _ = _ => apply ProcessorType_inj in H
  | meaning ProcessorUpgrade_codes _ _ = _ => apply ProcessorUpgrade_inj in H
  | meaning CacheErrorCorrectionType_codes _ _ = _ => apply CacheErrorCorrectionType_inj in H
  | meaning SystemCacheType_codes _ _ = _ => apply SystemCacheType_inj in H
  | meaning CacheAssociativity_codes _ _ = _ => apply CacheAssociativity_inj in H
  | meaning ConnectorType_codes _ _ = _ => apply ConnectorType_inj in H
  | meaning PortType_codes _ _ = _ => apply PortType_inj in H
  | meaning SlotWidth_codes _ _ = _ => apply SlotWidth_inj in H
  | meaning CurrentUsage_codes _ _ = _ => apply CurrentUsage_inj in H
  | meaning SlotLength_codes _ _ = _ => apply SlotLength_inj in H
  | meaning MemoryArrayUse_codes _ _ = _ => apply MemoryArrayUse_inj in H
  | meaning MemoryArrayErrorCorrectionTypes_codes _ _ = _ => apply MemoryArrayErrorCorrectionTypes_inj in H
  | meaning MemoryTechnology_codes _ _ = _ => apply MemoryTechnology_inj in H
  | meaning MEErrorType_codes _ _ = _ => apply MEErrorType_inj in H
  | meaning MEErrorGranularity_codes _ _ = _ => apply MEErrorGranularity_inj in H
  | meaning MEErrorOperation_codes _ _ = _ => apply MEErrorOperation_inj in H
  | meaning PointingDeviceType_codes _ _ = _ => apply PointingDeviceType_inj in H
  | meaning PointingDeviceInterface_codes _ _ = _ => apply PointingDeviceInterface_inj in H
  | meaning SlotType_codes_here _ _ = _ => apply SlotType_inj in H
  | meaning MemoryType_codes _ _ = _ => apply MemoryType_inj in H
  | meaning FormFactor_codes_here _ _ = _ => apply FormFactor_inj in H
  | meaning MemoryArrayLocation_codes_here _ _ = _ => apply MemoryArrayLocation_inj in H
  | unless _ _ = unless _ _ => apply unless_inj in H
  | voltage_means _ = voltage_means _ => apply voltage_inj in H
  | size_means _ = size_means _ => apply size_inj in H
  | size2_means _ = size2_means _ => apply size2_inj in H
  | option_map function_means _ = _ => apply function_inj in H
  end.
Ltac fields_of H := injection H; clear H; intros;
  repeat match goal with E : _ = _ |- _ => field E end; subst.
Ltac plainly v := versions v; (split;
  [let H := fresh in intros H; fields_of H; split; [assumption|split; reflexivity]
  |let H := fresh in intros [? [H _]]; fields_of H; congruence]).

Lemma bios_shows v : shows v 0.
Proof. laid. plainly v. Qed.
Lemma port_shows v : shows v 8.
Proof. laid. plainly v. Qed.
Lemma error_shows v : shows v 18.
Proof. laid. plainly v. Qed.
Lemma array_mapped_shows v : shows v 19.
Proof. laid. plainly v. Qed.
Lemma device_mapped_shows v : shows v 20.
Proof. laid. plainly v. Qed.
Lemma pointing_shows v : shows v 21.
Proof. laid. plainly v. Qed.
Lemma group_shows v : shows v 14.
Proof. laid. plainly v. Qed.
Lemma board_shows v : shows v 2.
Proof. laid. plainly v. Qed.
Lemma system_shows v : shows v 1.
Proof.
  laid. assert (K : stored_uuid v u = stored_uuid v u0 -> u = u0) by (apply uuid_inj; assumption).
  versions v; (split; [intros HS; fields_of HS; split; [assumption|split; reflexivity]|
    intros [? [HS _]]; fields_of HS; rewrite ?K by assumption; congruence]).
Qed.
Lemma byte_lock a b : a < 256 -> b < 256 -> (128 <=? a) = (128 <=? b) -> a mod 128 = b mod 128 -> a = b.
Proof. destruct (N.leb_spec 128 a), (N.leb_spec 128 b); intros; try discriminate; lia. Qed.
Lemma enclosure_shows v : shows v 3.
Proof.
  intros r1 r2 s1 s2 its1 its2 m1 m2 L1 L2 OK1 OK2. inversion L1; subst; try undecoded. inversion L2; subst; try undecoded.
  clear L1 L2. rewrite structure_eq_value.
  2,3: cbn [lists_ok enclosure_contained_elements]; intros l E; injection E as <-; cbn [ce_record_length ce_chunks]; intros E; rewrite E, N.mul_0_r in *;
    match goal with L : len ?x = 0 |- ?x = [] => destruct x; [reflexivity|discriminate L] end.
  assert (Hty : ty < 256) by (exact (Forall_inv (Forall_inv_tail OK1))).
  assert (Hty0 : ty0 < 256) by (exact (Forall_inv (Forall_inv_tail OK2))).
  unfold visible; cbn [N.eqb Pos.eqb]. split.
  - intros S. inversion S as [x y E|]; subst; clear S. cbn [forget] in E. fields_of E.
    match goal with A : (128 <=? _) = _, B : _ mod 128 = _ |- _ => pose proof (byte_lock _ _ Hty Hty0 A B) end. subst.
    split; [assumption|split; reflexivity].
  - intros [E [F _]]. fields_of F. apply same_fields. cbn [forget]. unfold bare_elements. cbn. rewrite E. reflexivity.
Qed.
(* later versions have what earlier versions have *)
Lemma since_later v a b a' b' : since v a' b' = true -> (a <? a') || ((a' =? a) && (b <=? b')) = true -> since v a b = true.
Proof. unfold since. lia. Qed.
Ltac later v a b a' b' := pose proof (fun H => since_later v a b a' b' H eq_refl).
Ltac versions_ok v := repeat match goal with H : context [since v ?a ?b] |- _ => destruct (since v a b); try (specialize (H eq_refl); discriminate H) end;
  try match goal with H : true = true -> false = true |- _ => discriminate (H eq_refl) end;
  repeat match goal with H : _ = true -> _ = true |- _ => clear H end; versions v.

Lemma cache_shows v : shows v 7.
Proof.
  laid. match goal with A : configuration_means word conf, B : configuration_means word0 conf0 |- _ => pose proof (configuration_inj _ _ _ _ A B) as K end.
  later v 3 1 3 2. later v 2 2 3 1. versions_ok v.
  all: split; [intros HS; fields_of HS; rewrite (proj1 K eq_refl); split; [assumption|split; reflexivity]|
    intros [? [HS _]]; fields_of HS; match goal with E : N.land _ _ = _ |- _ => apply K in E end; congruence].
Qed.
Lemma slots_shows v : shows v 9.
Proof.
  laid. later v 2 1 2 6. later v 2 6 3 2. versions_ok v; (split; [intros HS; fields_of HS;
      try match goal with A : len ?p = 5 * ?a, B : len ?p = 5 * ?b |- _ => assert (a = b) by lia; subst end;
      match goal with E : slot_name _ = slot_name _ |- _ => rewrite E end; split; [assumption|split; reflexivity]|
    intros [? [HS _]]; fields_of HS;
    match goal with E : slot_name ?a = slot_name ?b |- _ => apply SlotType_inj in E; rewrite E end; congruence]).
Qed.
Lemma array_shows v : shows v 16.
Proof.
  laid. later v 2 7 2 8. versions_ok v; (split; [intros HS|intros [? [HS _]]]);
   destruct (N.eqb_spec max 0x80000000); destruct (N.eqb_spec max0 0x80000000); cbn [part app andb fields firstn skipn Nat.sub] in *.
  all: try (injection HS; intros; congruence).
  all: fields_of HS; try congruence; (split; [assumption|split; congruence]).
Qed.
Lemma device_shows v : shows v 17.
Proof.
  laid. versions v; (split; [intros HS; fields_of HS;
      match goal with A : form_name _ = form_name _, B : memory_name _ = memory_name _ |- _ => rewrite A, B end;
      split; [assumption|split; reflexivity]|
    intros [E [HS _]]; injection HS; clear HS; intros; subst;
    match goal with A : form_name _ = form_name _, B : memory_name _ = memory_name _ |- _ =>
      apply FormFactor_inj in A; apply MemoryType_inj in B; rewrite A, B end; rewrite E; reflexivity]).
Qed.
Lemma DeviceChemistry_inj a b : meaning DeviceChemistry_codes Chem_Undefined a = meaning DeviceChemistry_codes Chem_Undefined b <-> a = b.
Proof.
  split; [|intros ->; reflexivity]. unfold meaning, DeviceChemistry_codes. cbn [named].
  intros H.
  repeat match type of H with context [N.eqb a ?y] => destruct (N.eqb_spec a y) end;
  repeat match type of H with context [N.eqb b ?y] => destruct (N.eqb_spec b y) end;
  try discriminate H; congruence.
Qed.
Lemma battery_shows v : shows v 22.
Proof.
  laid. versions v.
  - split.
    + intros HS. injection HS; clear HS; intros.
      assert (chemistry = chemistry0 /\ (chemistry = 2 -> schemistry = schemistry0)) as [<- Hc].
      { repeat match goal with H : (if ?x =? 2 then _ else _) = _ |- _ => revert H end.
        destruct (N.eqb_spec chemistry 2), (N.eqb_spec chemistry0 2); intros K; try (split; congruence).
        - unfold meaning, DeviceChemistry_codes in K. cbn [named] in K. repeat match type of K with context [?x =? ?y] => destruct (x =? y) end; discriminate K.
        - unfold meaning, DeviceChemistry_codes in K. cbn [named] in K. repeat match type of K with context [?x =? ?y] => destruct (x =? y) end; discriminate K.
        - apply DeviceChemistry_inj in K. split; congruence. }
      assert (capacity = capacity0 /\ (capacity <> 0 -> multiplier = multiplier0)) as [<- Hm].
      { repeat match goal with H : (if ?x =? 0 then _ else _) = _ |- _ => revert H end.
        destruct (N.eqb_spec capacity 0), (N.eqb_spec capacity0 0); intros K; try discriminate K; split; congruence. }
      assert (date = date0 /\ (date = [] -> sdate = sdate0)) as [<- Hd].
      { destruct date, date0; split; try discriminate; try congruence. intros _. eapply date_inj; eassumption. }
      assert (serial = serial0 /\ (serial = [] -> sserial = sserial0)) as [<- Hs].
      { destruct serial, serial0; split; try discriminate; congruence. }
      subst. split; [assumption|split; [|reflexivity]].
      clear - Hc Hm Hd Hs.
      destruct serial; [rewrite (Hs eq_refl)|]; (destruct date; [rewrite (Hd eq_refl)|]);
      (destruct (N.eqb_spec chemistry 2) as [C|]; [rewrite (Hc C)|]);
      (destruct (N.eqb_spec capacity 0) as [|M]; [|rewrite (Hm M)]); reflexivity.
    + intros [E [HS _]]. injection HS; clear HS; intros. subst. rewrite E.
      destruct serial0, date0, (N.eqb_spec chemistry0 2), (N.eqb_spec capacity0 0);
      cbn [part app negb] in *; match goal with H : _ = _ :: _ |- _ => injection H; intros; subst; reflexivity end.
  - split.
    + intros HS. injection HS; clear HS; intros.
      assert (capacity = capacity0).
      { repeat match goal with H : (if ?x =? 0 then _ else _) = _ |- _ => revert H end.
        destruct (N.eqb_spec capacity 0), (N.eqb_spec capacity0 0); intros K; congruence. }
      assert (date = date0) by (destruct date, date0; congruence).
      assert (serial = serial0) by (destruct serial, serial0; congruence).
      match goal with H : meaning DeviceChemistry_codes _ _ = _ |- _ => apply DeviceChemistry_inj in H end.
      subst. split; [assumption|split; reflexivity].
    + intros [E [HS _]]. injection HS; clear HS; intros. subst. rewrite E. reflexivity.
Qed.
Lemma processor_shows v : shows v 4.
Proof.
  laid.
  assert (HF : (if since v 2 6 && (fam =? 0xFE) then fam2 else fam) < 65536).
  { inversion OK1 as [|? ? _ K1]; subst. inversion K1 as [|? ? _ K2]; subst. inversion K2 as [|? ? K3 K4]; subst. change (2 ^ 8) with 256 in K3 || (cbn [item_ok] in K3; change (2 ^ 8) with 256 in K3).
    destruct (since v 2 6); cbn [part andb] in *; [|lia]. destruct (fam =? 0xFE); [|lia].
    assert (item_ok (U16 fam2)) by (eapply (proj1 (Forall_forall _ _) OK1); rewrite !in_app_iff; cbn [In]; tauto). assumption. }
  assert (HF0 : (if since v 2 6 && (fam0 =? 0xFE) then fam1 else fam0) < 65536).
  { inversion OK2 as [|? ? _ K1]; subst. inversion K1 as [|? ? _ K2]; subst. inversion K2 as [|? ? K3 K4]; subst. change (2 ^ 8) with 256 in K3 || (cbn [item_ok] in K3; change (2 ^ 8) with 256 in K3).
    destruct (since v 2 6); cbn [part andb] in *; [|lia]. destruct (fam0 =? 0xFE); [|lia].
    assert (item_ok (U16 fam1)) by (eapply (proj1 (Forall_forall _ _) OK2); rewrite !in_app_iff; cbn [In]; tauto). assumption. }
  pose proof (ProcessorFamily_inj _ _ HF HF0) as KF. clear HF HF0 OK1 OK2.
  later v 2 1 2 3. later v 2 3 2 5. later v 2 5 2 6. later v 2 6 3 0. unfold widened in *.
  destruct (since v 2 1), (since v 2 3), (since v 2 5), (since v 2 6), (since v 3 0);
    try match goal with H : true = true -> false = true |- _ => discriminate (H eq_refl) end;
    repeat match goal with H : _ = true -> _ = true |- _ => clear H end; versions v; cbn [andb] in KF.
  all: (split; [intros HS; injection HS; clear HS; intros;
    match goal with K : meaning ProcessorFamily_codes _ _ = _ |- _ => apply KF in K; rewrite K end;
    repeat match goal with E : _ = _ |- _ => field E end; subst;
    repeat match goal with E : (if ?c then _ else _) = _ |- _ => rewrite E; clear E end;
    split; [assumption|split; reflexivity]|
    intros [E [HS _]]; injection HS; clear HS; intros; subst; rewrite E;
    repeat match goal with E : (if ?c then _ else _) = _ |- _ => rewrite E; clear E end;
    reflexivity]).
Qed.
Lemma cut_once L n size n0 size0 : L = n * size -> L = n0 * size0 -> size <> 0 -> size0 <> 0 ->
  size = size0 \/ (L <= size /\ L <= size0) -> n = n0 /\ (n = 0 \/ size = size0).
Proof.
  intros E E0 S S0 [->|[A B]].
  - assert (n = n0) by nia. tauto.
  - assert (n <= 1) by nia. assert (n0 <= 1) by nia.
    assert (n = 0 \/ n = 1) as [->| ->] by lia; (assert (n0 = 0 \/ n0 = 1) as [->| ->] by lia); lia.
Qed.
Lemma log_shows v : shows v 15.
Proof.
  intros r1 r2 s1 s2 its1 its2 m1 m2 L1 L2 OK1 OK2. inversion L1; subst; try undecoded. inversion L2; subst; try undecoded.
  clear L1 L2. rewrite structure_eq_value.
  2,3: cbn [lists_ok log_descriptors]; intros d; destruct (since v 2 1); cbn [given]; intros E; [injection E as <-; cbn [descriptors_size]; lia|discriminate E].
  assert (BM : m < 256 /\ address < 2 ^ 32 /\ (since v 2 1 = true -> format < 256)).
  { rewrite Forall_forall in OK1. split; [|split; [|intros S; rewrite S in OK1]]; [apply (OK1 (U8 m))|apply (OK1 (U32 address))|apply (OK1 (U8 format))]; rewrite in_app_iff; cbn [In part]; tauto. }
  assert (BM0 : m0 < 256 /\ address0 < 2 ^ 32 /\ (since v 2 1 = true -> format0 < 256)).
  { rewrite Forall_forall in OK2. split; [|split; [|intros S; rewrite S in OK2]]; [apply (OK2 (U8 m0))|apply (OK2 (U32 address0))|apply (OK2 (U8 format0))]; rewrite in_app_iff; cbn [In part]; tauto. }
  destruct BM as (B1 & B2 & B3), BM0 as (C1 & C2 & C3). pose proof (access_inj m address m0 address0 B1 B2 C1 C2) as KA.
  unfold visible; cbn [N.eqb Pos.eqb]. versions v.
  - pose proof (LogHeaderFormat_inj format format0 (B3 eq_refl) (C3 eq_refl)) as KF. clear B1 B2 B3 C1 C2 C3 OK1 OK2. split.
    + intros S. remember (SSystemEventLog {| log_handle := handle r1; log_log_area_length := area; log_log_header_start_offset := hstart;
        log_log_data_start_offset := dstart; log_access_method := access_means m address;
        log_log_status := status; log_log_change_token := token;
        log_log_header_format := Some (meaning LogHeaderFormat_codes LogHeaderFormat_other format);
        log_descriptors := Some {| descriptors_data := descs; descriptors_size := size |} |}) as X eqn:EX.
      remember (SSystemEventLog {| log_handle := handle r2; log_log_area_length := area0; log_log_header_start_offset := hstart0;
        log_log_data_start_offset := dstart0; log_access_method := access_means m0 address0;
        log_log_status := status0; log_log_change_token := token0;
        log_log_header_format := Some (meaning LogHeaderFormat_codes LogHeaderFormat_other format0);
        log_descriptors := Some {| descriptors_data := descs0; descriptors_size := size0 |} |}) as Y eqn:EY.
      destruct S as [X Y E|s d e CA].
      * subst X Y. cbn [forget] in E. injection E; clear E; intros.
        match goal with K : access_means _ _ = _ |- _ => apply KA in K as [<- K]; rewrite K end.
        match goal with K : meaning LogHeaderFormat_codes _ _ = _ |- _ => apply KF in K end. subst.
        assert (n = n0) by nia. subst. split; [assumption|split; reflexivity].
      * destruct s as [h a1 a2 a3 a4 a5 a6 a7 a8]. unfold with_descriptors in EX, EY. cbn [log_handle log_log_area_length log_log_header_start_offset log_log_data_start_offset log_access_method log_log_status log_log_change_token log_log_header_format] in EX, EY. injection EX; clear EX; intros; injection EY; clear EY; intros; subst.
        match goal with K : access_means _ _ = _ |- _ => apply KA in K as [<- K]; rewrite K end.
        match goal with K : Some (meaning LogHeaderFormat_codes _ _) = _ |- _ => injection K; clear K; intros K; apply KF in K end. subst.
        destruct CA as [E C]. cbn [descriptors_data descriptors_size] in E, C. subst descs0.
        assert (n = n0 /\ (n = 0 \/ size = size0)) as [<- G] by (eapply cut_once; eassumption).
        split; [congruence|split; [|reflexivity]]. destruct (N.eqb_spec n 0); [reflexivity|]. destruct G as [G|G]; [contradiction|]. subst. reflexivity.
    + intros [E [HS _]]. injection HS; clear HS; intros. subst.
      assert (KK : access_means m0 address = access_means m0 address0) by (apply KA; split; [reflexivity|assumption]). rewrite KK, E.
      destruct (N.eqb_spec n0 0) as [->|].
      * rewrite N.mul_0_l in *. destruct descs; [|discriminate]. destruct descs0; [|discriminate].
        apply (same_log {| log_handle := handle r2; log_log_area_length := area0; log_log_header_start_offset := hstart0;
          log_log_data_start_offset := dstart0; log_access_method := access_means m0 address0;
          log_log_status := status0; log_log_change_token := token0;
          log_log_header_format := Some (meaning LogHeaderFormat_codes LogHeaderFormat_other format0);
          log_descriptors := None |} {| descriptors_data := []; descriptors_size := size |} {| descriptors_data := []; descriptors_size := size0 |}).
        split; [reflexivity|right; cbn; lia].
      * match goal with K : _ :: _ = _ :: _ |- _ => injection K; intros; subst end. apply same_fields. reflexivity.
  - split.
    + intros S. inversion S as [x y E|]; subst; clear S. cbn [forget] in E. injection E; clear E; intros.
      match goal with K : access_means _ _ = _ |- _ => apply KA in K as [<- K]; rewrite K end. subst. split; [assumption|split; reflexivity].
    + intros [E [HS _]]. injection HS; clear HS; intros. subst.
      assert (KK : access_means m0 address = access_means m0 address0) by (apply KA; split; [reflexivity|assumption]). rewrite KK, E.
      apply same_fields. reflexivity.
Qed.
Lemma texts_ok its : Forall item_ok its -> Forall good_string (texts its).
Proof.
  induction 1 as [|i its H _ IH]; [constructor|]. destruct i as [| | | |[|b t]|]; try exact IH.
  constructor; [|exact IH]. destruct H as [H|H]; [discriminate H|exact H].
Qed.
Lemma strings_shown w1 w2 : written_ok w1 -> written_ok w2 ->
  encode_strings (texts (w_items w1) ++ w_more w1) = encode_strings (texts (w_items w2) ++ w_more w2) ->
  texts (w_items w1) ++ w_more w1 = texts (w_items w2) ++ w_more w2.
Proof.
  intros (_ & _ & A & B & _) (_ & _ & C & D & _). apply strings_inj; apply Forall_app; split; try assumption; apply texts_ok; assumption.
Qed.
Lemma raw_shown v w1 w2 rest1 rest2 : written_ok w1 -> written_ok w2 ->
  (bare (raw_of v (encoded w1) rest1) = bare (raw_of v (encoded w2) rest2) <-> encoded w1 = encoded w2).
Proof.
  intros W1 W2. unfold bare, raw_of, encoded. cbn [version info length_ handle data strings e_type e_body e_handle e_strings]. split.
  - intros H. injection H; clear H; intros S D HH _ I. apply InfoType_injective in I. apply strings_shown in S; [|assumption..]. rewrite S, D, HH, I. reflexivity.
  - intros H. injection H; clear H; intros S D HH I. rewrite S, D, HH, I. reflexivity.
Qed.
Lemma stored_inj x y : x < 256 -> y < 256 -> stored 1 x = stored 1 y -> x = y.
Proof. intros A B H. cbn [stored] in H. injection H; intros. rewrite !N.mod_small in * by assumption. assumption. Qed.

(* two structures of one type *)
Definition shows_written (v : SmbiosVersion) (ty : N) : Prop := forall rest1 rest2 w1 w2 s1 s2,
  lays_out v (raw_of v (encoded w1) rest1) s1 (w_type w1) (w_items w1) (w_more w1) ->
  lays_out v (raw_of v (encoded w2) rest2) s2 (w_type w2) (w_items w2) (w_more w2) ->
  written_ok w1 -> written_ok w2 -> w_type w1 = ty -> w_type w2 = ty ->
  (Structure_eq s1 s2 = true <->
   w_handle w1 = w_handle w2 /\ visible v ty (w_items w1) = visible v ty (w_items w2) /\ w_more w1 = w_more w2).
Lemma shows_shows v ty : shows v ty -> shows_written v ty.
Proof.
  intros H rest1 rest2 w1 w2 s1 s2 L1 L2 (_ & _ & O1 & _) (_ & _ & O2 & _) T1 T2. rewrite T1 in L1. rewrite T2 in L2.
  specialize (H _ _ _ _ _ _ _ _ L1 L2 O1 O2). exact H.
Qed.
Ltac written := let L1 := fresh in let L2 := fresh in
  intros rest1 rest2 [t1 h1 i1 m1] [t2 h2 i2 m2] s1 s2 L1 L2 W1 W2 T1 T2; cbn [w_type w_handle w_items w_more] in *; subst t1 t2;
  inversion L1; subst; try undecoded; inversion L2; subst; try undecoded; clear L1 L2;
  rewrite (proj1 (structure_eq_iff _ _)); cbn [structure_same]; unfold visible; cbn [N.eqb Pos.eqb].
Lemma oem_shows v : shows_written v 11.
Proof.
  written. split.
  - intros H. injection H; clear H; intros S HH. apply (strings_shown _ _ W1 W2) in S. cbn in S, HH. subst. auto.
  - intros [HH [_ S]]. cbn in HH |- *. subst. reflexivity.
Qed.
Lemma options_shows v : shows_written v 12.
Proof.
  written. split.
  - intros H. injection H; clear H; intros S HH. apply (strings_shown _ _ W1 W2) in S. cbn in S, HH. subst. auto.
  - intros [HH [_ S]]. cbn in HH |- *. subst. reflexivity.
Qed.
Definition language_of (x : Structure) : option BiosLanguage := match x with SBiosLanguage b => Some b | _ => None end.
Lemma language_shows v : shows_written v 13.
Proof.
  written. split.
  - intros H. apply (f_equal language_of) in H. cbn [forget language_of language_handle language_installable_languages language_flags language_current_language il_structure il_index] in H.
    assert (B : bare (raw_of v (encoded {| w_type := 13; w_handle := h1; w_items := [U8 (len m1); U8 flags; Raw reserved; U8 current]; w_more := m1 |}) rest1)
              = bare (raw_of v (encoded {| w_type := 13; w_handle := h2; w_items := [U8 (len m2); U8 flags0; Raw reserved0; U8 current0]; w_more := m2 |}) rest2)).
    { exact (f_equal (fun o => match o with Some b => il_structure (language_installable_languages b) | None => bare (raw_of v (encoded {| w_type := 13; w_handle := h1; w_items := []; w_more := [] |}) []) end) H). }
    assert (F : flags = flags0).
    { enough (Some flags = Some flags0) by congruence. exact (f_equal (fun o => match o with Some b => language_flags b | None => None end) H). }
    assert (C : current = current0).
    { exact (f_equal (fun o => match o with Some b => language_current_language b | None => 0 end) H). }
    clear H. apply raw_shown in B; [|assumption..].
    pose proof (f_equal e_strings B) as S. pose proof (f_equal e_body B) as D. pose proof (f_equal e_handle B) as HH. clear B.
    cbn [encoded e_strings e_body e_handle w_items w_more w_handle texts app formatted] in S, D, HH. subst.
    apply app_inv_head in D. apply app_inv_head in D. apply app_inv_tail in D. subst. auto.
  - intros [HH [I S]]. injection I; clear I; intros. subst. reflexivity.
Qed.

Lemma type_of_value v r s ty its m : lays_out v r s ty its m -> In ty decoded_types -> variant_type s = Some ty.
Proof. intros L I. destruct L; try reflexivity. contradiction. Qed.
Lemma eq_type x y : Structure_eq x y = true -> variant_type x = variant_type y.
Proof. intros H. apply structure_eq_iff in H. destruct x, y; cbn [structure_same] in H; try discriminate H; reflexivity. Qed.

Lemma reveals v rest1 rest2 w1 w2 s1 s2 :
  lays_out v (raw_of v (encoded w1) rest1) s1 (w_type w1) (w_items w1) (w_more w1) ->
  lays_out v (raw_of v (encoded w2) rest2) s2 (w_type w2) (w_items w2) (w_more w2) ->
  written_ok w1 -> written_ok w2 -> In (w_type w1) decoded_types -> In (w_type w2) decoded_types ->
  (Structure_eq s1 s2 = true <->
   w_type w1 = w_type w2 /\ w_handle w1 = w_handle w2 /\
   visible v (w_type w1) (w_items w1) = visible v (w_type w2) (w_items w2) /\ w_more w1 = w_more w2).
Proof.
  intros L1 L2 W1 W2 D1 D2.
  assert (K : shows_written v (w_type w1)).
  { clear - D1. cbn [decoded_types In] in D1.
    repeat match type of D1 with _ \/ _ => destruct D1 as [<-|D1] end; try contradiction.
    - apply shows_shows, bios_shows.
    - apply shows_shows, system_shows.
    - apply shows_shows, board_shows.
    - apply shows_shows, enclosure_shows.
    - apply shows_shows, processor_shows.
    - apply shows_shows, cache_shows.
    - apply shows_shows, port_shows.
    - apply shows_shows, slots_shows.
    - apply oem_shows.
    - apply options_shows.
    - apply language_shows.
    - apply shows_shows, group_shows.
    - apply shows_shows, log_shows.
    - apply shows_shows, array_shows.
    - apply shows_shows, device_shows.
    - apply shows_shows, error_shows.
    - apply shows_shows, array_mapped_shows.
    - apply shows_shows, device_mapped_shows.
    - apply shows_shows, pointing_shows.
    - apply shows_shows, battery_shows. }
  split.
  - intros H. assert (T : w_type w1 = w_type w2).
    { apply eq_type in H. rewrite (type_of_value _ _ _ _ _ _ L1 D1), (type_of_value _ _ _ _ _ _ L2 D2) in H. injection H. auto. }
    split; [exact T|]. rewrite <- T. apply (K rest1 rest2 w1 w2 s1 s2); auto.
  - intros [T H]. rewrite <- T in H. apply (K rest1 rest2 w1 w2 s1 s2); auto.
Qed.

Lemma reveals_lossless v rest1 rest2 w1 w2 s1 s2 :
  lays_out v (raw_of v (encoded w1) rest1) s1 (w_type w1) (w_items w1) (w_more w1) ->
  lays_out v (raw_of v (encoded w2) rest2) s2 (w_type w2) (w_items w2) (w_more w2) ->
  written_ok w1 -> written_ok w2 -> In (w_type w1) lossless_types ->
  (Structure_eq s1 s2 = true <-> w1 = w2).
Proof.
  intros L1 L2 W1 W2 D1.
  assert (D : In (w_type w1) decoded_types) by (cbn [lossless_types decoded_types In] in *; tauto).
  assert (V : forall l, visible v (w_type w1) l = l).
  { intros l. clear - D1. cbn [lossless_types In] in D1.
    repeat match type of D1 with _ \/ _ => destruct D1 as [<-|D1] end; try contradiction; reflexivity. }
  destruct (in_dec N.eq_dec (w_type w2) decoded_types) as [D2|D2].
  - rewrite (reveals v rest1 rest2 w1 w2 s1 s2) by assumption. split.
    + intros (T & HH & I & M). rewrite <- T, !V in I. destruct w1, w2. cbn in *. subst. reflexivity.
    + intros ->. auto.
  - split.
    + intros H. exfalso. apply eq_type in H. rewrite (type_of_value _ _ _ _ _ _ L1 D) in H.
      assert (E : variant_type s2 = None).
      { inversion L2; try reflexivity; exfalso; apply D2; match goal with E : _ = w_type w2 |- _ => rewrite <- E end; cbn [decoded_types In]; tauto. }
      rewrite E in H. discriminate H.
    + intros <-. contradiction.
Qed.

Lemma reveals_undecoded v rest1 rest2 w1 w2 s1 s2 :
  lays_out v (raw_of v (encoded w1) rest1) s1 (w_type w1) (w_items w1) (w_more w1) ->
  lays_out v (raw_of v (encoded w2) rest2) s2 (w_type w2) (w_items w2) (w_more w2) ->
  written_ok w1 -> written_ok w2 -> ~ In (w_type w1) decoded_types ->
  (Structure_eq s1 s2 = true <-> encoded w1 = encoded w2).
Proof.
  intros L1 L2 W1 W2 D1.
  assert (S1 : s1 = SOther (raw_of v (encoded w1) rest1)).
  { inversion L1; try reflexivity; exfalso; apply D1; match goal with E : _ = w_type w1 |- _ => rewrite <- E end; cbn [decoded_types In]; tauto. }
  subst s1. destruct (in_dec N.eq_dec (w_type w2) decoded_types) as [D2|D2].
  - split.
    + intros H. exfalso. apply eq_type in H. rewrite (type_of_value _ _ _ _ _ _ L2 D2) in H. discriminate H.
    + intros H. exfalso. apply D1. replace (w_type w1) with (w_type w2); [assumption|]. change (e_type (encoded w2) = e_type (encoded w1)). rewrite H. reflexivity.
  - assert (S2 : s2 = SOther (raw_of v (encoded w2) rest2)).
    { inversion L2; try reflexivity; exfalso; apply D2; match goal with E : _ = w_type w2 |- _ => rewrite <- E end; cbn [decoded_types In]; tauto. }
    subst s2. rewrite (proj1 (structure_eq_iff _ _)). cbn [structure_same]. unfold raw_same. apply raw_shown; assumption.
Qed.
Lemma encode_inj w1 w2 : written_ok w1 -> written_ok w2 -> (encode (encoded w1) = encode (encoded w2) <-> encoded w1 = encoded w2).
Proof.
  intros W1 W2. split; [|intros ->; reflexivity]. unfold encode, encoded. cbn [e_type e_body e_handle e_strings]. intros H.
  apply (f_equal (fun l => match l with t :: n :: a :: b :: l => (t, n, a, b, l) | _ => (0, 0, 0, 0, []) end)) in H.
  cbn [app] in H.
  assert (T : w_type w1 = w_type w2) by congruence.
  assert (L : 4 + len (formatted 1 (w_items w1)) = 4 + len (formatted 1 (w_items w2))) by congruence.
  assert (A : w_handle w1 mod 256 = w_handle w2 mod 256) by congruence.
  assert (B : w_handle w1 / 256 = w_handle w2 / 256) by congruence.
  assert (R : formatted 1 (w_items w1) ++ encode_strings (texts (w_items w1) ++ w_more w1)
            = formatted 1 (w_items w2) ++ encode_strings (texts (w_items w2) ++ w_more w2)) by congruence.
  clear H. assert (HH : w_handle w1 = w_handle w2) by (rewrite (N.div_mod (w_handle w1) 256), (N.div_mod (w_handle w2) 256), A, B by discriminate; reflexivity).
  assert (E : formatted 1 (w_items w1) = formatted 1 (w_items w2)).
  { assert (LL : Datatypes.length (formatted 1 (w_items w1)) = Datatypes.length (formatted 1 (w_items w2))) by (unfold len in L; lia).
    clear - R LL. revert R LL. generalize (formatted 1 (w_items w1)) as p. generalize (formatted 1 (w_items w2)) as q.
    intros q p. revert q. induction p as [|x p IH]; intros [|y q] R LL; try discriminate LL; [reflexivity|].
    injection R as -> R. f_equal. apply IH; [exact R|]. injection LL. auto. }
  rewrite E in R. apply app_inv_head in R. apply strings_shown in R; [|assumption..]. rewrite T, HH, E, R. reflexivity.
Qed.
Lemma reveals_undecoded_bytes v rest1 rest2 w1 w2 s1 s2 :
  lays_out v (raw_of v (encoded w1) rest1) s1 (w_type w1) (w_items w1) (w_more w1) ->
  lays_out v (raw_of v (encoded w2) rest2) s2 (w_type w2) (w_items w2) (w_more w2) ->
  written_ok w1 -> written_ok w2 -> ~ In (w_type w1) decoded_types ->
  (Structure_eq s1 s2 = true <-> encode (encoded w1) = encode (encoded w2)).
Proof. intros. rewrite encode_inj by assumption. eapply reveals_undecoded; eassumption. Qed.
