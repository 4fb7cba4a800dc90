(* Lemmas for C62: what a strict build returns, every build returns. *)
From Coq Require Import String.
From Coq Require Import ZArith Lia ZifyBool ZifyNat ZifyN.
From Verif Require Import Base G_Enums M_Raw M_Entry M_Bitfield M_Bios M_System M_BaseBoard M_Enclosure M_Processor M_Cache
  M_PortConnector M_SystemSlots M_Strings M_GroupAssociations M_SystemEventLog M_PhysicalMemoryArray M_MemoryDevice
  M_Memory M_PortableBattery M_Iter Spec S_Builds L_Base.
Local Open Scope N_scope.

Section Builds.
Context (c1 c2 : cfg) (HS : stricter c1 c2).

Lemma carries_refl {A} (m : out A) : carries m m.
Proof. intros x H; exact H. Qed.
Lemma carries_panic {A} (m : out A) : carries Panic m.
Proof. intros x H; discriminate. Qed.
Lemma carries_ub {A} (m : out A) : carries UB m.
Proof. intros x H; discriminate. Qed.
Lemma carries_obind {A B} (m1 m2 : out A) (k1 k2 : A -> out B) :
  carries m1 m2 -> (forall a, carries (k1 a) (k2 a)) -> carries (obind m1 k1) (obind m2 k2).
Proof.
  intros HM HK x. destruct m1 as [a| |]; cbn [obind]; try discriminate. rewrite (HM a eq_refl). cbn [obind]. apply HK.
Qed.
Lemma carries_rbind {E A B} (m1 m2 : out (result E A)) (k1 k2 : A -> out (result E B)) :
  carries m1 m2 -> (forall a, carries (k1 a) (k2 a)) -> carries (rbind m1 k1) (rbind m2 k2).
Proof.
  intros HM HK x. destruct m1 as [a| |]; cbn [rbind]; try discriminate. rewrite (HM a eq_refl).
  destruct a as [a|e]; [apply HK|auto].
Qed.
Lemma carries_omap {A B} (f : A -> B) m1 m2 : carries m1 m2 -> carries (omap f m1) (omap f m2).
Proof. intros HM x. unfold omap. destruct m1 as [a| |]; cbn [obind]; try discriminate. rewrite (HM a eq_refl). auto. Qed.

Lemma carries_add w a b : carries (u_add c1 w a b) (u_add c2 w a b).
Proof.
  destruct HS as [H1 [H2 _]]. unfold u_add. destruct (_ <? _); [apply carries_refl|].
  destruct (overflow_checks c1); [apply carries_panic|]. destruct (overflow_checks c2); [specialize (H1 eq_refl); discriminate|apply carries_refl].
Qed.
Lemma carries_sub w a b : carries (u_sub c1 w a b) (u_sub c2 w a b).
Proof.
  destruct HS as [H1 [H2 _]]. unfold u_sub. destruct (_ <=? _); [apply carries_refl|].
  destruct (overflow_checks c1); [apply carries_panic|]. destruct (overflow_checks c2); [specialize (H1 eq_refl); discriminate|apply carries_refl].
Qed.
Lemma carries_mul w a b : carries (u_mul c1 w a b) (u_mul c2 w a b).
Proof.
  destruct HS as [H1 [H2 _]]. unfold u_mul. destruct (_ <? _); [apply carries_refl|].
  destruct (overflow_checks c1); [apply carries_panic|]. destruct (overflow_checks c2); [specialize (H1 eq_refl); discriminate|apply carries_refl].
Qed.
Lemma carries_shl w p : carries (shl1 c1 w p) (shl1 c2 w p).
Proof.
  destruct HS as [H1 [H2 _]]. unfold shl1. destruct (_ <? _); [apply carries_refl|].
  destruct (overflow_checks c1); [apply carries_panic|]. destruct (overflow_checks c2); [specialize (H1 eq_refl); discriminate|apply carries_refl].
Qed.
Lemma carries_packed n r : carries (read_packed c1 n r) (read_packed c2 n r).
Proof.
  destruct HS as [H1 [H2 _]]. unfold read_packed. destruct (_ <=? len (data r)); [apply carries_refl|].
  destruct (flat_memory c1); [rewrite (H2 eq_refl); apply carries_refl|apply carries_ub].
Qed.
Lemma same_usize : usize_bits c1 = usize_bits c2.
Proof. destruct HS as [_ [_ H]]. unfold usize_bits. rewrite H. reflexivity. Qed.
Lemma carries_get w o r : carries (get c1 w o r) (get c2 w o r).
Proof. unfold get. rewrite same_usize. apply carries_obind; [apply carries_sub|]. intros a. apply carries_obind; [apply carries_add|]. intros b. apply carries_refl. Qed.
Lemma carries_get_slice o w r : carries (get_slice c1 o w r) (get_slice c2 o w r).
Proof. unfold get_slice. rewrite same_usize. apply carries_obind; [apply carries_sub|]. intros a. apply carries_obind; [apply carries_add|]. intros b. apply carries_refl. Qed.
Lemma carries_get_string o r : carries (get_string c1 o r) (get_string c2 o r).
Proof. unfold get_string. apply carries_rbind; [apply carries_get|]. intros a. apply carries_refl. Qed.
Lemma carries_get_ok w o r : carries (get_ok c1 w o r) (get_ok c2 w o r).
Proof. apply carries_omap, carries_get. Qed.
Lemma carries_get_string_ok o r : carries (get_string_ok c1 o r) (get_string_ok c2 o r).
Proof. apply carries_omap, carries_get_string. Qed.
Lemma carries_basic_string o r : carries (basic_string c1 o r) (basic_string c2 o r).
Proof. unfold basic_string. apply carries_obind; [apply carries_get_ok|]. intros a. apply carries_refl. Qed.
Lemma carries_element d a : carries (ContainedElement_from c1 d a) (ContainedElement_from c2 d a).
Proof.
  destruct HS as [H1 [H2 _]]. unfold ContainedElement_from. apply carries_obind; [|intros; apply carries_refl].
  destruct (_ <=? len d); [apply carries_refl|]. destruct (flat_memory c1); [rewrite (H2 eq_refl); apply carries_refl|apply carries_ub].
Qed.

Ltac carry_step :=
  cbv zeta; rewrite ?same_usize;
  match goal with
  | |- carries ?m ?m => apply carries_refl
  | |- carries Panic _ => apply carries_panic
  | |- carries UB _ => apply carries_ub
  | |- carries (rbind _ _) (rbind _ _) => apply carries_rbind; [|intros ?]
  | |- carries (obind _ _) (obind _ _) => apply carries_obind; [|intros ?]
  | |- carries (omap _ _) (omap _ _) => apply carries_omap
  | |- carries (if ?b then _ else _) (if ?b then _ else _) => destruct b
  | |- carries (match ?x with _ => _ end) (match ?x with _ => _ end) => destruct x
  | |- carries (u_add _ _ _ _) _ => apply carries_add
  | |- carries (u_sub _ _ _ _) _ => apply carries_sub
  | |- carries (u_mul _ _ _ _) _ => apply carries_mul
  | |- carries (shl1 _ _ _) _ => apply carries_shl
  | |- carries (read_packed _ _ _) _ => apply carries_packed
  | |- carries (get _ _ _ _) _ => apply carries_get
  | |- carries (get_slice _ _ _ _) _ => apply carries_get_slice
  | |- carries (get_string _ _ _) _ => apply carries_get_string
  | |- carries (get_ok _ _ _ _) _ => apply carries_get_ok
  | |- carries (get_string_ok _ _ _) _ => apply carries_get_string_ok
  | |- carries (basic_string _ _ _) _ => apply carries_basic_string
  | |- carries (ContainedElement_from _ _ _) _ => apply carries_element
  end.

Lemma carries_elements_new d a : carries (ContainedElements_new c1 d a) (ContainedElements_new c2 d a).
Proof. unfold ContainedElements_new. repeat carry_step. Qed.
Lemma carries_dispatch r : carries (dispatch c1 r) (dispatch c2 r).
Proof.
  unfold dispatch. destruct (info r); try (match goal with |- carries ?m ?m => apply carries_refl end); unfold map_ok; apply carries_omap.
  all: cbv beta delta [Bios_try_from System_try_from BaseBoard_try_from Enclosure_try_from Processor_try_from
    Cache_try_from PortConnector_try_from SystemSlots_try_from OemStrings_try_from
    SystemConfigurationOptions_try_from BiosLanguage_try_from GroupAssociations_try_from
    SystemEventLog_try_from PhysicalMemoryArray_try_from MemoryDevice_try_from MemoryError32_try_from
    MemoryArrayMappedAddress_try_from MemoryDeviceMappedAddress_try_from BuiltInPointingDevice_try_from
    PortableBattery_try_from].
  all: repeat first [match goal with |- carries (ContainedElements_new _ _ _) _ => apply carries_elements_new end | carry_step].
Qed.
Lemma carries_next s : carries (next c1 s) (next c2 s).
Proof.
  unfold next, next_raw. repeat first [match goal with |- carries (dispatch _ _) _ => apply carries_dispatch end | carry_step].
Qed.

Lemma carries_drains {S A} (n1 n2 : S -> out (option A * S)) : (forall s, carries (n1 s) (n2 s)) ->
  forall s l s', drains n1 s l s' -> drains n2 s l s'.
Proof.
  intros H s l s' D. induction D as [s s' E|s a s1 l s' E D IH].
  - apply drains_nil. apply H, E.
  - eapply drains_cons; [apply H, E|exact IH].
Qed.

(* the other functions that compute *)
Lemma carries_elements s : carries (ContainedElements_next c1 s) (ContainedElements_next c2 s).
Proof. unfold ContainedElements_next. repeat carry_step. Qed.
Lemma carries_languages s : carries (InstallableLanguages_next c1 s) (InstallableLanguages_next c2 s).
Proof. unfold InstallableLanguages_next. repeat carry_step. Qed.
Lemma carries_rom s : carries (RomSize_to_u64 c1 s) (RomSize_to_u64 c2 s).
Proof. unfold RomSize_to_u64. repeat carry_step. Qed.
Lemma carries_cache s : carries (CacheSize_bytes c1 s) (CacheSize_bytes c2 s).
Proof. unfold CacheSize_bytes. repeat carry_step. Qed.
Lemma carries_cache2 s : carries (CacheSize2_bytes c1 s) (CacheSize2_bytes c2 s).
Proof. unfold CacheSize2_bytes. repeat carry_step. Qed.
Lemma carries_capacity d : carries (DesignCapacity_to_u64 c1 d) (DesignCapacity_to_u64 c2 d).
Proof. unfold DesignCapacity_to_u64. repeat carry_step. Qed.
Lemma carries_iter it : carries (iter_next c1 it) (iter_next c2 it).
Proof. unfold iter_next. repeat carry_step. Qed.
Lemma carries_positions w l : forall v, carries (from_positions c1 w v l) (from_positions c2 w v l).
Proof. induction l as [|p l IH]; intros v; cbn [from_positions]; repeat first [apply IH | carry_step]. Qed.
Lemma carries_significants it : carries (significants_next c1 it) (significants_next c2 it).
Proof.
  unfold significants_next. generalize (S (S (length (it_layout it)))). intros n. revert it.
  induction n as [|n IH]; intros it; cbn [significants_loop]; [apply carries_ub|].
  apply carries_obind; [apply carries_iter|]. intros [[f|] it']; [|apply carries_refl]. destruct (_ || _); [apply IH|apply carries_refl].
Qed.
Lemma carries_reserved rv : carries (reserved_next c1 rv) (reserved_next c2 rv).
Proof.
  unfold reserved_next. generalize (S (S (length (it_layout (rv_iter rv))))) 0. intros n. revert rv.
  induction n as [|n IH]; intros rv fin; cbn [reserved_loop]; [apply carries_ub|].
  apply carries_obind; [apply carries_iter|]. intros [[f|] it']; [|apply carries_refl].
  destruct (type_ f), (rv_desc rv); try apply carries_refl; try apply IH. destruct (negb _); [apply carries_refl|apply IH].
Qed.
End Builds.
