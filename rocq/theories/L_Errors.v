(* Lemmas for C60: decoding errors are accurate. *)
From Coq Require Import ZArith Lia ZifyBool ZifyNat ZifyN String.
From Verif Require Import Base G_Enums M_Raw M_Entry M_Bios M_System M_BaseBoard M_Enclosure
  M_Processor M_Cache M_PortConnector M_SystemSlots M_Strings M_GroupAssociations
  M_SystemEventLog M_PhysicalMemoryArray M_MemoryDevice M_Memory M_PortableBattery
  M_Iter Spec S_Decode S_Lists S_Errors L_Base L_Strings L_Decode L_Lists.
Local Open Scope N_scope.
Ltac Zify.zify_post_hook ::= Z.div_mod_to_equations.

Definition says {A} (r : RawStructure) (x : out (res A)) : Prop := forall e, x = Val (Err e) -> accurate r e.

Lemma says_obind {A B} r (m : out A) (k : A -> out (res B)) : (forall a, m = Val a -> says r (k a)) -> says r (obind m k).
Proof. intros H e. destruct m as [a| |]; cbn [obind]; [apply H; reflexivity|discriminate|discriminate]. Qed.
Lemma says_rbind {A B} r (m : out (res A)) (k : A -> out (res B)) :
  says r m -> (forall a, m = Val (Ok a) -> says r (k a)) -> says r (rbind m k).
Proof.
  intros HM H e. destruct m as [[a|e']| |]; cbn [rbind]; [apply H; reflexivity| |discriminate|discriminate].
  intros [= <-]. apply HM. reflexivity.
Qed.
Lemma says_ok {A} r (a : A) : says r (Val (Ok a)). Proof. intros e; discriminate. Qed.
Lemma says_panic {A} r : @says A r Panic. Proof. intros e; discriminate. Qed.
Lemma says_ub {A} r : @says A r UB. Proof. intros e; discriminate. Qed.
Lemma says_find0 r k : info r <> InfoType_SystemConfigurationOptions -> says r (Val (find_string r k)).
Proof.
  intros HI e [= E]. apply find_string_err in E. destruct E as [-> N]. cbn. split; [reflexivity|]. split; [reflexivity|].
  destruct (info r); try exact N. destruct (HI eq_refl).
Qed.
Lemma says_rmap {A B} (f : A -> B) r (x : res A) : says r (Val x) -> says r (Val (rmap f x)).
Proof. intros H e. destruct x; cbn [rmap]; [discriminate|]. intros [= <-]. apply H. reflexivity. Qed.
Lemma field_missing r w o : 4 <= o -> field r o w = None -> 4 + len (data r) < o + w.
Proof. intros H F. unfold field in F. destruct (_ && _)%bool eqn:D in F; [discriminate|]. lia. Qed.
Lemma says_get c w o r : 0 < w -> 4 <= o -> o + w <= last_field_end (info r) -> says r (get c w o r).
Proof.
  intros HW HO HE e E. assert (B : last_field_end (info r) <= 0x20) by (destruct (info r); discriminate).
  rewrite get_field in E by lia. destruct (field r o w) eqn:F; [discriminate|]. injection E as <-.
  cbn [accurate]. apply field_missing in F; lia.
Qed.
Lemma says_get_string c o r : info r <> InfoType_SystemConfigurationOptions -> 4 <= o -> o + 1 <= last_field_end (info r) ->
  says r (get_string c o r).
Proof. intros HI HO HE. unfold get_string. apply says_rbind; [apply says_get; [lia|assumption..]|]. intros; apply says_find0, HI. Qed.
Lemma says_map_ok {A} (f : A -> Structure) r x : says r x -> says r (map_ok f x).
Proof. intros H e. unfold map_ok, omap. destruct x as [[a|e']| |]; cbn [obind rmap]; try discriminate. intros [= <-]. apply H; reflexivity. Qed.
Lemma says_length {A} r i spec n : i = info r -> special_length_claim r spec n ->
  @says A r (Val (Err (InvalidFormattedSectionLength i (handle r) spec n))).
Proof. intros HI H e [= <-]. cbn. auto. Qed.

Ltac not_options := match goal with EI : info ?r = _ |- info ?r <> _ => rewrite EI; discriminate end.
Ltac in_fields := match goal with EI : info ?r = _ |- _ <= last_field_end (info ?r) => rewrite EI; discriminate end.
Ltac claim :=
  apply says_length; [symmetry; assumption|];
  unfold special_length_claim; match goal with EI : info ?r = _ |- _ => rewrite EI end;
  first [ left; split; [reflexivity|] | right; split; [tauto|] ];
  repeat match goal with H : (_ && _)%bool = true |- _ => apply andb_true_iff in H; destruct H end; lia.
Ltac says_step :=
  cbv zeta;
  first
  [ apply says_ok | apply says_panic | apply says_ub
  | apply says_get; [reflexivity|discriminate|in_fields]
  | apply says_find0; not_options
  | apply says_rmap, says_find0; not_options
  | apply says_get_string; [not_options|discriminate|in_fields]
  | claim
  | match goal with |- says _ (rbind _ _) => apply says_rbind; [|intros ? ?]
                  | |- says _ (obind _ _) => apply says_obind; intros ? ? end
  | match goal with |- says _ (if ?b then _ else _) => destruct b eqn:?
                  | |- says _ (match ?x with _ => _ end) => destruct x eqn:? end ].

Lemma says_options c r : info r = InfoType_SystemConfigurationOptions -> says r (SystemConfigurationOptions_try_from c r).
Proof.
  intros EI e E. apply options_errors in E. destruct E as [[F ->]|[n [l [_ [S [N ->]]]]]].
  { cbn [accurate]. rewrite EI. apply field_missing in F; [exact F|discriminate]. }
  cbn. rewrite EI. split; [reflexivity|]. split; [reflexivity|]. exists l. auto.
Qed.

Lemma says_group c r : info r = InfoType_GroupAssociations -> length_ r = 4 + len (data r) -> length_ r < 256 ->
  says r (GroupAssociations_try_from c r).
Proof.
  intros EI HL HB. destruct (N.lt_ge_cases (length_ r) 5) as [H|H].
  - rewrite group_short by assumption. destruct (overflow_checks c); [apply says_panic|].
    apply says_length; [symmetry; exact EI|]. unfold special_length_claim. rewrite EI. split; [reflexivity|]. split; [reflexivity|lia].
  - intros e E. apply group_err in E; [|lia..]. destruct E as [k [_ [N ->]]]. cbn. rewrite EI. auto.
Qed.
Lemma says_event_log c r : info r = InfoType_SystemEventLog -> says r (SystemEventLog_try_from c r).
Proof.
  intros EI. unfold SystemEventLog_try_from. cbv zeta. rewrite !get_ok_field by get_side. rewrite !obind_val.
  destruct (version_eq _ _ && _)%bool eqn:E1.
  { apply says_length; [symmetry; exact EI|]. unfold special_length_claim. rewrite EI. left. split; [reflexivity|].
    apply andb_true_iff in E1. destruct E1 as [_ E1]. lia. }
  destruct (version_ge _ _ && _)%bool eqn:E2.
  { apply andb_true_iff in E2. destruct E2 as [_ E2].
    destruct (field r 0x15 1) as [x|] eqn:FX; [destruct (field r 0x16 1) as [y|] eqn:FY|]; cbn [oand_then option_map] in *;
      (apply says_length; [symmetry; exact EI|]); unfold special_length_claim; rewrite EI; right.
    - left. split; [reflexivity|]. exists x, y. split; [exact FX|]. split; [exact FY|]. split; [lia|reflexivity].
    - right. split; [reflexivity|]. split; [reflexivity|]. unfold field in FY. destruct (_ && _)%bool eqn:D in FY; [discriminate|]. lia.
    - right. split; [reflexivity|]. split; [reflexivity|]. unfold field in FX. destruct (_ && _)%bool eqn:D in FX; [discriminate|]. lia. }
  repeat says_step.
Qed.

Lemma says_dispatch c r : length_ r = 4 + len (data r) -> length_ r < 256 -> says r (dispatch c r).
Proof.
  intros HL HB. unfold dispatch. destruct (info r) eqn:EI; try apply says_ok; apply says_map_ok.
  all: try (apply says_options; exact EI). all: try (apply says_group; assumption). all: try (apply says_event_log; exact EI).
  all: cbv beta delta [Bios_try_from System_try_from BaseBoard_try_from Enclosure_try_from Processor_try_from
    Cache_try_from PortConnector_try_from SystemSlots_try_from OemStrings_try_from
    BiosLanguage_try_from PhysicalMemoryArray_try_from MemoryDevice_try_from MemoryError32_try_from
    MemoryArrayMappedAddress_try_from MemoryDeviceMappedAddress_try_from BuiltInPointingDevice_try_from
    PortableBattery_try_from some_if get_optional_uint get_uint].
  all: repeat says_step.
  apply says_length; [reflexivity|]. unfold special_length_claim. rewrite EI. split; [reflexivity|]. split; [reflexivity|].
  lia.
Qed.
