(* Proofs that handles and texts come from the structure itself. *)
From Coq Require Import ZArith Lia ZifyBool ZifyNat ZifyN.
From Verif Require Import Base G_Enums M_Raw M_Entry M_Bios M_System M_BaseBoard M_Enclosure
  M_Processor M_Cache M_PortConnector M_SystemSlots M_Strings M_GroupAssociations
  M_SystemEventLog M_PhysicalMemoryArray M_MemoryDevice M_Memory M_PortableBattery M_Iter
  Spec S_Decode S_Memory S_Iter S_Origin L_Base L_Strings L_Array L_Iter L_Frame.
Local Open Scope N_scope.

Lemma own_find r k t : find_string r k = Ok t -> own_text r t.
Proof. intros H. apply find_string_ok in H. destruct H as [[_ ->]|[_ H]]; [left; reflexivity|right; eauto]. Qed.

(* an optional text that may be used *)
Definition own_opt (r : RawStructure) (o : option text) : Prop := Forall (own_text r) (optional o).
Lemma own_opt_ok r k : own_opt r (ok (find_string r k)).
Proof. unfold own_opt. destruct (find_string r k) eqn:E; cbn; constructor; [eapply own_find, E|constructor]. Qed.

Lemma get_string_own c o r t : get_string c o r = Val (Ok t) -> own_text r t.
Proof.
  unfold get_string. destruct (get c 1 o r) as [[k|e]| |]; cbn [rbind]; try discriminate. intros [= H]. eapply own_find, H.
Qed.
Lemma get_string_ok_own c o r t : get_string_ok c o r = Val t -> own_opt r t.
Proof.
  unfold get_string_ok, omap. destruct (get_string c o r) as [[k|e]| |] eqn:E; cbn [obind]; try discriminate; intros [= <-].
  - constructor; [eapply get_string_own, E|constructor].
  - constructor.
Qed.
Lemma basic_string_own c o r t : basic_string c o r = Val t -> own_opt r t.
Proof.
  unfold basic_string. destruct (get_ok c 1 o r) as [k| |]; cbn [obind]; try discriminate. intros [= <-].
  destruct (ofilter _ k); cbn [oand_then]; [apply own_opt_ok|constructor].
Qed.
Lemma some_if_own r b k t : some_if b (find_string r k) = Val (Ok t) -> own_opt r t.
Proof.
  unfold some_if. destruct b; [|intros [= <-]; constructor]. destruct (find_string r k) eqn:E; cbn [rmap]; [|discriminate].
  intros [= <-]. constructor; [eapply own_find, E|constructor].
Qed.

Definition good (r : RawStructure) (s : Structure) : Prop := shown_handle s = handle r /\ Forall (own_text r) (shown_texts s) /\
  (forall a, shown_strings s = Some a -> a = strings r).

Definition gives {A} (P : A -> Prop) (x : out A) : Prop := forall a, x = Val a -> P a.
Definition gives_ok {A} (P : A -> Prop) (x : out (res A)) : Prop := forall a, x = Val (Ok a) -> P a.
Lemma gives_obind {A B} (P : B -> Prop) (m : out A) (k : A -> out (res B)) : (forall a, m = Val a -> gives_ok P (k a)) -> gives_ok P (obind m k).
Proof. intros H b. destruct m as [a| |]; cbn [obind]; [apply H; reflexivity|discriminate|discriminate]. Qed.
Lemma gives_rbind {A B} (P : B -> Prop) (m : out (res A)) (k : A -> out (res B)) :
  (forall a, m = Val (Ok a) -> gives_ok P (k a)) -> gives_ok P (rbind m k).
Proof. intros H b. destruct m as [[a|]| |]; cbn [rbind]; [apply H; reflexivity|discriminate..]. Qed.
Lemma gives_map {A} (P : Structure -> Prop) (f : A -> Structure) x : gives_ok (fun a => P (f a)) x -> gives_ok P (map_ok f x).
Proof. intros H a. unfold map_ok, omap. destruct x as [[b|]| |]; cbn [obind rmap]; try discriminate. intros [= <-]. apply H. reflexivity. Qed.
Lemma gives_err {A} (P : A -> Prop) e : gives_ok P (Val (Err e)). Proof. intros a; discriminate. Qed.
Lemma gives_panic {A} (P : A -> Prop) : gives_ok P Panic. Proof. intros a; discriminate. Qed.
Lemma gives_ub {A} (P : A -> Prop) : gives_ok P UB. Proof. intros a; discriminate. Qed.
Lemma gives_val {A} (P : A -> Prop) (a : A) : P a -> gives_ok P (Val (Ok a)). Proof. intros H b [= <-]. exact H. Qed.

Ltac remember_text H :=
  first [ apply get_string_own in H | apply get_string_ok_own in H | apply basic_string_own in H
        | (injection H as H; apply own_find in H) | apply some_if_own in H | clear H ].
Ltac gives_step :=
  cbv zeta;
  first
  [ apply gives_err | apply gives_panic | apply gives_ub
  | match goal with |- gives_ok _ (rbind _ _) => apply gives_rbind; let a := fresh "a" in let H := fresh "H" in intros a H; remember_text H
                  | |- gives_ok _ (obind _ _) => apply gives_obind; let a := fresh "a" in let H := fresh "H" in intros a H; remember_text H end
  | match goal with |- gives_ok _ (if ?b then _ else _) => destruct b eqn:?
                  | |- gives_ok _ (match ?x with _ => _ end) => destruct x eqn:? end ].

Lemma opt_find_own {X} r (o : option (N * X)) t :
  match o with Some (n, _) => Val (rmap Some (find_string r n)) | None => Val (Ok None) end = Val (Ok t) -> own_opt r t.
Proof.
  destruct o as [[n x]|]; [|intros [= <-]; constructor]. destruct (find_string r n) eqn:E; cbn [rmap]; [|discriminate].
  intros [= <-]. constructor; [eapply own_find, E|constructor].
Qed.
Ltac remember_text H ::=
  first [ apply get_string_own in H | apply get_string_ok_own in H | apply basic_string_own in H
        | (injection H as H; apply own_find in H) | apply some_if_own in H | apply opt_find_own in H | clear H ].

Lemma date_own r a n : own_opt r a -> Forall (own_text r) (date_text (ManufactureDate_new a n)).
Proof. destruct a, n; cbn; intros H; exact H || constructor. Qed.
Lemma serial_own r a n : own_opt r a -> Forall (own_text r) (serial_text (SerialNumber_new a n)).
Proof. destruct a, n; cbn; intros H; exact H || constructor. Qed.
Lemma chemistry_own r k a : own_opt r a -> Forall (own_text r) (chemistry_text (DeviceChemistry_new k a)).
Proof.
  intros H. unfold DeviceChemistry_new. repeat (match goal with |- context [if ?b then _ else _] => destruct b end; try constructor).
  destruct a; cbn; [exact H|constructor].
Qed.

Ltac texts_own :=
  cbn [shown_texts app optional];
  repeat first
  [ apply Forall_nil | assumption
  | apply Forall_app; split
  | apply date_own; assumption | apply serial_own; assumption | apply chemistry_own; assumption
  | match goal with H : own_opt _ _ |- Forall _ (optional _) => exact H end
  | apply Forall_cons; [assumption|] ].
Ltac good_val := apply gives_val; split; [reflexivity|split; [texts_own|cbn [shown_strings]; intros ? X; first [discriminate X|injection X as <-; reflexivity]]].

Lemma gives_let {A B} (P : B -> Prop) (v : A) (k : A -> out (res B)) : (forall x, gives_ok P (k x)) -> gives_ok P (let x := v in k x).
Proof. intros H. apply H. Qed.
Ltac gives_step ::=
  match goal with
  | |- gives_ok _ (let _ := _ in _) => apply gives_let; intro
  | |- gives_ok _ (Val (Err _)) => apply gives_err
  | |- gives_ok _ Panic => apply gives_panic
  | |- gives_ok _ UB => apply gives_ub
  | |- gives_ok _ (rbind _ _) => apply gives_rbind; let a := fresh "a" in let H := fresh "H" in intros a H; remember_text H
  | |- gives_ok _ (obind _ _) => apply gives_obind; let a := fresh "a" in let H := fresh "H" in intros a H; remember_text H
  | |- gives_ok _ (if ?b then _ else _) => destruct b
  | |- gives_ok _ (match ?x with _ => _ end) => destruct x
  end.
Lemma Bios_good c r : gives_ok (fun x => good r (SBios x)) (Bios_try_from c r).
Proof. unfold Bios_try_from. repeat gives_step; good_val. Qed.
Lemma System_good c r : gives_ok (fun x => good r (SSystem x)) (System_try_from c r).
Proof. unfold System_try_from. repeat gives_step; good_val. Qed.
Lemma BaseBoard_good c r : gives_ok (fun x => good r (SBaseBoard x)) (BaseBoard_try_from c r).
Proof. unfold BaseBoard_try_from. repeat gives_step; good_val. Qed.
Lemma Enclosure_good c r : gives_ok (fun x => good r (SEnclosure x)) (Enclosure_try_from c r).
Proof. unfold Enclosure_try_from. repeat gives_step; good_val. Qed.
Lemma Processor_good c r : gives_ok (fun x => good r (SProcessor x)) (Processor_try_from c r).
Proof. unfold Processor_try_from. repeat gives_step; good_val. Qed.
Lemma Cache_good c r : gives_ok (fun x => good r (SCache x)) (Cache_try_from c r).
Proof. unfold Cache_try_from. repeat gives_step; good_val. Qed.
Lemma PortConnector_good c r : gives_ok (fun x => good r (SPortConnector x)) (PortConnector_try_from c r).
Proof. unfold PortConnector_try_from. repeat gives_step; good_val. Qed.
Lemma SystemSlots_good c r : gives_ok (fun x => good r (SSystemSlots x)) (SystemSlots_try_from c r).
Proof. unfold SystemSlots_try_from. repeat gives_step; good_val. Qed.
Lemma OemStrings_good c r : gives_ok (fun x => good r (SOemStrings x)) (OemStrings_try_from c r).
Proof. unfold OemStrings_try_from. repeat gives_step; good_val. Qed.
Lemma SystemConfigurationOptions_good c r : gives_ok (fun x => good r (SSystemConfigurationOptions x)) (SystemConfigurationOptions_try_from c r).
Proof. unfold SystemConfigurationOptions_try_from. repeat gives_step; good_val. Qed.
Lemma BiosLanguage_good c r : gives_ok (fun x => good r (SBiosLanguage x)) (BiosLanguage_try_from c r).
Proof. unfold BiosLanguage_try_from. repeat gives_step; good_val. Qed.
Lemma GroupAssociations_good c r : gives_ok (fun x => good r (SGroupAssociations x)) (GroupAssociations_try_from c r).
Proof. unfold GroupAssociations_try_from. repeat gives_step; good_val. Qed.
Lemma SystemEventLog_good c r : gives_ok (fun x => good r (SSystemEventLog x)) (SystemEventLog_try_from c r).
Proof. unfold SystemEventLog_try_from. repeat gives_step; good_val. Qed.
Lemma MemoryDevice_good c r : gives_ok (fun x => good r (SMemoryDevice x)) (MemoryDevice_try_from c r).
Proof. unfold MemoryDevice_try_from. repeat gives_step; good_val. Qed.
Lemma MemoryError32_good c r : gives_ok (fun x => good r (SMemoryError32 x)) (MemoryError32_try_from c r).
Proof. unfold MemoryError32_try_from. repeat gives_step; good_val. Qed.
Lemma MemoryArrayMappedAddress_good c r : gives_ok (fun x => good r (SMemoryArrayMappedAddress x)) (MemoryArrayMappedAddress_try_from c r).
Proof. unfold MemoryArrayMappedAddress_try_from. repeat gives_step; good_val. Qed.
Lemma MemoryDeviceMappedAddress_good c r : gives_ok (fun x => good r (SMemoryDeviceMappedAddress x)) (MemoryDeviceMappedAddress_try_from c r).
Proof. unfold MemoryDeviceMappedAddress_try_from. repeat gives_step; good_val. Qed.
Lemma BuiltInPointingDevice_good c r : gives_ok (fun x => good r (SBuiltInPointingDevice x)) (BuiltInPointingDevice_try_from c r).
Proof. unfold BuiltInPointingDevice_try_from. repeat gives_step; good_val. Qed.
Lemma PortableBattery_good c r : gives_ok (fun x => good r (SPortableBattery x)) (PortableBattery_try_from c r).
Proof. unfold PortableBattery_try_from. repeat gives_step; good_val. Qed.

Lemma dispatch_good c r s : dispatch c r = Val (Ok s) ->
  (forall a, s <> SPhysicalMemoryArray a) -> good r s.
Proof.
  intros H HV. unfold dispatch in H.
  destruct (info r); try (injection H as <-; split; [reflexivity|split; [constructor|intros ? [= <-]; reflexivity]]).
  all: unfold map_ok, omap in H;
    match type of H with obind ?x _ = _ => destruct x as [[a|e]| |] eqn:E; cbn [obind rmap] in H; try discriminate H end;
    injection H as <-.
  all: first [ eapply Bios_good; eassumption | eapply System_good; eassumption | eapply BaseBoard_good; eassumption
    | eapply Enclosure_good; eassumption | eapply Processor_good; eassumption | eapply Cache_good; eassumption
    | eapply PortConnector_good; eassumption | eapply SystemSlots_good; eassumption | eapply OemStrings_good; eassumption
    | eapply SystemConfigurationOptions_good; eassumption | eapply BiosLanguage_good; eassumption
    | eapply GroupAssociations_good; eassumption | eapply SystemEventLog_good; eassumption | eapply MemoryDevice_good; eassumption
    | eapply MemoryError32_good; eassumption | eapply MemoryArrayMappedAddress_good; eassumption
    | eapply MemoryDeviceMappedAddress_good; eassumption | eapply BuiltInPointingDevice_good; eassumption
    | eapply PortableBattery_good; eassumption | exfalso; eapply HV; reflexivity ].
Qed.

(* ---------- C69 ---------- *)

(* memory arrays *)
Lemma dispatch_array c r a : dispatch c r = Val (Ok (SPhysicalMemoryArray a)) ->
  info r = InfoType_PhysicalMemoryArray /\ PhysicalMemoryArray_try_from c r = Val (Ok a).
Proof.
  intros H. unfold dispatch in H. destruct (info r); try discriminate H.
  all: unfold map_ok, omap in H;
    match type of H with obind ?x _ = _ => destruct x as [[b|e]| |] eqn:E; cbn [obind rmap] in H; try discriminate H end.
  injection H as <-. split; reflexivity.
Qed.

Lemma array_or_not s : (exists a, s = SPhysicalMemoryArray a) \/ (forall a, s <> SPhysicalMemoryArray a).
Proof. destruct s; try (right; discriminate). left. eauto. Qed.

Lemma dispatch_handle c r s : dispatch c r = Val (Ok s) ->
  (info r = InfoType_PhysicalMemoryArray -> from_version (version r) 2 2) -> shown_handle s = handle r.
Proof.
  intros H V. destruct (array_or_not s) as [[a ->]|N].
  - apply dispatch_array in H as [I H]. apply array_ok in H; [|exact (V I)]. destruct H as [_ [X _ _ _ _ _ _ _]]. exact X.
  - apply (dispatch_good c r s H N).
Qed.

Lemma dispatch_texts c r s : dispatch c r = Val (Ok s) -> Forall (own_text r) (shown_texts s).
Proof.
  intros H. destruct (array_or_not s) as [[a ->]|N]; [constructor|]. apply (dispatch_good c r s H N).
Qed.

Lemma dispatch_strings c r s a : dispatch c r = Val (Ok s) -> shown_strings s = Some a -> a = strings r.
Proof.
  intros H. destruct (array_or_not s) as [[b ->]|N]; [discriminate|]. apply (dispatch_good c r s H N).
Qed.

(* the bytes of a shown text lie in the string area of the structure *)
Lemma own_text_inside r t : own_text r t -> exists pre post, strings r = pre ++ t ++ post.
Proof.
  intros [->|[k [before [tail [_ [_ [_ [E _]]]]]]]].
  - exists [], (strings r). reflexivity.
  - eauto.
Qed.

Lemma next_ok c s x s' : sane s -> next c s = Val (Some (Ok x), s') ->
  exists r, framed (smbios_version s) (buffer s) (idx s) r /\ dispatch c r = Val (Ok x).
Proof.
  intros HS H. apply next_iff in H; [|exact HS]. inversion H; subst. eauto.
Qed.

Lemma next_handle c s x s' : sane s -> next c s = Val (Some (Ok x), s') ->
  (forall a, x <> SPhysicalMemoryArray a) \/ from_version (smbios_version s) 2 2 ->
  exists pre kind l h0 h1 post, buffer s = pre ++ [kind; l; h0; h1] ++ post /\ len pre = idx s /\ shown_handle x = h0 + 256 * h1.
Proof.
  intros HS H V. apply next_ok in H as [r [F D]]; [|exact HS].
  assert (HH : shown_handle x = handle r).
  { destruct V as [V|V]; [apply (dispatch_good c r x D V)|]. eapply dispatch_handle; [exact D|]. intros _.
    destruct F as (? & ? & ? & ? & ? & ? & ? & ? & ? & ? & ? & -> & ?). exact V. }
  destruct F as (pre & post & k & h0 & h1 & E & P & _ & _ & _ & HA & _).
  exists pre, k, (length_ r), h0, h1, (data r ++ strings r ++ post). split; [exact E|]. split; [exact P|]. congruence.
Qed.

Lemma next_texts c s x s' t : sane s -> next c s = Val (Some (Ok x), s') -> In t (shown_texts x) -> t <> [] ->
  exists r k, framed (smbios_version s) (buffer s) (idx s) r /\ string_number (strings r) k t.
Proof.
  intros HS H HI HN. apply next_ok in H as [r [F D]]; [|exact HS].
  apply dispatch_texts in D. rewrite Forall_forall in D. destruct (D t HI) as [->|[k K]]; [congruence|]. eauto.
Qed.
