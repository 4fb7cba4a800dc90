(* Lemmas for C107. *)
From Coq Require Import ZArith Lia ZifyBool ZifyNat ZifyN.
From Coq Require Import String.
From Verif Require Import Base G_Enums M_Raw M_Bios M_System M_BaseBoard M_Enclosure M_Processor M_Cache M_PortConnector.
From Verif Require Import M_SystemSlots M_Strings M_GroupAssociations M_SystemEventLog M_PhysicalMemoryArray M_MemoryDevice M_Memory.
From Verif Require Import M_PortableBattery M_Entry M_Iter Spec S_Iter S_Decode S_System S_Hardware S_Lists S_EventLog S_Memory S_Safety S_Table S_Accepted.
From Verif Require Import L_Base L_Strings L_Iter L_Frame L_Decode L_System L_Enclosure L_Hardware L_Cache L_Slots L_Lists L_EventLog L_Memory L_Battery L_Array L_After L_Safety L_Table L_Order.
Ltac Zify.zify_post_hook ::= Z.div_mod_to_equations.
Local Open Scope N_scope.

Definition accepts {A} (m : out (res A)) : Prop := exists x, m = Val (Ok x).

Lemma accepts_map {A} (f : A -> Structure) m : accepts (map_ok f m) <-> accepts m.
Proof.
  unfold accepts, map_ok. destruct m as [[a|e]| |]; cbn; split; intros [x H]; try discriminate H; eauto.
Qed.

(* accepted is what remains *)
Lemma accepts_iff {A} (m : out (res A)) : accepts m <-> m <> Panic /\ m <> UB /\ forall e, m <> Val (Err e).
Proof.
  unfold accepts. destruct m as [[a|e]| |]; split.
  - intros _. repeat split; discriminate.
  - eauto.
  - intros [x H]. discriminate H.
  - intros [_ [_ H]]. destruct (H e eq_refl).
  - intros [x H]. discriminate H.
  - intros [H _]. destruct (H eq_refl).
  - intros [x H]. discriminate H.
  - intros [_ [H _]]. destruct (H eq_refl).
Qed.

Definition all_texts (r : RawStructure) (os : list N) : Prop := forall o, In o os -> exists t, text_field r o t.

Lemma text_or_bad r o : 4 <= o -> reaches r o 1 -> (exists t, text_field r o t) \/ exists e, bad_text_field r o e.
Proof.
  intros H4 HR. destruct (find_string r (at_ (o - 4) 1 (data r))) as [t|e] eqn:E.
  - left. exists t. apply text_field_iff; assumption.
  - right. exists e. apply bad_text_field_iff; assumption.
Qed.
Lemma bad_not_text r o e : bad_text_field r o e -> ~ exists t, text_field r o t.
Proof.
  intros [k [F [N _]]] [t [k' [F' T]]]. unfold field_is in *. rewrite F in F'. injection F' as <-. exact (N t T).
Qed.

Lemma no_bad_text r os : Forall (fun o => 4 <= o /\ reaches r o 1) os ->
  ((forall e, ~ first_bad_text r os e) <-> all_texts r os).
Proof.
  intros H. induction H as [|o os [H4 HR] H IH].
  - split; [intros _ o []|intros _ e []].
  - split.
    + intros N o' [<-|HI].
      * destruct (text_or_bad r o H4 HR) as [T|[e B]]; [exact T|]. destruct (N e). left. exact B.
      * destruct (text_or_bad r o H4 HR) as [T|[e B]]; [|destruct (N e); left; exact B].
        apply (proj1 IH); [|exact HI]. intros e F. apply (N e). right. split; assumption.
    + intros T e [B|[_ F]].
      * apply (bad_not_text r o e B). apply T. left. reflexivity.
      * apply (proj2 IH) in F; [exact F|]. intros o' HI. apply T. right. exact HI.
Qed.

Lemma met_or_fails r n : need_met r n \/ exists e, need_fails r n e.
Proof.
  destruct n as [o w|o]; cbn.
  - unfold field_is. destruct (field r o w) as [v|]; eauto.
  - destruct (field r o 1) as [k|] eqn:F; [|eauto].
    destruct (find_string r k) as [t|e] eqn:E.
    + left. exists t. apply (text_field_found r o k t F). exact E.
    + right. exists (InvalidStringIndex (info r) (handle r) k). right. exists k. split; [exact F|]. split; [|reflexivity].
      intros t T. assert (X : text_field r o t) by (exists k; split; assumption).
      apply (text_field_found r o k t F) in X. congruence.
Qed.
Lemma fails_not_met r n e : need_fails r n e -> ~ need_met r n.
Proof.
  destruct n as [o w|o]; cbn.
  - intros [F _] [v V]. unfold field_is in V. congruence.
  - intros [[F _]|B] T; [|exact (bad_not_text r o e B T)]. destruct T as [t [k [V _]]]. unfold field_is in V. congruence.
Qed.
Lemma no_failure r ns : (forall e, ~ first_failure r ns e) <-> Forall (need_met r) ns.
Proof.
  induction ns as [|n ns IH]; [split; [constructor|intros _ e []]|]. split.
  - intros N. destruct (met_or_fails r n) as [M|[e F]]; [|destruct (N e); left; exact F].
    constructor; [exact M|]. apply IH. intros e F. apply (N e). right. split; assumption.
  - intros M e [F|[_ F]]; inversion M; subst; [exact (fails_not_met r n e F ltac:(assumption))|].
    apply (proj2 IH ltac:(assumption) e F).
Qed.

Lemma num_met r o w : 4 <= o -> (need_met r (Num o w) <-> o + w <= 4 + len (data r)).
Proof.
  intros H4. cbn [need_met]. unfold field_is, field. destruct (4 <=? o) eqn:E; [|lia]. cbn [andb].
  destruct (N.leb_spec (o + w) (4 + len (data r))); split; intros H'; try lia; [eauto|]. destruct H' as [v V]. discriminate V.
Qed.
Lemma text_reaches r o t : text_field r o t -> o + 1 <= 4 + len (data r).
Proof. intros [k [F _]]. unfold field_is, field in F. destruct (4 <=? o); [|discriminate F]. cbn [andb] in F. destruct (N.leb_spec (o + 1) (4 + len (data r))); [assumption|discriminate F]. Qed.

Lemma stated_not r i rule : (forall e, ~ stated_error r i rule e) <-> stated_ok r rule.
Proof.
  destruct rule; cbn; split; intros H; auto.
  - destruct (N.eq_dec (length_ r) n) as [E|E]; [exact E|]. exfalso. eapply H. split; [exact E|reflexivity].
  - intros e [E _]. exact (E H).
  - destruct (N.le_gt_cases n (length_ r)) as [E|E]; [exact E|]. exfalso. eapply H. split; [exact E|reflexivity].
  - intros e [E _]. lia.
Qed.

Lemma not_err_map {A} (f : A -> Structure) m e : map_ok f m = Val (Err e) <-> m = Val (Err e).
Proof. unfold map_ok. destruct m as [[a|e']| |]; cbn; split; intros H; try discriminate H; injection H as ->; reflexivity. Qed.

Lemma Enclosure_fitting c r s : Enclosure_try_from c r = Val (Ok s) -> 5 <= len (data r) /\ Enclosure_fits c r.
Proof.
  intros H. destruct (N.ltb_spec (len (data r)) 5) as [L|L]; [rewrite Enclosure_short in H by exact L; discriminate|].
  split; [exact L|]. intros HC HO. assert (X : Enclosure_try_from c r = Panic); [|congruence].
  apply Enclosure_panic. split; [exact HC|]. split; [exact HO|].
  unfold Enclosure_try_from in H. destruct (N.ltb_spec (len (data r)) 5) as [L'|_]; [lia|]. cbv zeta in H. rewrite !at_take in H by lia.
  destruct (find_string r (at_ 0 1 (data r))) as [t0|] eqn:F0; cbn [rbind] in H; [|discriminate].
  destruct (find_string r (at_ 2 1 (data r))) as [t1|] eqn:F1; cbn [rbind] in H; [|discriminate].
  destruct (find_string r (at_ 3 1 (data r))) as [t2|] eqn:F2; cbn [rbind] in H; [|discriminate].
  destruct (find_string r (at_ 4 1 (data r))) as [t3|] eqn:F3; cbn [rbind] in H; [|discriminate].
  apply find_string_ok in F0, F1, F2, F3.
  assert (T : forall o t, 4 <= o -> o <= 8 -> text_number r (at_ (o - 4) 1 (data r)) t -> exists t, text_field r o t).
  { intros o t H1 H2 HT. exists t, (at_ (o - 4) 1 (data r)). split; [|exact HT]. apply field_in; [exact H1|]. unfold reaches. lia. }
  intros o [<-|[<-|[<-|[<-|[]]]]]; eapply T; try lia; eassumption.
Qed.

Section Accept.
Context (c : cfg) (r : RawStructure) (HF : flat_memory c = false) (HB : all_bytes (data r))
        (HL : length_ r = 4 + len (data r)) (H256 : length_ r < 256).

Lemma key : accepts (dispatch c r) <->
  ~ decoder_panics c r /\ ~ decoder_overreads c r /\ forall e, dispatch c r <> Val (Err e).
Proof. rewrite accepts_iff, (dispatch_panic c r HB HL H256), (dispatch_ub c r HB HL H256). reflexivity. Qed.

Lemma no_layout : layout_size r = None -> ~ decoder_overreads c r.
Proof. intros E [n [E' _]]. congruence. Qed.
Lemma layout n : layout_size r = Some n -> (~ decoder_overreads c r <-> n <= len (data r)).
Proof.
  intros E. unfold decoder_overreads, beyond. rewrite HF. split.
  - intros H. destruct (N.le_gt_cases n (len (data r))) as [G|G]; [exact G|]. destruct H. eauto.
  - intros G [n' [E' G']]. rewrite E in E'. injection E' as <-. lia.
Qed.

(* the types with a packed layout *)
Lemma layout_case n os : layout_size r = Some n -> ~ decoder_panics c r ->
  (n <= len (data r) -> forall e, dispatch c r = Val (Err e) <-> first_bad_text r os e) ->
  Forall (fun o => 4 <= o /\ o < 4 + n) os ->
  (accepts (dispatch c r) <-> n <= len (data r) /\ all_texts r os).
Proof.
  intros E HP HE HO. rewrite key, (layout n E).
  assert (X : n <= len (data r) -> ((forall e, ~ first_bad_text r os e) <-> all_texts r os)).
  { intros G. apply no_bad_text. eapply Forall_impl; [|exact HO]. intros o [A B]. unfold reaches. split; lia. }
  split.
  - intros [_ [G N]]. split; [exact G|]. apply (X G). intros e F. apply (N e). apply (HE G). exact F.
  - intros [G T]. repeat split; [exact HP|exact G|]. intros e F. apply (HE G) in F. revert F. apply (X G). exact T.
Qed.

(* the types that read their fields one by one *)
Lemma needs_case (E : MalformedStructureError -> Prop) (L : Prop) ns : layout_size r = None ->
  (forall e, dispatch c r = Val (Err e) <-> E e \/ L /\ first_failure r ns e) -> ((forall e, ~ E e) <-> L) ->
  (accepts (dispatch c r) <-> ~ decoder_panics c r /\ L /\ Forall (need_met r) ns).
Proof.
  intros EL HE HN. rewrite key, <- no_failure. pose proof (no_layout EL). split.
  - intros [HP [_ N]]. assert (HL' : L) by (apply HN; intros e F; apply (N e), HE; auto).
    repeat split; [exact HP|exact HL'|]. intros e F. apply (N e), HE. auto.
  - intros [HP [HL' N]]. repeat split; [exact HP|assumption|]. intros e F. apply HE in F.
    destruct F as [F|[_ F]]; [exact (proj2 HN HL' e F)|exact (N e F)].
Qed.

Ltac err HI := intros; unfold dispatch; rewrite HI; rewrite not_err_map.
Ltac offsets := repeat constructor; lia.

Lemma Bios_accepted : info r = InfoType_Bios -> (accepts (dispatch c r) <-> acceptable c r).
Proof.
  intros HI. rewrite (layout_case (Bios_area (version r)) [0x04; 0x05; 0x08]).
  - unfold acceptable, also_needed. rewrite HI. cbn [accepted_length needed_strings]. unfold all_texts, Bios_area, length_ok.
    destruct (since (version r) 3 1), (since (version r) 2 4); intuition lia.
  - unfold layout_size. rewrite HI. reflexivity.
  - unfold decoder_panics. rewrite HI. auto.
  - err HI. apply Bios_err. assumption.
  - unfold Bios_area. destruct (since (version r) 3 1), (since (version r) 2 4); offsets.
Qed.
Lemma System_accepted : info r = InfoType_System -> (accepts (dispatch c r) <-> acceptable c r).
Proof.
  intros HI. rewrite (layout_case (System_area (version r)) (System_texts (version r))).
  - unfold acceptable, also_needed. rewrite HI. cbn [accepted_length needed_strings]. unfold all_texts, System_area, System_texts, length_ok.
    destruct (since (version r) 2 4), (since (version r) 2 1); cbn [app]; intuition lia.
  - unfold layout_size. rewrite HI. reflexivity.
  - unfold decoder_panics. rewrite HI. auto.
  - err HI. apply System_err. assumption.
  - unfold System_area, System_texts. destruct (since (version r) 2 4), (since (version r) 2 1); cbn [app]; offsets.
Qed.
Lemma BaseBoard_accepted : info r = InfoType_BaseBoard -> (accepts (dispatch c r) <-> acceptable c r).
Proof.
  intros HI. rewrite (layout_case 10 (BaseBoard_texts r)).
  - unfold acceptable, also_needed. rewrite HI. cbn [accepted_length needed_strings]. unfold all_texts, BaseBoard_texts, length_ok.
    destruct (N.leb_spec 5 (len (data r))), (N.leb_spec 7 (len (data r))); cbn [app]; try (intuition lia).
    split; intros [A B]; [split; [lia|split; [|exact I]]|split; [lia|]]; intros o HO; try (apply (proj1 B)); try apply B; cbn [In] in *; intuition.
  - unfold layout_size. rewrite HI. reflexivity.
  - unfold decoder_panics. rewrite HI. auto.
  - err HI. apply BaseBoard_err. left. split; [lia|reflexivity].
  - unfold BaseBoard_texts. destruct (5 <=? len (data r)), (7 <=? len (data r)); cbn [app]; offsets.
Qed.
Lemma Processor_accepted : info r = InfoType_Processor -> (accepts (dispatch c r) <-> acceptable c r).
Proof.
  intros HI. rewrite (layout_case (Processor_area (version r)) (Processor_texts (version r))).
  - unfold acceptable, also_needed. rewrite HI. cbn [accepted_length needed_strings]. unfold all_texts, Processor_area, Processor_texts, length_ok.
    destruct (since (version r) 3 0), (since (version r) 2 6), (since (version r) 2 5), (since (version r) 2 3), (since (version r) 2 1); cbn [app]; intuition lia.
  - unfold layout_size. rewrite HI. reflexivity.
  - unfold decoder_panics. rewrite HI. auto.
  - err HI. apply Processor_err. assumption.
  - unfold Processor_area, Processor_texts. destruct (since (version r) 3 0) eqn:V1, (since (version r) 2 6) eqn:V2, (since (version r) 2 5) eqn:V3, (since (version r) 2 3) eqn:V4, (since (version r) 2 1);
      cbn [app]; first [offsets|exfalso; unfold since in *; lia].
Qed.
Lemma PortConnector_accepted : info r = InfoType_PortConnector -> (accepts (dispatch c r) <-> acceptable c r).
Proof.
  intros HI. rewrite (layout_case 5 [0x04; 0x06]).
  - unfold acceptable, also_needed. rewrite HI. cbn [accepted_length needed_strings]. unfold all_texts, length_ok. intuition lia.
  - unfold layout_size. rewrite HI. reflexivity.
  - unfold decoder_panics. rewrite HI. auto.
  - err HI. apply PortConnector_err. assumption.
  - offsets.
Qed.
Lemma BiosLanguage_accepted : info r = InfoType_BiosLanguage -> (accepts (dispatch c r) <-> acceptable c r).
Proof.
  intros HI. rewrite (layout_case (BiosLanguage_area (version r)) []).
  - unfold acceptable, also_needed. rewrite HI. cbn [accepted_length needed_strings]. unfold all_texts, BiosLanguage_area, length_ok.
    destruct (since (version r) 2 1); cbn [In]; intuition lia.
  - unfold layout_size. rewrite HI. reflexivity.
  - unfold decoder_panics. rewrite HI. auto.
  - err HI. destruct (BiosLanguage_returns c r) as [s ->]; [assumption|]. cbn. split; [discriminate|intros []].
  - offsets.
Qed.
Lemma Cache_accepted : info r = InfoType_Cache -> (accepts (dispatch c r) <-> acceptable c r).
Proof.
  intros HI. destruct (since (version r) 2 1) eqn:V.
  - pose proof (proj1 (since_iff _ _ _) V) as V'. rewrite (layout_case (Cache_area (version r)) [0x04]).
    + unfold acceptable, also_needed. rewrite HI. cbn [accepted_length needed_strings]. unfold all_texts, Cache_area, length_ok.
      destruct (since (version r) 3 2), (since (version r) 2 2); intuition lia.
    + unfold layout_size. rewrite HI, V. reflexivity.
    + unfold decoder_panics. rewrite HI. vlia.
    + err HI. apply Cache_err; assumption.
    + unfold Cache_area. destruct (since (version r) 3 2), (since (version r) 2 2); offsets.
  - apply since_not in V. rewrite key. unfold decoder_panics, acceptable, also_needed. rewrite HI. split.
    + intros [H _]. destruct (H V).
    + intros [_ [_ H]]. vlia.
Qed.

Lemma Forall_cons_iff' {A} (P : A -> Prop) x l : Forall P (x :: l) <-> P x /\ Forall P l.
Proof. split; [intros H; inversion H; auto|intros []; constructor; auto]. Qed.
Lemma Forall_nil_iff' {A} (P : A -> Prop) : Forall P [] <-> True.
Proof. split; [auto|constructor]. Qed.
Lemma in_cons_iff (P : N -> Prop) x l : (forall o, In o (x :: l) -> P o) <-> P x /\ forall o, In o l -> P o.
Proof. cbn [In]. split; [auto|]. intros [A B] o [<-|HI]; auto. Qed.
Lemma in_nil_iff (P : N -> Prop) : (forall o, In o [] -> P o) <-> True.
Proof. split; [auto|intros _ o []]. Qed.
Lemma text_met o : need_met r (Text o) <-> exists t, text_field r o t. Proof. reflexivity. Qed.

Ltac taken := rewrite ?Forall_cons_iff', ?Forall_nil_iff', ?in_cons_iff, ?in_nil_iff, ?text_met; rewrite ?num_met by lia.
Ltac shorter :=
  repeat match goal with H : exists t, text_field r ?o t |- _ =>
    lazymatch goal with | K : o + 1 <= _ |- _ => fail | _ => destruct H as [? H]; pose proof (text_reaches _ _ _ H) end end.

Lemma stated_length rule : stated_ok r rule <-> length_ok r rule.
Proof. unfold stated_ok, length_ok. rewrite HL. reflexivity. Qed.
Lemma length_not i rule : (forall e, ~ length_error r i rule e) <-> length_ok r rule.
Proof.
  destruct rule; cbn; split; intros H; auto.
  - destruct (N.eq_dec (4 + len (data r)) n) as [E|E]; [exact E|]. exfalso. eapply H. split; [exact E|reflexivity].
  - intros e [E _]. exact (E H).
  - destruct (N.le_gt_cases n (4 + len (data r))) as [E|E]; [exact E|]. exfalso. eapply H. split; [exact E|reflexivity].
  - intros e [E _]. lia.
Qed.

Ltac no_layout HI := unfold layout_size; rewrite HI; reflexivity.
Ltac finish := unfold length_ok; taken; intuition (try lia).

Lemma SystemSlots_accepted : info r = InfoType_SystemSlots -> (accepts (dispatch c r) <-> acceptable c r).
Proof.
  intros HI. rewrite (needs_case (length_error r InfoType_SystemSlots (SystemSlots_length (version r))) (length_ok r (SystemSlots_length (version r))) SystemSlots_needs).
  - unfold acceptable, also_needed, decoder_panics, SystemSlots_needs, SystemSlots_length. rewrite HI. cbn [accepted_length needed_strings].
    destruct (since (version r) 3 2), (since (version r) 2 6), (since (version r) 2 1), (since (version r) 2 0); finish.
  - no_layout HI.
  - err HI. apply SystemSlots_err. exact HB.
  - apply length_not.
Qed.
Lemma MemoryDevice_accepted : info r = InfoType_MemoryDevice -> (accepts (dispatch c r) <-> acceptable c r).
Proof.
  intros HI. rewrite (needs_case (MemoryDevice_length_error r) (0x15 <= 4 + len (data r)) MemoryDevice_needs).
  - unfold acceptable, also_needed, decoder_panics, MemoryDevice_needs. rewrite HI. cbn [accepted_length needed_strings]. finish.
  - no_layout HI.
  - err HI. apply MemoryDevice_err.
  - unfold MemoryDevice_length_error. split.
    + intros H. destruct (N.le_gt_cases 0x15 (4 + len (data r))) as [G|G]; [exact G|]. exfalso. eapply H. split; [exact G|reflexivity].
    + intros H e [G _]. lia.
Qed.
Lemma MemoryError32_accepted : info r = InfoType_MemoryError32 -> (accepts (dispatch c r) <-> acceptable c r).
Proof.
  intros HI. rewrite (needs_case (stated_error r InfoType_MemoryError32 (MemoryError32_length (version r))) (stated_ok r (MemoryError32_length (version r))) MemoryError32_needs); [| |err HI; apply MemoryError32_err|apply stated_not].
  - rewrite stated_length. unfold acceptable, also_needed, decoder_panics, MemoryError32_needs, MemoryError32_length. rewrite HI. cbn [accepted_length needed_strings].
    destruct (since (version r) 2 1); finish.
  - no_layout HI.
Qed.
Lemma MemoryArrayMappedAddress_accepted : info r = InfoType_MemoryArrayMappedAddress -> (accepts (dispatch c r) <-> acceptable c r).
Proof.
  intros HI. rewrite (needs_case (stated_error r InfoType_MemoryArrayMappedAddress (MemoryArrayMappedAddress_length (version r))) (stated_ok r (MemoryArrayMappedAddress_length (version r))) MemoryArrayMappedAddress_needs); [| |err HI; apply MemoryArrayMappedAddress_err|apply stated_not].
  - rewrite stated_length. unfold acceptable, also_needed, decoder_panics, MemoryArrayMappedAddress_needs, MemoryArrayMappedAddress_length. rewrite HI. cbn [accepted_length needed_strings].
    destruct (since (version r) 2 7), (since (version r) 2 1); finish.
  - no_layout HI.
Qed.
Lemma MemoryDeviceMappedAddress_accepted : info r = InfoType_MemoryDeviceMappedAddress -> (accepts (dispatch c r) <-> acceptable c r).
Proof.
  intros HI. rewrite (needs_case (stated_error r InfoType_MemoryDeviceMappedAddress (MemoryDeviceMappedAddress_length (version r))) (stated_ok r (MemoryDeviceMappedAddress_length (version r))) MemoryDeviceMappedAddress_needs); [| |err HI; apply MemoryDeviceMappedAddress_err|apply stated_not].
  - rewrite stated_length. unfold acceptable, also_needed, decoder_panics, MemoryDeviceMappedAddress_needs, MemoryDeviceMappedAddress_length. rewrite HI. cbn [accepted_length needed_strings].
    destruct (since (version r) 2 7), (since (version r) 2 1); finish.
  - no_layout HI.
Qed.
Lemma BuiltInPointingDevice_accepted : info r = InfoType_BuiltInPointingDevice -> (accepts (dispatch c r) <-> acceptable c r).
Proof.
  intros HI. rewrite (needs_case (stated_error r InfoType_BuiltInPointingDevice (BuiltInPointingDevice_length (version r))) (stated_ok r (BuiltInPointingDevice_length (version r))) BuiltInPointingDevice_needs); [| |err HI; apply BuiltInPointingDevice_err|apply stated_not].
  - rewrite stated_length. unfold acceptable, also_needed, decoder_panics, BuiltInPointingDevice_needs, BuiltInPointingDevice_length. rewrite HI. cbn [accepted_length needed_strings].
    destruct (since (version r) 2 1); finish.
  - no_layout HI.
Qed.
Lemma PortableBattery_accepted : info r = InfoType_PortableBattery -> (accepts (dispatch c r) <-> acceptable c r).
Proof.
  intros HI. rewrite (needs_case (stated_error r InfoType_PortableBattery (PortableBattery_length (version r))) (stated_ok r (PortableBattery_length (version r))) PortableBattery_needs); [| |err HI; apply PortableBattery_err|apply stated_not].
  - rewrite stated_length. unfold acceptable, also_needed, decoder_panics, PortableBattery_needs, PortableBattery_length. rewrite HI. cbn [accepted_length needed_strings].
    destruct (since (version r) 2 2), (since (version r) 2 1); finish.
  - no_layout HI.
Qed.

Lemma SystemEventLog_accepted : info r = InfoType_SystemEventLog -> (accepts (dispatch c r) <-> acceptable c r).
Proof.
  intros HI. rewrite (needs_case (log_length_error r) (log_length r) SystemEventLog_needs).
  - unfold acceptable, also_needed, decoder_panics, SystemEventLog_needs, log_length. rewrite HI. cbn [accepted_length needed_strings]. unfold length_ok. taken.
    destruct (since (version r) 2 1) eqn:V1; [apply since_iff in V1|apply since_not in V1;
      destruct (since (version r) 2 0) eqn:V2; [apply since_iff in V2|apply since_not in V2]].
    + split.
      * intros [N [[_ E] _]]. destruct (E V1) as [x [y [X [Y L]]]]. repeat split; try lia; try tauto.
        intros H. apply N. repeat split; [intros; vlia|intros _; exists x, y; auto|exact H].
      * intros [L [_ [N E]]]. repeat split; try lia; [tauto|intros; vlia|exact E].
    + split.
      * intros [N [[E _] _]]. assert (E' : 4 + len (data r) = 0x14) by (apply E; vlia). repeat split; try lia; [|intros; vlia].
        intros H. apply N. repeat split; [auto|intros; vlia|exact H].
      * intros [L [_ [N E]]]. repeat split; try lia; [tauto|intros; vlia].
    + split.
      * intros [N [_ L]]. repeat split; try lia; [|intros; vlia]. intros H. apply N. repeat split; [intros; vlia|intros; vlia|exact H].
      * intros [L [_ [N E]]]. repeat split; try lia; [tauto|intros; vlia|intros; vlia].
  - no_layout HI.
  - err HI. apply SystemEventLog_err. exact HB.
  - unfold log_length_error, log_length. cbv zeta. split.
    + intros N. split.
      * intros V. destruct (N.eq_dec (4 + len (data r)) 0x14) as [E|E]; [exact E|]. exfalso. eapply N. left. eauto.
      * intros V. destruct (N.le_gt_cases 0x17 (len (data r) + 4)) as [G|G]; [|exfalso; eapply N; right; left; split; [exact V|]; split; [exact G|reflexivity]].
        destruct (proj2 (num_met r 0x15 1 ltac:(lia)) ltac:(lia)) as [x X]. destruct (proj2 (num_met r 0x16 1 ltac:(lia)) ltac:(lia)) as [y Y].
        exists x, y. split; [exact X|]. split; [exact Y|].
        destruct (N.eq_dec (4 + len (data r)) (0x17 + x * y)) as [E|E]; [exact E|]. exfalso. eapply N. right. right. split; [exact V|].
        exists x, y. repeat split; eassumption.
    + intros [A B] e [[V [E _]]|[[V [E _]]|[V [x [y [X [Y [E _]]]]]]]].
      * exact (E (A V)).
      * destruct (B V) as [x [y [_ [_ L]]]]. lia.
      * destruct (B V) as [x' [y' [X' [Y' L]]]]. unfold field_is in *. rewrite X in X'. rewrite Y in Y'. injection X' as <-. injection Y' as <-. exact (E L).
Qed.

Lemma Enclosure_accepted : info r = InfoType_Enclosure -> (accepts (dispatch c r) <-> acceptable c r).
Proof.
  intros HI. pose proof (no_layout ltac:(no_layout HI)) as HU.
  assert (HD : forall e, dispatch c r = Val (Err e) <-> Enclosure_try_from c r = Val (Err e)) by (err HI; reflexivity).
  assert (HT : 5 <= len (data r) -> Enclosure_fits c r -> ((forall e, dispatch c r <> Val (Err e)) <-> all_texts r (Enclosure_texts r))).
  { intros H5 F. rewrite <- no_bad_text.
    - split; intros N e H; apply (N e); [apply HD, Enclosure_err|apply HD, Enclosure_err in H]; assumption.
    - unfold Enclosure_texts. destruct (N.leb_spec (0x15 + record_bytes r + 1) (4 + len (data r))); cbn [app]; unfold reaches; repeat constructor; lia. }
  assert (HS : all_texts r (Enclosure_texts r) <->
    (forall o, In o [0x04; 0x06; 0x07; 0x08] -> exists t, text_field r o t) /\
    (reaches r (0x15 + record_bytes r) 1 -> exists t, text_field r (0x15 + record_bytes r) t)).
  { unfold all_texts, Enclosure_texts. unfold reaches.
    destruct (N.leb_spec (0x15 + record_bytes r + 1) (4 + len (data r))) as [G|G]; cbn [app]; taken; intuition lia. }
  unfold acceptable, also_needed. rewrite HI. cbn [accepted_length needed_strings]. unfold length_ok. split.
  - intros A. assert (A' : accepts (Enclosure_try_from c r)) by (revert A; unfold dispatch; rewrite HI, accepts_map; auto).
    destruct A' as [s E]. destruct (Enclosure_fitting c r s E) as [H5 F]. apply key in A. destruct A as [_ [_ N]].
    apply (HT H5 F), HS in N. destruct N as [N1 N2]. split; [lia|]. split; [exact N1|]. split; [exact F|exact N2].
  - intros [H5 [T [F S]]]. apply key. unfold decoder_panics. rewrite HI. split; [intros [HC [HO _]]; exact (F HC HO)|]. split; [exact HU|].
    apply HT; [lia|exact F|]. apply HS. auto.
Qed.

Lemma GroupAssociations_accepted : info r = InfoType_GroupAssociations -> (accepts (dispatch c r) <-> acceptable c r).
Proof.
  intros HI. unfold acceptable, also_needed. rewrite HI. cbn [accepted_length needed_strings]. unfold length_ok. taken.
  unfold dispatch. rewrite HI, accepts_map. destruct (N.le_gt_cases 5 (length_ r)) as [H5|H5].
  - split.
    + intros [s E]. apply group_ok in E; [|exact HL|lia]. repeat split; [lia|]. exists (group_group_name s). apply E.
    + intros [_ [[[t T] _] _]]. eexists. apply (group_ok c r {| group_handle := handle r; group_group_name := t; group_items := {| gi_data := drop 1 (data r); gi_index := 0 |} |}); auto.
  - split; [|lia]. intros [s E]. rewrite group_short in E by assumption. destruct (overflow_checks c); discriminate E.
Qed.

Lemma PhysicalMemoryArray_accepted : info r = InfoType_PhysicalMemoryArray -> (accepts (dispatch c r) <-> acceptable c r).
Proof.
  intros HI. transitivity (array_reached r).
  - unfold dispatch. rewrite HI, accepts_map. pose proof (array_panic c r) as P. unfold accepts. destruct (array_total c r) as [E|[s E]].
    + rewrite E in *. split; [intros [x X]; discriminate X|]. intros A. destruct (proj1 P eq_refl A).
    + rewrite E in *. split; [|eauto]. intros _.
      destruct (since (version r) 2 2) eqn:V; [|apply since_not in V; intros V'; vlia]. apply since_iff in V.
      apply (array_ok c r s V). exact E.
  - unfold acceptable, also_needed, array_reached. rewrite HI. cbn [accepted_length needed_strings]. taken. unfold reaches, length_ok.
    destruct (since (version r) 2 2) eqn:V; [apply since_iff in V|apply since_not in V].
    + split.
      * intros A. destruct (A V) as [A1 A2]. split; [lia|]. split; [auto|]. intros V8 F. specialize (A2 V8 F). lia.
      * intros [A1 [_ A2]] _. split; [lia|]. intros V8 F. specialize (A2 V8 F). lia.
    + split; [|intros; vlia]. intros _. repeat split. intros; vlia.
Qed.

Lemma Options_accepted : info r = InfoType_SystemConfigurationOptions -> (accepts (dispatch c r) <-> acceptable c r).
Proof.
  intros HI. unfold acceptable, also_needed. rewrite HI. cbn [accepted_length needed_strings]. taken. unfold length_ok.
  unfold dispatch. rewrite HI, accepts_map. unfold accepts. rewrite options_succeeds. split; [|tauto].
  intros [l [S F]]. split; [|split; [auto|eauto]]. apply (proj1 (num_met r 0x04 1 ltac:(lia))). cbn. eauto.
Qed.

Lemma dispatch_accepted : accepts (dispatch c r) <-> acceptable c r.
Proof.
  destruct (info r) eqn:HI;
  first [ apply Bios_accepted; exact HI | apply System_accepted; exact HI | apply BaseBoard_accepted; exact HI
        | apply Enclosure_accepted; exact HI | apply Processor_accepted; exact HI | apply Cache_accepted; exact HI
        | apply PortConnector_accepted; exact HI | apply SystemSlots_accepted; exact HI | apply Options_accepted; exact HI
        | apply BiosLanguage_accepted; exact HI | apply GroupAssociations_accepted; exact HI
        | apply SystemEventLog_accepted; exact HI | apply PhysicalMemoryArray_accepted; exact HI
        | apply MemoryDevice_accepted; exact HI | apply MemoryError32_accepted; exact HI
        | apply MemoryArrayMappedAddress_accepted; exact HI | apply MemoryDeviceMappedAddress_accepted; exact HI
        | apply BuiltInPointingDevice_accepted; exact HI | apply PortableBattery_accepted; exact HI
        | idtac ];
  unfold acceptable, also_needed, accepts, dispatch; rewrite HI; cbn [accepted_length needed_strings length_ok];
  (split; [intros _; repeat split; intros o []|intros _; eexists; reflexivity]).
Qed.
End Accept.

Lemma next_accepted c s : flat_memory c = false -> sane s ->
  ((exists x s', next c s = Val (Some (Ok x), s')) <-> exists r, here s r /\ acceptable c r).
Proof.
  intros HF HS. split.
  - intros [x [s' E]]. destruct (next_item c s (Ok x) s' HS E) as [[e [X _]]|[r [H [D _]]]]; [discriminate X|].
    destruct (here_shape s r HS H) as [A [B C]]. exists r. split; [exact H|]. apply (dispatch_accepted c r HF A B C). exists x. exact D.
  - intros [r [H A]]. destruct (here_shape s r HS H) as [A1 [A2 A3]]. apply (dispatch_accepted c r HF A1 A2 A3) in A. destruct A as [x D].
    exists x. destruct H as [F [H1 H2]]. rewrite (next_framed c s r HS F H1 H2), D. cbn [obind]. eauto.
Qed.

Lemma reached_drains c s s1 xs s' : reached c s s1 -> drains (next c) s (map Ok xs) s' ->
  exists xs1, drains (next c) s1 (map Ok xs1) s'.
Proof.
  intros R D. induction R as [|s1 x s2 R IH H]; [eauto|]. destruct IH as [xs1 D1].
  destruct xs1 as [|y ys]; cbn [map] in D1; inversion D1 as [? ? E|? ? ? ? ? E D2]; subst; [congruence|].
  rewrite H in E. injection E as _ <-. eauto.
Qed.

Lemma all_accepted c s : flat_memory c = false -> sane s ->
  ((exists xs s', drains (next c) s (map Ok xs) s') <->
   forall s1, reached c s s1 -> smbios_len_ s1 < idx s1 + 4 \/ exists r, here s1 r /\ acceptable c r).
Proof.
  intros HF HS. split.
  - intros [xs [s' D]] s1 R. destruct (reached_drains c s s1 xs s' R D) as [xs1 D1]. pose proof (reached_sane c s s1 HS R) as HS1.
    destruct xs1 as [|y ys]; cbn [map] in D1; inversion D1 as [? ? E|? ? ? ? ? E D2]; subst.
    + left. destruct (next_none c s1 s' HS1 E) as [_ L]. exact L.
    + right. apply next_accepted; [exact HF|exact HS1|]. eauto.
  - intros H. destruct (runs_exists c s HS) as [l [e [R _]]]. revert HS H.
    induction R as [s s' E|s E|s E|s a s1 l e E R IH]; intros HS H.
    + exists [], s'. apply drains_nil. exact E.
    + exfalso. destruct (H s (reached_start c s)) as [L|A].
      * assert (X : next c s = Val (None, s)) by (apply next_iff; [exact HS|apply table_done; exact L]). congruence.
      * apply (next_accepted c s HF HS) in A. destruct A as [x [s' A]]. congruence.
    + exfalso. destruct (H s (reached_start c s)) as [L|A].
      * assert (X : next c s = Val (None, s)) by (apply next_iff; [exact HS|apply table_done; exact L]). congruence.
      * apply (next_accepted c s HF HS) in A. destruct A as [x [s' A]]. congruence.
    + assert (A : exists x, a = Ok x).
      { destruct (H s (reached_start c s)) as [L|A].
        - assert (X : next c s = Val (None, s)) by (apply next_iff; [exact HS|apply table_done; exact L]). congruence.
        - apply (next_accepted c s HF HS) in A. destruct A as [x [s' A]]. exists x. congruence. }
      destruct A as [x ->]. destruct IH as [xs [s' D]].
      * destruct (next_sane c s _ s1 HS E). assumption.
      * intros s2 R2. apply H. eapply reached_cons; eassumption.
      * exists (x :: xs), s'. cbn [map]. eapply drains_cons; eassumption.
Qed.

Lemma table_accepted c e ss rest : flat_memory c = false -> Forall encodable_ok ss -> ep_smbios_len e = len (table ss) ->
  all_bytes (table ss ++ rest) -> len (table ss ++ rest) + 260 <= 2 ^ 32 ->
  Forall (acceptable c) (shown (ep_to_version e) ss rest) ->
  exists xs s', Forall2 (fun r x => dispatch c r = Val (Ok x)) (shown (ep_to_version e) ss rest) xs /\
    drains (next c) (structures e (table ss ++ rest)) (map Ok xs) s'.
Proof.
  intros HF H1 H2 H3 H4 H5.
  assert (X : exists xs, Forall2 (fun r x => dispatch c r = Val (Ok x)) (shown (ep_to_version e) ss rest) xs).
  { assert (HW : Forall (fun r => exists x, dispatch c r = Val (Ok x)) (shown (ep_to_version e) ss rest)).
    { rewrite Forall_forall in *. intros r Hr.
      destruct (shown_shape (ep_to_version e) ss rest r) as [A [B C]]; [rewrite Forall_forall; exact H1|assumption..|].
      apply (dispatch_accepted c r HF A B C). auto. }
    clear -HW. induction HW as [|r l [x Hx] _ [items IH]]; [exists []; constructor|exists (x :: items); constructor; assumption]. }
  destruct X as [xs X]. destruct (drains_table c e ss rest (map Ok xs) H1 H2 H3 H4) as [s' [D _]].
  - clear -X. induction X; cbn [map]; constructor; assumption.
  - eauto.
Qed.

(* ------------------------------------------------------------- flat memory *)

(* within its own bytes a structure and the same one with what follows it have the same texts *)
Lemma stretched_field r o : 4 <= o -> reaches r o 1 -> field (stretched r) o 1 = field r o 1.
Proof.
  intros H4 HR. unfold field, reaches in *. cbn [stretched data]. lens.
  destruct (N.leb_spec 4 o); [|lia]. cbn [andb]. destruct (N.leb_spec (o + 1) (4 + (len (data r) + len (after r)))); [|lia].
  destruct (N.leb_spec (o + 1) (4 + len (data r))); [|lia]. f_equal. f_equal. rewrite drop_app_le by lia. rewrite take_app_le by (lens; lia). reflexivity.
Qed.
Lemma stretched_bad_text r os e : Forall (fun o => 4 <= o /\ reaches r o 1) os ->
  (first_bad_text r os e <-> first_bad_text (stretched r) os e).
Proof.
  intros H. induction H as [|o os [H4 HR] H IH]; [reflexivity|]. cbn [first_bad_text].
  assert (A : bad_text_field r o e <-> bad_text_field (stretched r) o e).
  { unfold bad_text_field, field_is. rewrite stretched_field by assumption. reflexivity. }
  assert (B : forall t, text_field r o t <-> text_field (stretched r) o t).
  { intros t. unfold text_field, field_is. rewrite stretched_field by assumption. reflexivity. }
  rewrite A, IH. setoid_rewrite B. reflexivity.
Qed.

Lemma impl_true (P Q : Prop) : P -> ((P -> Q) <-> Q). Proof. tauto. Qed.
Lemma impl_false (P Q : Prop) : ~ P -> ((P -> Q) <-> True). Proof. tauto. Qed.

Section Flat.
Context (c : cfg) (r : RawStructure) (HF : flat_memory c = true) (HB : all_bytes (data r))
        (HL : length_ r = 4 + len (data r)) (H256 : length_ r < 256).

Lemma stretched_len : len (data (stretched r)) = len (data r) + len (after r).
Proof. cbn [stretched data]. lens. reflexivity. Qed.

Lemma layout_flat n : layout_size r = Some n -> (~ decoder_overreads c r <-> n <= len (data (stretched r))).
Proof.
  intros E. unfold decoder_overreads, beyond. rewrite HF, stretched_len. split.
  - intros H. destruct (N.le_gt_cases n (len (data r) + len (after r))) as [G|G]; [exact G|]. destruct H. eauto.
  - intros G [n' [E' G']]. rewrite E in E'. injection E' as <-. lia.
Qed.

Lemma flat_case n os : layout_size r = Some n -> ~ decoder_panics c r ->
  (n <= len (data (stretched r)) -> forall e, dispatch c r = Val (Err e) <-> first_bad_text (stretched r) os e) ->
  Forall (fun o => 4 <= o /\ o < 4 + n) os ->
  (accepts (dispatch c r) <-> n <= len (data (stretched r)) /\ all_texts (stretched r) os).
Proof.
  intros E HP HE HO. rewrite (key c r HB HL H256), (layout_flat n E).
  assert (X : n <= len (data (stretched r)) -> ((forall e, ~ first_bad_text (stretched r) os e) <-> all_texts (stretched r) os)).
  { intros G. apply no_bad_text. eapply Forall_impl; [|exact HO]. intros o [A B]. unfold reaches. split; lia. }
  split.
  - intros [_ [G N]]. split; [exact G|]. apply (X G). intros e F. apply (N e). apply (HE G). exact F.
  - intros [G T]. repeat split; [exact HP|exact G|]. intros e F. apply (HE G) in F. revert F. apply (X G). exact T.
Qed.

Ltac offsets := repeat constructor; lia.
Ltac sized HI := unfold layout_size; rewrite HI; reflexivity.
Ltac sound HI := unfold decoder_panics; rewrite HI; auto.
Ltac reads_on HI := intros; rewrite dispatch_stretched by (try exact HF; rewrite HI; cbn; tauto);
  unfold dispatch; change (info (stretched r)) with (info r); rewrite HI; rewrite not_err_map.
Ltac compare HI := unfold acceptable_flat; rewrite HI; unfold acceptable, also_needed; change (info (stretched r)) with (info r); rewrite HI;
  cbn [accepted_length needed_strings]; change (version (stretched r)) with (version r); unfold all_texts, length_ok.

Lemma dispatch_accepted_flat : accepts (dispatch c r) <-> acceptable_flat c r.
Proof.
  destruct (info r) eqn:HI;
  first [ assert (Y : acceptable_flat c r <-> acceptable c r) by (unfold acceptable_flat; rewrite HI; reflexivity); rewrite Y;
          first [ apply Enclosure_accepted; assumption | apply SystemSlots_accepted; assumption | apply Options_accepted; assumption
                | apply GroupAssociations_accepted; assumption | apply SystemEventLog_accepted; assumption
                | apply PhysicalMemoryArray_accepted; assumption | apply MemoryDevice_accepted; assumption
                | apply MemoryError32_accepted; assumption | apply MemoryArrayMappedAddress_accepted; assumption
                | apply MemoryDeviceMappedAddress_accepted; assumption | apply BuiltInPointingDevice_accepted; assumption
                | apply PortableBattery_accepted; assumption
                | unfold acceptable, also_needed, accepts, dispatch; rewrite HI; cbn [accepted_length needed_strings length_ok];
                  (split; [intros _; repeat split; intros o []|intros _; eexists; reflexivity]) ]
        | idtac ].
  - rewrite (flat_case (Bios_area (version r)) [0x04; 0x05; 0x08]); [|sized HI|sound HI|reads_on HI; apply (Bios_err c (stretched r)); assumption|].
    + compare HI. unfold Bios_area. destruct (since (version r) 3 1), (since (version r) 2 4); intuition lia.
    + unfold Bios_area. destruct (since (version r) 3 1), (since (version r) 2 4); offsets.
  - rewrite (flat_case (System_area (version r)) (System_texts (version r))); [|sized HI|sound HI|reads_on HI; apply (System_err c (stretched r)); assumption|].
    + compare HI. unfold System_area, System_texts. destruct (since (version r) 2 4), (since (version r) 2 1); cbn [app]; intuition lia.
    + unfold System_area, System_texts. destruct (since (version r) 2 4), (since (version r) 2 1); cbn [app]; offsets.
  - rewrite (flat_case 10 (BaseBoard_texts r)); [|sized HI|sound HI| |].
    + unfold acceptable_flat. rewrite HI. rewrite stretched_len. unfold all_texts, BaseBoard_texts, reaches.
      destruct (N.leb_spec 5 (len (data r))), (N.leb_spec 7 (len (data r))); cbn [app]; rewrite ?in_cons_iff, ?in_nil_iff.
      * rewrite !impl_true by lia. intuition lia.
      * rewrite (impl_true (0x08 + 1 <= _)), (impl_false (0x0A + 1 <= _)) by lia. intuition lia.
      * lia.
      * rewrite !impl_false by lia. intuition lia.
    + intros G e. unfold dispatch. rewrite HI, not_err_map. destruct (N.le_gt_cases 10 (len (data r))) as [L|L].
      * rewrite (BaseBoard_err c r r) by (left; split; [exact L|reflexivity]). apply stretched_bad_text.
        unfold BaseBoard_texts. destruct (5 <=? len (data r)), (7 <=? len (data r)); cbn [app]; unfold reaches; repeat constructor; lia.
      * apply BaseBoard_err. right. rewrite stretched_len in G. split; [lia|]. split; [exact HF|reflexivity].
    + unfold BaseBoard_texts. destruct (5 <=? len (data r)), (7 <=? len (data r)); cbn [app]; offsets.
  - rewrite (flat_case (Processor_area (version r)) (Processor_texts (version r))); [|sized HI|sound HI|reads_on HI; apply (Processor_err c (stretched r)); assumption|].
    + compare HI. unfold Processor_area, Processor_texts.
      destruct (since (version r) 3 0), (since (version r) 2 6), (since (version r) 2 5), (since (version r) 2 3), (since (version r) 2 1); cbn [app]; intuition lia.
    + unfold Processor_area, Processor_texts. destruct (since (version r) 3 0) eqn:V1, (since (version r) 2 6) eqn:V2, (since (version r) 2 5) eqn:V3, (since (version r) 2 3) eqn:V4, (since (version r) 2 1);
      cbn [app]; first [offsets|exfalso; unfold since in *; lia].
  - destruct (since (version r) 2 1) eqn:V.
    + pose proof (proj1 (since_iff _ _ _) V) as V'. rewrite (flat_case (Cache_area (version r)) [0x04]).
      * compare HI. unfold Cache_area. destruct (since (version r) 3 2), (since (version r) 2 2); intuition lia.
      * unfold layout_size. rewrite HI, V. reflexivity.
      * unfold decoder_panics. rewrite HI. vlia.
      * reads_on HI. apply (Cache_err c (stretched r)); assumption.
      * unfold Cache_area. destruct (since (version r) 3 2), (since (version r) 2 2); offsets.
    + apply since_not in V. rewrite (key c r HB HL H256). compare HI. unfold decoder_panics. rewrite HI. split.
      * intros [H _]. destruct (H V).
      * intros [_ [_ H]]. vlia.
  - rewrite (flat_case 5 [0x04; 0x06]); [|sized HI|sound HI|reads_on HI; apply (PortConnector_err c (stretched r)); assumption|offsets].
    compare HI. intuition lia.
  - rewrite (flat_case (BiosLanguage_area (version r)) []); [|sized HI|sound HI| |offsets].
    + compare HI. unfold BiosLanguage_area. destruct (since (version r) 2 1); cbn [In]; intuition lia.
    + intros _ e. unfold dispatch. rewrite HI, not_err_map. cbn [first_bad_text]. split; [|intros []].
      unfold BiosLanguage_try_from. destruct (version_ge _ _); destruct (read_packed c _ r); discriminate.
Qed.
End Flat.

Lemma next_accepted_flat c s : flat_memory c = true -> sane s ->
  ((exists x s', next c s = Val (Some (Ok x), s')) <-> exists r, here s r /\ acceptable_flat c r).
Proof.
  intros HF HS. split.
  - intros [x [s' E]]. destruct (next_item c s (Ok x) s' HS E) as [[e [X _]]|[r [H [D _]]]]; [discriminate X|].
    destruct (here_shape s r HS H) as [A [B C]]. exists r. split; [exact H|]. apply (dispatch_accepted_flat c r HF A B C). exists x. exact D.
  - intros [r [H A]]. destruct (here_shape s r HS H) as [A1 [A2 A3]]. apply (dispatch_accepted_flat c r HF A1 A2 A3) in A. destruct A as [x D].
    exists x. destruct H as [F [H1 H2]]. rewrite (next_framed c s r HS F H1 H2), D. cbn [obind]. eauto.
Qed.

(* a whole table, with any of the announced lengths that fit it *)
Lemma decoded_each c rs xs : decode_all c rs (map Ok xs) Finished <-> Forall2 (fun r x => dispatch c r = Val (Ok x)) rs xs.
Proof.
  split.
  - revert xs. induction rs as [|r rs IH]; intros [|x xs] D; cbn [map] in D; inversion D; subst; constructor; auto.
  - intros F. induction F; cbn [map]; constructor; assumption.
Qed.
Lemma table_exactly c e ss rest : flat_memory c = false -> Forall encodable_ok ss ->
  announces (ep_to_version e) (ep_smbios_len e) ss ->
  all_bytes (table ss ++ rest) -> len (table ss ++ rest) + 260 <= 2 ^ 32 ->
  ((exists xs s', drains (next c) (structures e (table ss ++ rest)) (map Ok xs) s') <->
   Forall (acceptable c) (shown (ep_to_version e) ss rest)).
Proof.
  intros HF H1 H2 H3 H4. set (rs := shown (ep_to_version e) ss rest).
  assert (HA : Forall (fun r => accepts (dispatch c r) <-> acceptable c r) rs).
  { apply Forall_forall. intros r Hr. destruct (shown_shape (ep_to_version e) ss rest r H1 H3 Hr) as [A [B C]].
    exact (dispatch_accepted c r HF A B C). }
  split.
  - intros [xs [s' D]]. destruct (decode_all_total c rs) as [l0 [f D0]].
    destruct (runs_announced c e ss rest l0 f H1 H2 H3 H4 D0) as [en [R EF]]. apply drains_runs in D.
    destruct (runs_fun _ _ _ _ _ _ R D) as [-> ->]. cbn [finish_of] in EF. subst f.
    apply decoded_each in D0. clear -D0 HA. induction D0 as [|r x rs xs H F IH]; constructor; inversion HA; subst; [|auto].
    match goal with K : accepts _ <-> _ |- _ => apply K end. exists x. exact H.
  - intros F. assert (X : exists xs, Forall2 (fun r x => dispatch c r = Val (Ok x)) rs xs).
    { clear -F HA. induction F as [|r rs H F IH]; [exists []; constructor|]. inversion HA as [|? ? K HA']; subst.
      destruct (proj2 K H) as [x E]. destruct (IH HA') as [xs E']. exists (x :: xs). constructor; assumption. }
    destruct X as [xs X]. apply decoded_each in X.
    destruct (runs_announced c e ss rest _ Finished H1 H2 H3 H4 X) as [en [R EF]]. destruct en as [s'| |]; try discriminate EF.
    exists xs, s'. apply drains_runs. exact R.
Qed.
