(* Lemmas for C105. *)
From Coq Require Import ZArith Lia ZifyBool ZifyNat ZifyN.
From Coq Require Import String.
From Verif Require Import Base G_Enums M_Raw M_Enclosure M_SystemSlots M_SystemEventLog M_Iter G_Show Spec S_Enums S_Iter S_Decode S_System S_Hardware S_EventLog.
From Verif Require Import S_Show S_ShowFields S_Places S_Reworded S_Deciding S_Counted.
From Verif Require Import L_Base L_Strings L_Iter L_Frame L_Decode L_Enums L_Enclosure L_Slots L_EventLog L_Eq L_GEq L_Show L_GShow L_Places L_PlacesUse L_Deciding.
Ltac Zify.zify_post_hook ::= Z.div_mod_to_equations.
Local Open Scope N_scope.

Section Same.
Variables (D : N -> Prop) (r : RawStructure) (d : list N).
Hypothesis HA : differ_at D (data r) d.
Let r' := with_data d r.

Lemma length_same : len d = len (data r).
Proof. destruct HA as [H _]. unfold len. lia. Qed.
Lemma field_clear off w : clear D off w -> field r' off w = field r off w.
Proof.
  intros HC. unfold field, r', with_data. cbn [data]. rewrite length_same.
  destruct (N.leb_spec 4 off) as [L|L]; [cbn [andb]|reflexivity]. destruct (off + w <=? 4 + len (data r)); [|reflexivity].
  rewrite (alike_slice D 4 (off - 4) w (data r) d HA); [reflexivity|]. replace (4 + (off - 4)) with off by lia. exact HC.
Qed.
Lemma reaches_same off w : reaches r' off w <-> reaches r off w.
Proof. unfold reaches, r', with_data. cbn [data]. rewrite length_same. reflexivity. Qed.
Lemma bytes_at_slice (s : RawStructure) off n l : bytes_at s off n l -> 4 <= off /\ l = take n (drop (off - 4) (data s)).
Proof.
  intros [pre [post [E [HP HL]]]]. split; [lia|]. rewrite E, (drop_app_exact (off - 4) pre) by lia.
  symmetry. apply take_app_exact. lia.
Qed.
Lemma bytes_clear off n l l' : clear D off n -> bytes_at r off n l -> bytes_at r' off n l' -> l = l'.
Proof.
  intros HC B B'. apply bytes_at_slice in B as [L ->], B' as [_ ->]. unfold r', with_data. cbn [data].
  apply (alike_slice D 4 (off - 4) n (data r) d HA). replace (4 + (off - 4)) with off by lia. exact HC.
Qed.
Lemma text_clear off t t' : clear D off 1 -> text_field r off t -> text_field r' off t' -> t = t'.
Proof.
  intros HC [k [F T]] [k' [F' T']]. unfold field_is in *. rewrite (field_clear off 1 HC) in F'. replace k' with k in T' by congruence.
  exact (text_number_fun r k t t' T T').
Qed.
End Same.

Lemma one_byte j (l : list N) : (j < length l)%nat -> firstn 1 (skipn j l) = [nth j l 0].
Proof. revert l. induction j as [|j IH]; intros [|x l] H; cbn in H; try lia; [reflexivity|]. cbn [skipn nth]. apply IH. lia. Qed.
Lemma offset_field r k : 4 <= k -> match field r k 1 with Some n => n | None => 0 end = offset_byte k (data r).
Proof.
  intros H. unfold field, offset_byte. destruct (N.leb_spec 4 k) as [_|L]; [|lia]. cbn [andb].
  destruct (N.leb_spec (k + 1) (4 + len (data r))) as [L|L]; unfold len in L.
  - unfold take, drop. change (N.to_nat 1) with 1%nat. rewrite one_byte by lia. rewrite little_le. cbn [le]. lia.
  - symmetry. apply nth_overflow. lia.
Qed.
Lemma record_bytes_offset r : record_bytes r = (offset_byte 0x13 (data r) * offset_byte 0x14 (data r)) mod 256.
Proof.
  unfold record_bytes. rewrite <- !offset_field by lia. destruct (field r 0x13 1), (field r 0x14 1); rewrite ?N.mul_0_r; reflexivity.
Qed.
Lemma peer_count_offset r : peer_count r = offset_byte 0x12 (data r).
Proof. unfold peer_count. apply offset_field. lia. Qed.

Lemma Enclosure_ok_fits c r s : Enclosure_try_from c r = Val (Ok s) -> 5 <= len (data r) /\ Enclosure_fits c r.
Proof.
  intros H. destruct (N.ltb_spec (len (data r)) 5) as [L|L]; [rewrite Enclosure_short in H by exact L; discriminate|].
  split; [exact L|]. intros HC HO. assert (X : Enclosure_try_from c r = Panic); [|congruence].
  apply Enclosure_panic. split; [exact HC|]. split; [exact HO|].
  unfold Enclosure_try_from in H. destruct (N.ltb_spec (len (data r)) 5) as [L'|_]; [lia|]. cbv zeta in H. rewrite !at_take in H by lia.
  destruct (find_string r (at_ 0 1 (data r))) as [t0|] eqn:F0; cbn [rbind] in H; [|discriminate].
  destruct (find_string r (at_ 2 1 (data r))) as [t1|] eqn:F1; cbn [rbind] in H; [|discriminate].
  destruct (find_string r (at_ 3 1 (data r))) as [t2|] eqn:F2; cbn [rbind] in H; [|discriminate].
  destruct (find_string r (at_ 4 1 (data r))) as [t3|] eqn:F3; cbn [rbind] in H; [|discriminate].
  apply find_string_ok in F0, F1, F2, F3.
  assert (T : forall o t, 4 <= o -> o <= 8 -> text_number r (at_ (o - 4) 1 (data r)) t -> exists t, text_field r o t).
  { intros o t H1 H2 HT. exists t, (at_ (o - 4) 1 (data r)). split; [|exact HT]. apply field_in; [exact H1|]. unfold reaches. lia. }
  intros o [<-|[<-|[<-|[<-|[]]]]]; eapply T; try lia; eassumption.
Qed.

(* the fields by their names *)
Ltac named H :=
  let fs := fresh "fs" in let E := fresh "E" in let HI := fresh "HI" in
  destruct H as [fs [[? [? E]] HI]];
  cbn [Structure_contents] in E; unfold Enclosure_contents, SystemSlots_contents, SystemEventLog_contents in E;
  injection E as _ _ <-; cbn [In] in HI;
  repeat (destruct HI as [HI|HI]; [try discriminate HI|]); try contradiction; injection HI as <-.

(* (injection would compute in the numbers) *)
Ltac pick H := apply pair_equal_spec in H as [H <-]; apply pair_equal_spec in H as [<- <-].
Ltac uncover U p q :=
  match type of U with untouched ?D [Bytes ?a ?n; Bytes ?b ?m] =>
    assert (p : clear D a n) by (intros ? ? ?; apply (U (Bytes a n)); [left; reflexivity|split; assumption]);
    assert (q : clear D b m) by (intros ? ? ?; apply (U (Bytes b m)); [right; left; reflexivity|split; assumption])
  end.

Lemma map_ok_ok {A} (f : A -> Structure) m x : map_ok f m = Val (Ok x) -> exists a, m = Val (Ok a) /\ x = f a.
Proof. unfold map_ok. destruct m as [[a|e]| |]; cbn; try discriminate. intros [= <-]. eauto. Qed.

Section Locals.
Variables (D : N -> Prop) (c : cfg) (r : RawStructure) (d : list N).
Hypothesis HA : differ_at D (data r) d.
Hypothesis HB : all_bytes (data r).
Hypothesis HB' : all_bytes d.
Let r' := with_data d r.

Lemma Enclosure_counted x y name cs p v v' : Enclosure_try_from c r = Val (Ok x) -> Enclosure_try_from c r' = Val (Ok y) ->
  In (name, cs, p) (counted InfoType_Enclosure (data r)) -> untouched D [cs; p] ->
  field_of c (SEnclosure x) name v -> field_of c (SEnclosure y) name v' -> v = v'.
Proof.
  intros EX EY HI U FX FY.
  assert (RS : forall o w, reaches r' o w <-> reaches r o w) by (intros o w; apply (reaches_same D r d HA)).
  destruct (Enclosure_ok_fits c r x EX) as [LX GX]. destruct (Enclosure_ok_fits c r' y EY) as [LY GY].
  apply Enclosure_ok in EX; [|assumption..]. apply Enclosure_ok in EY; [|assumption..].
  cbn [counted] in HI. rewrite <- record_bytes_offset in HI.
  assert (FB : clear D 0x13 2 -> field r' 0x13 1 = field r 0x13 1 /\ field r' 0x14 1 = field r 0x14 1 /\ record_bytes r' = record_bytes r).
  { intros HC. assert (A : field r' 0x13 1 = field r 0x13 1) by (apply (field_clear D r d HA); intros ? ? ?; apply HC; lia).
    assert (B : field r' 0x14 1 = field r 0x14 1) by (apply (field_clear D r d HA); intros ? ? ?; apply HC; lia).
    unfold record_bytes. rewrite A, B. auto. }
  destruct EX as [_ _ _ _ _ _ _ _ _ _ _ _ _ _ CX SX]. destruct EY as [_ _ _ _ _ _ _ _ _ _ _ _ _ _ CY SY].
  destruct HI as [HI|[HI|[]]]; pick HI; uncover U p0 q; destruct (FB p0) as [F1 [F2 F3]]; named FX; named FY; f_equal.
  - rewrite F3 in CY. destruct CX as [[RX [e [-> WX]]]|[RX ->]]; destruct CY as [[RY [e' [-> WY]]]|[RY ->]];
      try (exfalso; pose proof (RS 0x15 (record_bytes r)); pose proof (RS (0x15 + record_bytes r) 1); tauto); [|reflexivity].
    destruct WX as [A1 [A2 [A3 _]]], WY as [B1 [B2 [B3 _]]]. unfold field_is in *. cbn [option_map]. f_equal. unfold ContainedElements_contents.
    rewrite F1 in B1. rewrite F2 in B2. replace (ce_count e') with (ce_count e) by congruence.
    replace (ce_record_length e') with (ce_record_length e) by congruence. replace (ce_chunks e') with (ce_chunks e); [reflexivity|].
    rewrite A3, B3, F3. apply (alike_slice D 4 (0x15 - 4) _ _ _ HA). exact q.
  - rewrite F3 in SY. destruct SX as [[RX [e [-> WX]]]|[RX ->]]; destruct SY as [[RY [e' [-> WY]]]|[RY ->]];
      try (exfalso; pose proof (RS 0x15 (record_bytes r)); pose proof (RS (0x15 + record_bytes r) 1); tauto); [|reflexivity].
    rewrite (text_clear D r d HA _ e e' q WX WY). reflexivity.
Qed.

Lemma SystemSlots_counted x y name cs p v v' : SystemSlots_try_from c r = Val (Ok x) -> SystemSlots_try_from c r' = Val (Ok y) ->
  In (name, cs, p) (counted InfoType_SystemSlots (data r)) -> untouched D [cs; p] ->
  field_of c (SSystemSlots x) name v -> field_of c (SSystemSlots y) name v' -> v = v'.
Proof.
  intros EX EY HI U FX FY.
  apply SystemSlots_ok in EX as [_ EX]; [|assumption..]. apply SystemSlots_ok in EY as [_ EY]; [|assumption..].
  cbn [counted] in HI. rewrite <- peer_count_offset in HI.
  assert (FB : clear D 0x12 1 -> peer_count r' = peer_count r).
  { intros HC. unfold peer_count. rewrite (field_clear D r d HA) by exact HC. reflexivity. }
  destruct EX as [_ _ _ _ _ _ _ _ _ _ _ _ _ PX IX WX TX]. destruct EY as [_ _ _ _ _ _ _ _ _ _ _ _ _ PY IY WY TY].
  destruct HI as [HI|[HI|[HI|[HI|[]]]]]; pick HI; uncover U p0 q; specialize (FB p0); rewrite FB in *; named FX; named FY; f_equal.
  - destruct PX as [[l [BX EX]]|[RX EX]]; destruct PY as [[l' [BY EY]]|[RY EY]].
    + rewrite (bytes_clear D r d HA _ _ l l' q BX BY) in EX.
      destruct (slots_peer_devices x) as [[a]|]; [|discriminate]. destruct (slots_peer_devices y) as [[b]|]; [|discriminate].
      cbn in EX, EY. congruence.
    + exfalso. apply RY. apply (reaches_same D r d HA). destruct BX as [pre [post [E [H1 H2]]]]. unfold reaches. rewrite E, !len_app. lia.
    + exfalso. apply RX. apply (reaches_same D r d HA). destruct BY as [pre [post [E [H1 H2]]]]. unfold reaches. fold r'. rewrite E, !len_app. lia.
    + destruct (slots_peer_devices x); [discriminate|]. destruct (slots_peer_devices y); [discriminate|]. reflexivity.
  - unfold if_there in *. rewrite IX, IY. f_equal. symmetry. apply (field_clear D r d HA), q.
  - unfold code_if_there in *. rewrite WX, WY. do 2 f_equal. symmetry. apply (field_clear D r d HA), q.
  - unfold if_there in *. rewrite TX, TY. f_equal. symmetry. apply (field_clear D r d HA), q.
Qed.

Lemma SystemEventLog_counted x y name cs p v v' : SystemEventLog_try_from c r = Val (Ok x) -> SystemEventLog_try_from c r' = Val (Ok y) ->
  In (name, cs, p) (counted InfoType_SystemEventLog (data r)) -> untouched D [cs; p] ->
  field_of c (SSystemEventLog x) name v -> field_of c (SSystemEventLog y) name v' -> v = v'.
Proof.
  intros EX EY HI U FX FY.
  apply SystemEventLog_ok in EX as [_ [_ EX]]; [|assumption..]. apply SystemEventLog_ok in EY as [_ [_ EY]]; [|assumption..].
  cbn [counted] in HI. destruct EX as [_ _ _ _ _ _ _ _ CX]. destruct EY as [_ _ _ _ _ _ _ _ CY].
  destruct HI as [HI|[]]; pick HI. uncover U p0 q. named FX. named FY. f_equal.
  assert (F1 : field r' 0x15 1 = field r 0x15 1) by (apply (field_clear D r d HA); intros ? ? ?; apply p0; lia).
  assert (F2 : field r' 0x16 1 = field r 0x16 1) by (apply (field_clear D r d HA); intros ? ? ?; apply p0; lia).
  unfold field_is in *. rewrite F1, F2 in CY.
  destruct CX as [[RX [e [-> WX]]]|[RX ->]]; destruct CY as [[RY [e' [-> WY]]]|[RY ->]].
  - destruct WX as [n [A1 [A2 A3]]], WY as [n' [B1 [B2 B3]]]. rewrite ?F1 in B1. rewrite ?F2 in B2.
    cbn [option_map]. f_equal. unfold EventLogTypeDescriptors_contents.
    assert (En : n' = n) by congruence. assert (Es : descriptors_size e' = descriptors_size e) by congruence. rewrite Es in *. subst n'.
    rewrite <- (offset_field r 0x15), <- (offset_field r 0x16) in q by lia. rewrite A1, A2 in q.
    rewrite (bytes_clear D r d HA _ _ _ _ q A3 B3). reflexivity.
  - exfalso. apply RY. destruct RX as [a [b [H1 [H2 H3]]]]. exists a, b. split; [exact H1|]. split; [exact H2|]. apply (reaches_same D r d HA), H3.
  - exfalso. apply RX. destruct RY as [a [b [H1 [H2 H3]]]]. exists a, b. split; [exact H1|]. split; [exact H2|]. apply (reaches_same D r d HA), H3.
  - reflexivity.
Qed.
End Locals.

Lemma counted_local c r d D x y name cs p v v' : differ_at D (data r) d -> all_bytes (data r) -> all_bytes d ->
  dispatch c r = Val (Ok x) -> dispatch c (with_data d r) = Val (Ok y) ->
  In (name, cs, p) (counted (info r) (data r)) -> untouched D [cs; p] ->
  field_of c x name v -> field_of c y name v' -> v = v'.
Proof.
  intros HA HB HB' EX EY HI. unfold dispatch in EX, EY. change (info (with_data d r)) with (info r) in EY.
  destruct (info r); try contradiction; apply map_ok_ok in EX as [a [EX ->]]; apply map_ok_ok in EY as [b [EY ->]]; revert HI;
    eauto using Enclosure_counted, SystemSlots_counted, SystemEventLog_counted.
Qed.

(* ------------------------------------------------ every byte of the field itself shows *)

Lemma SlotWidth_tells a b : a < 256 -> b < 256 ->
  SlotWidth_tree (meaning SlotWidth_codes SlotWidth_Undefined a) = SlotWidth_tree (meaning SlotWidth_codes SlotWidth_Undefined b) -> a = b.
Proof.
  intros HA HB E. rewrite <- !SlotWidth_from_meaning in E.
  destruct SlotWidth_sound as [_ S]. apply S in E; [|apply SlotWidth_fits; assumption..].
  pose proof (proj1 (proj1 SlotWidth_codec (SlotWidth_from a) (SlotWidth_from b) [] [])) as X. rewrite !app_nil_r in X.
  destruct (X E) as [Y _]. rewrite <- (SlotWidth_number_from a), Y. apply SlotWidth_number_from.
Qed.

Section Shows.
Variables (k : N) (c : cfg) (r : RawStructure) (d : list N).
Hypothesis HA : differ_at (eq k) (data r) d.
Hypothesis HB : all_bytes (data r).
Hypothesis HB' : all_bytes d.
Hypothesis HD : d <> data r.
Let r' := with_data d r.

Lemma slice_tells off n : 4 <= off -> off <= k -> k < off + n -> take n (drop (off - 4) (data r)) <> take n (drop (off - 4) d).
Proof.
  intros H1 H2 H3 E. apply HD. destruct HA as [HL HN]. symmetry. apply (list_ext (eq k)); [exact HL|]. intros j HJ.
  destruct (N.eq_dec k (4 + N.of_nat j)) as [EK|NK]; [|apply HN, NK].
  assert (X : forall l : list N, nth_error (take n (drop (off - 4) l)) (j - N.to_nat (off - 4)) = nth_error l j).
  { intros l. unfold take. assert (Y : forall m i (l : list N), (i < m)%nat -> nth_error (firstn m l) i = nth_error l i).
    { induction m as [|m IH]; intros [|i] [|z t] L; cbn; try lia; try reflexivity. apply IH. lia. }
    rewrite Y by lia. rewrite nth_error_drop. f_equal. lia. }
  rewrite <- (X (data r)), <- (X d), E. reflexivity.
Qed.
Lemma le_tells (a b : list N) : all_bytes a -> all_bytes b -> length a = length b -> le a = le b -> a = b.
Proof.
  revert b. induction a as [|x a IH]; intros [|y b] A B L E; cbn in L; try lia; [reflexivity|]. cbn [le] in E.
  inversion A as [|? ? A1 A2]; inversion B as [|? ? B1 B2]; subst. f_equal; [|apply IH; try assumption; try lia];
  unfold is_byte in *; assert (x = y /\ le a = le b) by (split; lia); tauto.
Qed.
Lemma field_tells off w : 4 <= off -> off <= k -> k < off + w -> reaches r off w -> field r' off w <> field r off w.
Proof.
  intros H1 H2 H3 HR E. assert (HR' : reaches r' off w) by (apply (reaches_same (eq k) r d HA), HR).
  rewrite !field_in in E by assumption. injection E as E. unfold at_ in E.
  apply (slice_tells off w H1 H2 H3). change (data r') with d in E. symmetry. apply le_tells; [..|exact E].
  - apply all_bytes_take, all_bytes_drop, HB'.
  - apply all_bytes_take, all_bytes_drop, HB.
  - destruct HA as [HL _]. unfold take, drop. rewrite !firstn_length, !skipn_length. lia.
Qed.

(* the fields of the two are there to be compared *)
Lemma Enclosure_shows x y name cs p : Enclosure_try_from c r = Val (Ok x) -> Enclosure_try_from c r' = Val (Ok y) ->
  In (name, cs, p) (counted InfoType_Enclosure (data r)) -> name <> "sku_number"%string -> inside (data r) p -> in_place k p ->
  exists v v', field_of c (SEnclosure x) name v /\ field_of c (SEnclosure y) name v' /\ v <> v'.
Proof.
  intros EX EY HI NN HP HK.
  destruct (Enclosure_ok_fits c r x EX) as [LX GX]. destruct (Enclosure_ok_fits c r' y EY) as [LY GY].
  apply Enclosure_ok in EX; [|assumption..]. apply Enclosure_ok in EY; [|assumption..].
  cbn [counted] in HI. rewrite <- record_bytes_offset in HI.
  destruct EX as [_ _ _ _ _ _ _ _ _ _ _ _ _ _ CX _]. destruct EY as [_ _ _ _ _ _ _ _ _ _ _ _ _ _ CY _].
  destruct HI as [HI|[HI|[]]]; pick HI; [|contradiction]. cbn [inside in_place] in HP, HK.
  assert (F3 : record_bytes r' = record_bytes r).
  { unfold record_bytes, r'. rewrite !(field_clear (eq k) r d HA) by (intros ? ? ?; lia). reflexivity. }
  rewrite F3 in CY. assert (RR : reaches r 0x15 (record_bytes r)) by (unfold reaches; lia).
  assert (RR' : reaches r' 0x15 (record_bytes r)) by (apply (reaches_same (eq k) r d HA), RR).
  destruct CX as [[_ [e [EX WX]]]|[X _]]; [|contradiction]. destruct CY as [[_ [e' [EY WY]]]|[X _]]; [|contradiction].
  eexists; eexists. split; [eexists; split; [eexists; eexists; reflexivity|cbn [In]; do 14 right; left; reflexivity]|].
  split; [eexists; split; [eexists; eexists; reflexivity|cbn [In]; do 14 right; left; reflexivity]|].
  rewrite EX, EY. cbn [option_map]. intros E. injection E as E _ _ _. destruct WX as [_ [_ [A _]]], WY as [_ [_ [B _]]].
  apply (slice_tells 0x15 (record_bytes r)); [lia..|]. rewrite <- A. rewrite F3 in B. change (data r') with d in B. rewrite <- B. exact E.
Qed.

Lemma SystemSlots_shows x y name cs p : SystemSlots_try_from c r = Val (Ok x) -> SystemSlots_try_from c r' = Val (Ok y) ->
  In (name, cs, p) (counted InfoType_SystemSlots (data r)) -> inside (data r) p -> in_place k p ->
  exists v v', field_of c (SSystemSlots x) name v /\ field_of c (SSystemSlots y) name v' /\ v <> v'.
Proof.
  intros EX EY HI HP HK.
  apply SystemSlots_ok in EX as [_ EX]; [|assumption..]. apply SystemSlots_ok in EY as [_ EY]; [|assumption..].
  cbn [counted] in HI. rewrite <- peer_count_offset in HI.
  destruct EX as [_ _ _ _ _ _ _ _ _ _ _ _ _ PX IX WX TX]. destruct EY as [_ _ _ _ _ _ _ _ _ _ _ _ _ PY IY WY TY].
  assert (FB : 0x12 < k -> peer_count r' = peer_count r).
  { intros HC. unfold peer_count, r'. rewrite (field_clear (eq k) r d HA) by (intros ? ? ?; lia). reflexivity. }
  destruct HI as [HI|[HI|[HI|[HI|[]]]]]; pick HI; cbn [inside in_place] in HP, HK; (assert (PC : peer_count r' = peer_count r) by (apply FB; lia)); rewrite PC in PY, IY, WY, TY.
  - eexists; eexists. split; [eexists; split; [eexists; eexists; reflexivity|cbn [In]; do 13 right; left; reflexivity]|].
    split; [eexists; split; [eexists; eexists; reflexivity|cbn [In]; do 13 right; left; reflexivity]|].
    destruct PX as [[l [BX EX]]|[RX _]]; [|exfalso; apply RX; unfold reaches; lia].
    destruct PY as [[l' [BY EY]]|[RY _]]; [|exfalso; apply RY, (reaches_same (eq k) r d HA); unfold reaches; lia].
    apply bytes_at_slice in BX as [_ ->], BY as [_ ->].
    destruct (slots_peer_devices x) as [[a]|]; [|discriminate]. destruct (slots_peer_devices y) as [[b]|]; [|discriminate].
    cbn in EX, EY. injection EX as ->. injection EY as ->. intros E. injection E as E.
    apply (slice_tells 0x13 (5 * peer_count r)); [lia..|]. exact E.
  - eexists; eexists. split; [eexists; split; [eexists; eexists; reflexivity|cbn [In]; do 14 right; left; reflexivity]|].
    split; [eexists; split; [eexists; eexists; reflexivity|cbn [In]; do 14 right; left; reflexivity]|].
    unfold if_there in *. rewrite IX, IY. assert (R : reaches r (0x14 + 5 * peer_count r) 1) by (unfold reaches; lia).
    pose proof (field_tells (0x14 + 5 * peer_count r) 1 ltac:(lia) ltac:(lia) ltac:(lia) R) as T.
    intros E. apply T. destruct (field r _ _), (field r' _ _); cbn in E; congruence.
  - eexists; eexists. split; [eexists; split; [eexists; eexists; reflexivity|cbn [In]; do 15 right; left; reflexivity]|].
    split; [eexists; split; [eexists; eexists; reflexivity|cbn [In]; do 15 right; left; reflexivity]|].
    unfold code_if_there in *. rewrite WX, WY. assert (R : reaches r (0x15 + 5 * peer_count r) 1) by (unfold reaches; lia).
    pose proof (field_tells (0x15 + 5 * peer_count r) 1 ltac:(lia) ltac:(lia) ltac:(lia) R) as T.
    intros E. apply T. destruct (field r _ _) as [a|] eqn:Ea, (field r' _ _) as [b|] eqn:Eb; cbn [option_map] in E; try congruence.
    injection E as E. f_equal. symmetry. apply SlotWidth_tells; [apply (field_lt r _ 1 a HB Ea)|apply (field_lt r' _ 1 b HB' Eb)|exact E].
  - eexists; eexists. split; [eexists; split; [eexists; eexists; reflexivity|cbn [In]; do 16 right; left; reflexivity]|].
    split; [eexists; split; [eexists; eexists; reflexivity|cbn [In]; do 16 right; left; reflexivity]|].
    unfold if_there in *. rewrite TX, TY. assert (R : reaches r (0x16 + 5 * peer_count r) 2) by (unfold reaches; lia).
    pose proof (field_tells (0x16 + 5 * peer_count r) 2 ltac:(lia) ltac:(lia) ltac:(lia) R) as T.
    intros E. apply T. revert E. generalize (field r (0x16 + 5 * peer_count r) 2) (field r' (0x16 + 5 * peer_count r) 2). intros [a|] [b|] E; cbn [option_map] in E; unfold As_wrapped in E; [injection E as ->; reflexivity|discriminate E|discriminate E|reflexivity].
Qed.

Lemma SystemEventLog_shows x y name cs p : SystemEventLog_try_from c r = Val (Ok x) -> SystemEventLog_try_from c r' = Val (Ok y) ->
  In (name, cs, p) (counted InfoType_SystemEventLog (data r)) -> inside (data r) p -> in_place k p ->
  exists v v', field_of c (SSystemEventLog x) name v /\ field_of c (SSystemEventLog y) name v' /\ v <> v'.
Proof.
  intros EX EY HI HP HK.
  apply SystemEventLog_ok in EX as [_ [_ EX]]; [|assumption..]. apply SystemEventLog_ok in EY as [_ [_ EY]]; [|assumption..].
  cbn [counted] in HI. destruct EX as [_ _ _ _ _ _ _ _ CX]. destruct EY as [_ _ _ _ _ _ _ _ CY].
  destruct HI as [HI|[]]; pick HI. cbn [inside in_place] in HP, HK.
  assert (F1 : field r' 0x15 1 = field r 0x15 1) by (apply (field_clear (eq k) r d HA); intros ? ? ?; lia).
  assert (F2 : field r' 0x16 1 = field r 0x16 1) by (apply (field_clear (eq k) r d HA); intros ? ? ?; lia).
  rewrite <- !offset_field in HP, HK by lia.
  unfold field_is in *. rewrite F1, F2 in CY.
  destruct (field r 0x15 1) as [n|] eqn:En; [|lia]. destruct (field r 0x16 1) as [m|] eqn:Em; [|lia].
  assert (R : reaches r 0x17 (n * m)) by (unfold reaches; lia).
  assert (R' : reaches r' 0x17 (n * m)) by (apply (reaches_same (eq k) r d HA), R).
  eexists; eexists. split; [eexists; split; [eexists; eexists; reflexivity|cbn [In]; do 8 right; left; reflexivity]|].
  split; [eexists; split; [eexists; eexists; reflexivity|cbn [In]; do 8 right; left; reflexivity]|].
  destruct CX as [[_ [e [-> WX]]]|[X _]]; [|exfalso; apply X; exists n, m; auto].
  destruct CY as [[_ [e' [-> WY]]]|[X _]]; [|exfalso; apply X; exists n, m; auto].
  destruct WX as [n1 [A1 [A2 A3]]], WY as [n2 [B1 [B2 B3]]]. injection A1 as <-. injection B1 as <-.
  injection A2 as A2. injection B2 as B2. rewrite <- A2 in A3. rewrite <- B2 in B3.
  apply bytes_at_slice in A3 as [_ A3], B3 as [_ B3].
  cbn [option_map]. intros E. injection E as E _. apply (slice_tells 0x17 (n * m)); [lia..|].
  rewrite <- A3. change (data r') with d in B3. rewrite <- B3. exact E.
Qed.
End Shows.

Lemma counted_shows c r d k x name cs p : differ_at (eq k) (data r) d -> all_bytes (data r) -> all_bytes d -> d <> data r ->
  dispatch c r = Val (Ok x) -> In (name, cs, p) (counted (info r) (data r)) -> name <> "sku_number"%string ->
  inside (data r) p -> in_place k p ->
  exists y v v', dispatch c (with_data d r) = Val (Ok y) /\ field_of c x name v /\ field_of c y name v' /\ v <> v'.
Proof.
  intros HA HB HB' HD EX HI NN HP HK.
  assert (U : untouched (eq k) (deciding (version r) (info r) (data r))).
  { destruct (info r); try contradiction; cbn [counted] in HI; cbn [deciding].
    - destruct HI as [HI|[HI|[]]]; pick HI; [|contradiction]. cbn [in_place] in HK.
      intros q j HQ HJ. cbn [In] in HQ. repeat (destruct HQ as [<-|HQ]; [cbn [in_place] in HJ; lia|]). destruct HQ.
    - intros q j [<-|[]] HJ. cbn [in_place] in HJ.
      destruct HI as [HI|[HI|[HI|[HI|[]]]]]; pick HI; cbn [in_place] in HK; lia.
    - destruct HI as [HI|[]]; pick HI; cbn [in_place] in HK.
      intros q j HQ HJ. destruct ((major (version r) =? 2) && (minor (version r) =? 0))%bool; [destruct HQ|].
      destruct HQ as [<-|[]]. cbn [in_place] in HJ. lia. }
  pose proof (dispatch_outcome c r d (eq k) HA HB HB' U) as O. rewrite EX in O. unfold same_outcome in O.
  destruct (dispatch c (with_data d r)) as [[y|e]| |] eqn:EY; cbn in O; try contradiction. clear O U. exists y.
  assert (X : exists v v', field_of c x name v /\ field_of c y name v' /\ v <> v');
    [|destruct X as [v [v' X]]; exists v, v'; split; [reflexivity|exact X]].
  unfold dispatch in EX, EY. change (info (with_data d r)) with (info r) in EY.
  destruct (info r); try contradiction; apply map_ok_ok in EX as [a [EX ->]]; apply map_ok_ok in EY as [b [EY ->]].
  - eapply Enclosure_shows; eassumption.
  - eapply SystemSlots_shows; eassumption.
  - eapply SystemEventLog_shows; eassumption.
Qed.

Lemma counted_in_tables c v n pre ty h0 h1 d d' rest D x y s t :
  let table e := (pre ++ [ty; 4 + len d; h0; h1] ++ e ++ rest)%list in
  let from e := {| smbios_version := v; smbios_len_ := n; idx := len pre; buffer := table e |} in
  all_bytes (table d) -> all_bytes (table d') -> len (table d) + 260 <= 2 ^ 32 -> differ_at D d d' ->
  next c (from d) = Val (Some (Ok x), s) -> next c (from d') = Val (Some (Ok y), t) ->
  forall name cs p a b, In (name, cs, p) (counted (InfoType_from ty) d) -> untouched D [cs; p] ->
    field_of c x name a -> field_of c y name b -> a = b.
Proof.
  intros table from HB HB' HL HD NX NY name cs p a b HI U FA FB.
  assert (HDL : len d = len d') by (destruct HD as [X _]; unfold len; lia).
  assert (HT : len (table d') = len (table d)) by (unfold table; rewrite !len_app; lia).
  assert (HP : len pre <= len (table d)) by (unfold table; rewrite !len_app; lia).
  assert (SX : sane (from d)) by (repeat split; unfold from; cbn [buffer idx]; [exact HB|lia|lia]).
  assert (SY : sane (from d')) by (repeat split; unfold from; cbn [buffer idx]; [exact HB'|lia|lia]).
  destruct (success_moves c _ x s SX NX) as [r [[FR _] [DX _]]].
  destruct (success_moves c _ y t SY NY) as [r' [[FR' _] [DY _]]].
  unfold from, table in FR, FR'. cbn [smbios_version buffer idx] in FR, FR'.
  destruct (framed_changed v pre ty _ h0 h1 d d' rest r HDL eq_refl FR) as [E1 [E2 [E3 FC]]].
  pose proof (framed_fun _ _ _ _ _ FR' FC) as ->.
  unfold table, all_bytes in HB, HB'. rewrite !Forall_app in HB, HB'.
  rewrite <- E2, <- E1 in HI. rewrite <- E1 in HD.
  refine (counted_local c r d' D x y name cs p a b HD _ _ DX DY HI U FA FB); [rewrite E1|]; unfold all_bytes; tauto.
Qed.

Lemma field_name c x name v fs : field_of c x name v -> fields_of c x fs -> In name (map fst fs).
Proof. intros [gs [G HI]] F. rewrite (fields_of_fun c x fs gs F G). exact (in_map fst gs (name, v) HI). Qed.
Ltac beside :=
  let q := fresh in let j := fresh in let HQ := fresh in let HJ := fresh in let HU := fresh in
  intros q j HQ HJ HU; cbn [unused] in HU; try contradiction; cbn [In] in HQ;
  repeat (destruct HQ as [<-|HQ]; [cbn [in_place] in HJ; lia|]); contradiction HQ.

Lemma unused_same c r d x : differ_at (unused (info r) (data r)) (data r) d -> all_bytes (data r) -> all_bytes d ->
  dispatch c r = Val (Ok x) ->
  exists y, dispatch c (with_data d r) = Val (Ok y) /\ forall name v v', field_of c x name v -> field_of c y name v' -> v = v'.
Proof.
  intros HA HB HB' EX.
  assert (U : untouched (unused (info r) (data r)) (deciding (version r) (info r) (data r))).
  { destruct (info r); cbn [deciding]; beside. }
  pose proof (dispatch_outcome c r d _ HA HB HB' U) as O. rewrite EX in O. unfold same_outcome in O.
  destruct (dispatch c (with_data d r)) as [[y|e]| |] eqn:EY; cbn in O; try contradiction. exists y. split; [reflexivity|].
  intros name v v' FX FY. clear O U. destruct (fields_complete c r x EX) as [fs [F EF]].
  pose proof (field_name c x name v fs FX F) as HN. rewrite EF in HN. apply in_map_iff in HN as [[nm ps] [<- HI]]. cbn [fst] in *.
  pose proof (fun W => field_local c r d _ x y nm ps v v' HA EX EY HI W FX FY) as L1.
  pose proof (fun cs p I W => counted_local c r d _ x y nm cs p v v' HA HB HB' EX EY I W FX FY) as L2.
  destruct (info r) eqn:EI; try (apply L1; beside).
  - cbn [places In] in HI.
    repeat (destruct HI as [HI|HI]; [apply pair_equal_spec in HI as [<- <-]; first [solve [apply L1; beside]
      | eapply L2; [cbn [counted In]; first [left; reflexivity|right; left; reflexivity]|]; beside]|]); contradiction HI.
  - cbn [places In] in HI.
    repeat (destruct HI as [HI|HI]; [apply pair_equal_spec in HI as [<- <-]; first [solve [apply L1; beside]
      | eapply L2; [cbn [counted In]; first [left; reflexivity|right; left; reflexivity|do 2 right; left; reflexivity|do 3 right; left; reflexivity]|]; beside]|]); contradiction HI.
Qed.
