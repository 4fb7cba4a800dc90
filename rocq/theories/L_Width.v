(* Lemmas for C81: the width of the machine makes no difference. *)
From Coq Require Import String.
From Coq Require Import ZArith Lia ZifyBool ZifyNat ZifyN.
From Verif Require Import Base G_Enums M_Raw M_Entry M_Bitfield M_Bios M_System M_BaseBoard M_Enclosure M_Processor M_Cache
  M_PortConnector M_SystemSlots M_Strings M_GroupAssociations M_SystemEventLog M_PhysicalMemoryArray M_MemoryDevice
  M_Memory M_PortableBattery M_Iter M_Use Spec S_Builds S_Iter S_Entry S_Use L_Base L_Strings L_Decode L_Lists L_Iter L_Use.
Local Open Scope N_scope.

Section Width.
Context (c1 c2 : cfg) (HS : same_build c1 c2).

Lemma w_obind {A B} (m1 m2 : out A) (k1 k2 : A -> out B) : m1 = m2 -> (forall a, k1 a = k2 a) -> obind m1 k1 = obind m2 k2.
Proof. intros <- H. destruct m1; cbn; auto. Qed.
Lemma w_rbind {E A B} (m1 m2 : out (result E A)) (k1 k2 : A -> out (result E B)) :
  m1 = m2 -> (forall a, k1 a = k2 a) -> rbind m1 k1 = rbind m2 k2.
Proof. intros <- H. destruct m1 as [[a|e]| |]; cbn; auto. Qed.
Lemma w_add w a b : u_add c1 w a b = u_add c2 w a b.
Proof. unfold u_add. destruct HS as [-> _]. reflexivity. Qed.
Lemma w_sub w a b : u_sub c1 w a b = u_sub c2 w a b.
Proof. unfold u_sub. destruct HS as [-> _]. reflexivity. Qed.
Lemma w_mul w a b : u_mul c1 w a b = u_mul c2 w a b.
Proof. unfold u_mul. destruct HS as [-> _]. reflexivity. Qed.
Lemma w_shl w p : shl1 c1 w p = shl1 c2 w p.
Proof. unfold shl1. destruct HS as [-> _]. reflexivity. Qed.
Lemma w_packed n r : read_packed c1 n r = read_packed c2 n r.
Proof. unfold read_packed. destruct HS as [_ ->]. reflexivity. Qed.
Lemma w_get w o r : 0 < w -> 4 <= o -> o - 4 + w < 2 ^ 32 -> get c1 w o r = get c2 w o r.
Proof. intros. rewrite !get_field by assumption. reflexivity. Qed.
Lemma w_get_slice o w r : 4 <= o -> o - 4 + w < 2 ^ 32 -> get_slice c1 o w r = get_slice c2 o w r.
Proof. intros. rewrite !get_slice_field by assumption. reflexivity. Qed.
Lemma w_get_string o r : 4 <= o -> o < 2 ^ 31 -> get_string c1 o r = get_string c2 o r.
Proof. intros. rewrite !L_Strings.get_string_field by assumption. reflexivity. Qed.
Lemma w_get_ok w o r : 0 < w -> 4 <= o -> o - 4 + w < 2 ^ 32 -> get_ok c1 w o r = get_ok c2 w o r.
Proof. intros. unfold get_ok. rewrite w_get by assumption. reflexivity. Qed.
Lemma w_get_string_ok o r : 4 <= o -> o < 2 ^ 31 -> get_string_ok c1 o r = get_string_ok c2 o r.
Proof. intros. unfold get_string_ok. rewrite w_get_string by assumption. reflexivity. Qed.
Lemma w_basic_string o r : 4 <= o -> o < 2 ^ 31 -> basic_string c1 o r = basic_string c2 o r.
Proof. intros. unfold basic_string. rewrite w_get_ok by lia. reflexivity. Qed.
Lemma w_element d a : ContainedElement_from c1 d a = ContainedElement_from c2 d a.
Proof. unfold ContainedElement_from. destruct HS as [_ ->]. reflexivity. Qed.

Ltac in_range := first [assumption|reflexivity|discriminate|lia].
Ltac width_step :=
  cbv zeta;
  match goal with
  | |- ?m = ?m => reflexivity
  | |- rbind _ _ = rbind _ _ => apply w_rbind; [|intros ?]
  | |- obind _ _ = obind _ _ => apply w_obind; [|intros ?]
  | |- omap _ _ = omap _ _ => unfold omap; apply w_obind; [|intros ?]
  | |- (if ?b then _ else _) = (if ?b then _ else _) => destruct b
  | |- (match ?x with _ => _ end) = (match ?x with _ => _ end) => destruct x
  | |- u_add _ _ _ _ = _ => apply w_add
  | |- u_sub _ _ _ _ = _ => apply w_sub
  | |- u_mul _ _ _ _ = _ => apply w_mul
  | |- shl1 _ _ _ = _ => apply w_shl
  | |- read_packed _ _ _ = _ => apply w_packed
  | |- get _ _ _ _ = _ => apply w_get; in_range
  | |- get_slice _ _ _ _ = _ => apply w_get_slice; in_range
  | |- get_string _ _ _ = _ => apply w_get_string; in_range
  | |- get_ok _ _ _ _ = _ => apply w_get_ok; in_range
  | |- get_string_ok _ _ _ = _ => apply w_get_string_ok; in_range
  | |- basic_string _ _ _ = _ => apply w_basic_string; in_range
  | |- ContainedElement_from _ _ _ = _ => apply w_element
  end.

Lemma w_elements_new d a : ContainedElements_new c1 d a = ContainedElements_new c2 d a.
Proof. unfold ContainedElements_new. repeat width_step. Qed.
(* counts are bytes *)
Lemma byte_field r off n : all_bytes (data r) -> field r off 1 = Some n -> n < 256.
Proof. intros H E. pose proof (field_lt r off 1 n H E) as L. exact L. Qed.
Lemma w_slots r : all_bytes (data r) -> SystemSlots_try_from c1 r = SystemSlots_try_from c2 r.
Proof.
  intros HB. unfold SystemSlots_try_from. cbv zeta. do 4 (match goal with |- (if ?b then _ else _) = _ => destruct b; [reflexivity|] end).
  rewrite !(get_ok_field _ 1 0x12) by in_range. cbn [obind].
  assert (L : match field r 0x12 1 with Some x => x | None => 0 end < 256).
  { destruct (field r 0x12 1) as [n|] eqn:E; [exact (byte_field _ _ _ HB E)|reflexivity]. }
  revert L. generalize (match field r 0x12 1 with Some x => x | None => 0 end). intros n L.
  repeat width_step.
Qed.
Lemma w_event_log r : all_bytes (data r) -> SystemEventLog_try_from c1 r = SystemEventLog_try_from c2 r.
Proof.
  intros HB. unfold SystemEventLog_try_from. cbv zeta.
  rewrite !(get_ok_field _ 1 0x15), !(get_ok_field _ 1 0x16) by in_range. cbn [obind].
  destruct (field r 0x15 1) as [n|] eqn:E1; destruct (field r 0x16 1) as [m|] eqn:E2; repeat width_step.
  apply w_get_slice; [discriminate|].
  pose proof (byte_field _ _ _ HB E1). pose proof (byte_field _ _ _ HB E2). nia.
Qed.
Lemma w_group r : length_ r = 4 + len (data r) -> length_ r < 256 -> GroupAssociations_try_from c1 r = GroupAssociations_try_from c2 r.
Proof.
  intros HD HL. destruct (N.ltb_spec (length_ r) 5) as [L|L].
  - rewrite !group_short by assumption. destruct HS as [-> _]. reflexivity.
  - unfold GroupAssociations_try_from, u_sub. rewrite (proj2 (N.leb_le 5 (length_ r)) L). cbn [obind]. repeat width_step.
Qed.
Lemma w_dispatch r : length_ r = 4 + len (data r) -> length_ r < 256 -> all_bytes (data r) -> dispatch c1 r = dispatch c2 r.
Proof.
  intros HD HL HB. unfold dispatch. destruct (info r); try reflexivity; unfold map_ok, omap; (apply w_obind; [|intros ?; reflexivity]).
  all: first [apply w_slots; assumption|apply w_event_log; assumption|apply w_group; assumption|
    cbv beta delta [Bios_try_from System_try_from BaseBoard_try_from Enclosure_try_from Processor_try_from
    Cache_try_from PortConnector_try_from OemStrings_try_from
    SystemConfigurationOptions_try_from BiosLanguage_try_from PhysicalMemoryArray_try_from MemoryDevice_try_from MemoryError32_try_from
    MemoryArrayMappedAddress_try_from MemoryDeviceMappedAddress_try_from BuiltInPointingDevice_try_from
    PortableBattery_try_from]; repeat first [apply w_elements_new|width_step]].
Qed.
Lemma w_next_raw s : next_raw c1 s = next_raw c2 s.
Proof. unfold next_raw. repeat width_step. Qed.
Lemma next_raw_shape c s r s' : sane s -> next_raw c s = Val (Some (Ok r), s') ->
  length_ r = 4 + len (data r) /\ length_ r < 256 /\ all_bytes (data r).
Proof.
  intros [HB [H1 H2]]. unfold next_raw, u_add, size_of_header.
  destruct (N.ltb_spec (idx s + 4) (2 ^ 32)); [|lia]. cbn [obind].
  destruct (smbios_len_ s <? idx s + 4); [discriminate|].
  unfold slice_index_from, slice_get_from. destruct (idx s <=? len (buffer s)); [|discriminate]. cbn [obind].
  destruct (len (drop (idx s) (buffer s)) <? 4); [discriminate|].
  assert (L : at_ 1 1 (drop (idx s) (buffer s)) < 256) by (apply (at_lt 1 1), all_bytes_drop, HB).
  revert L. generalize (at_ 1 1 (drop (idx s) (buffer s))). intros l L.
  destruct (N.ltb_spec (idx s + l) (2 ^ 32)); [|lia]. cbn [obind].
  destruct (smbios_len_ s <=? idx s + l); [discriminate|].
  destruct (idx s + l <=? len (buffer s)); [|discriminate]. cbn [obind].
  destruct (find_nulnul (drop (idx s + l) (buffer s))) as [t|]; [|discriminate].
  unfold slice_index, slice_get.
  destruct (N.leb_spec (idx s + 4) (idx s + l)) as [L4|L4]; cbn [andb obind]; [|discriminate].
  destruct (N.leb_spec (idx s + l) (len (buffer s))) as [LB|LB]; cbn [andb obind]; [|discriminate].
  destruct (idx s + l + cast 32 (t + 1) <? 2 ^ 32); [|destruct (overflow_checks c); [discriminate|]]; cbn [obind];
    (match goal with |- context [if ?b then Some _ else None] => destruct b; cbn [obind]; [|discriminate] end);
    intros E; injection E as <- _; cbn [length_ data];
    (split; [rewrite len_take, len_drop; lia|split; [exact L|apply all_bytes_take, all_bytes_drop, HB]]).
Qed.
Lemma w_next s : sane s -> next c1 s = next c2 s.
Proof.
  intros HB. unfold next. rewrite <- w_next_raw. destruct (next_raw c1 s) as [[[[r|e]|] s1]| |] eqn:E; cbn [obind]; try reflexivity.
  destruct (next_raw_shape c1 s r s1 HB E) as [Q1 [Q2 Q3]]. rewrite (w_dispatch r Q1 Q2 Q3). reflexivity.
Qed.
End Width.

Lemma w_runs c c' s l e : same_build c c' -> sane s -> runs (next c) s l e -> runs (next c') s l e.
Proof.
  intros HS HB R. induction R as [s s' E|s E|s E|s a s1 l e E R IH];
    rewrite (w_next c c' HS s HB) in E.
  - apply runs_none, E.
  - apply runs_panic, E.
  - apply runs_ub, E.
  - eapply runs_some; [exact E|]. apply IH. rewrite <- (w_next c c' HS s HB) in E. exact (proj1 (next_sane c s (Some a) s1 HB E)).
Qed.
Lemma w_accessors c c' off r : same_build c c' -> len (data r) < 2 ^ 31 ->
  (forall w, 0 < w <= 16 -> off + w <= 2 ^ 32 -> get c w off r = get c' w off r) /\
  (forall size, off + size < 2 ^ 32 -> get_slice c off size r = get_slice c' off size r) /\
  (off < 2 ^ 32 -> get_string c off r = get_string c' off r).
Proof.
  intros [HO _] HD.
  assert (U : forall c, 2 ^ 32 <= 2 ^ usize_bits c /\ 2 ^ 31 <= 2 ^ (usize_bits c - 1)).
  { intros d. unfold usize_bits. destruct (pointer_width d); split; try reflexivity; discriminate. }
  pose proof (U c) as [U1 U2]. pose proof (U c') as [U3 U4].
  split; [|split].
  - intros w HW L. rewrite !get_all by lia. rewrite HO.
    destruct (N.leb_spec (2 ^ usize_bits c) (off - 4 + w)), (N.leb_spec (2 ^ usize_bits c') (off - 4 + w));
      destruct (N.ltb_spec off 4); cbn [orb]; reflexivity || lia.
  - intros size L. rewrite !get_slice_all by lia. rewrite HO.
    destruct (N.leb_spec (2 ^ usize_bits c) (off - 4 + size)), (N.leb_spec (2 ^ usize_bits c') (off - 4 + size));
      destruct (N.ltb_spec off 4); cbn [orb]; reflexivity || lia.
  - intros L. rewrite !get_string_all by lia. rewrite HO. reflexivity.
Qed.
Lemma w_positions c c' ps : same_build c c' -> Forall (fun p => p < 32) ps ->
  from_iter c (usize_bits c) ps = from_iter c' (usize_bits c') ps.
Proof.
  intros [HO _] H. unfold from_iter. generalize 0. induction H as [|p ps Hp _ IH]; intros acc; cbn [from_positions]; [reflexivity|].
  assert (S : forall d, shl1 d (usize_bits d) p = Val (2 ^ p)).
  { intros d. unfold shl1, usize_bits. destruct (pointer_width d); (destruct (N.ltb_spec p 32); [|lia]) || idtac.
    - reflexivity.
    - destruct (N.ltb_spec p 64); [reflexivity|lia]. }
  rewrite !S. cbn [obind]. apply IH.
Qed.
Lemma w_dumps c c' b : all_bytes b ->
  (forall e, search b = Val (Ok e) -> kind_of e = FmtV2 \/ ep_smbios_address e < 2 ^ 32) -> open_dump c b = open_dump c' b.
Proof.
  intros HB H. unfold open_dump. destruct (search b) as [[e|e]| |] eqn:E; cbn [rbind]; try reflexivity.
  change (cast (usize_bits c) (ep_smbios_address e)) with (place c e).
  change (cast (usize_bits c') (ep_smbios_address e)) with (place c' e).
  assert (P : forall d, place d e = ep_smbios_address e).
  { intros d. destruct (H e eq_refl) as [K|K]; [exact (place_v2 d b e HB E K)|exact (place_same d b e HB E (or_intror K))]. }
  rewrite !P. reflexivity.
Qed.
