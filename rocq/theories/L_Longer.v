From Coq Require Import ZArith Lia ZifyBool ZifyNat ZifyN.
From Coq Require Import String.
From Verif Require Import Base G_Enums M_Raw M_Entry M_Bios M_System M_BaseBoard M_Enclosure M_Processor M_Cache M_PortConnector.
From Verif Require Import M_SystemSlots M_Strings M_GroupAssociations M_SystemEventLog M_PhysicalMemoryArray M_MemoryDevice M_Memory.
From Verif Require Import M_PortableBattery M_Iter Spec S_Iter S_Decode S_Versions S_Longer L_Base L_Decode L_Versions L_After.
Ltac Zify.zify_post_hook ::= Z.div_mod_to_equations.
Local Open Scope N_scope.

(* --------------------------------------------------- results that carry over *)

Definition leads {A B} (R : A -> B -> Prop) (m : out A) (m' : out B) : Prop :=
  forall x, m = Val x -> exists y, m' = Val y /\ R x y.
Definition yields {A B} (R : A -> B -> Prop) (m : out (res A)) (m' : out (res B)) : Prop :=
  forall x, m = Val (Ok x) -> exists y, m' = Val (Ok y) /\ R x y.

Lemma yields_val {A B} (R : A -> B -> Prop) x y : R x y -> yields R (Val (Ok x)) (Val (Ok y)).
Proof. intros H a E. injection E as <-. exists y. split; [reflexivity|exact H]. Qed.
Lemma yields_same {A} (m : out (res A)) : yields eq m m.
Proof. intros x H. exists x. split; [exact H|reflexivity]. Qed.
Lemma yields_obind {A A' B B'} (R : A -> A' -> Prop) (S : B -> B' -> Prop) m m' (k : A -> out (res B)) (k' : A' -> out (res B')) :
  leads R m m' -> (forall x y, R x y -> yields S (k x) (k' y)) -> yields S (obind m k) (obind m' k').
Proof.
  intros HM HK z. destruct m as [x| |]; cbn [obind]; try discriminate. intros E.
  destruct (HM x eq_refl) as [y [-> HR]]. cbn [obind]. exact (HK x y HR z E).
Qed.
Lemma yields_rbind {A A' B B'} (R : A -> A' -> Prop) (S : B -> B' -> Prop) m m' (k : A -> out (res B)) (k' : A' -> out (res B')) :
  yields R m m' -> (forall x y, R x y -> yields S (k x) (k' y)) -> yields S (rbind m k) (rbind m' k').
Proof.
  intros HM HK z. destruct m as [[x|e]| |]; cbn; try discriminate. intros E.
  destruct (HM x eq_refl) as [y [-> HR]]. exact (HK x y HR z E).
Qed.
(* ------------------------------------------------------------ the elements *)

Section Longer.
Variables (c : cfg) (e : list N) (r : RawStructure).
Let r' := lengthened e r.

Lemma packed_longer n : flat_memory c = false -> leads eq (read_packed c n r) (read_packed c n r').
Proof.
  intros HF p. unfold read_packed. rewrite HF. cbn [andb]. destruct (N.leb_spec n (len (data r))) as [L|L]; [|discriminate].
  intros [= <-]. exists (take n (data r)). split; [|reflexivity].
  unfold r', lengthened; cbn [data]. rewrite len_app. destruct (N.leb_spec n (len (data r) + len e)); [|lia].
  rewrite take_app_le by lia. reflexivity.
Qed.
Lemma slice_longer {A} (d f : list A) a b : kept (slice_get d a b) (slice_get (d ++ f) a b).
Proof.
  intros s. unfold slice_get. rewrite len_app. destruct (N.leb_spec a b) as [L|L]; cbn [andb]; [|discriminate].
  destruct (N.leb_spec b (len d)) as [M|M]; [|discriminate]. intros [= <-].
  destruct (N.leb_spec b (len d + len f)); [|lia]. rewrite drop_app_le by lia.
  rewrite take_app_le by (rewrite len_drop; lia). reflexivity.
Qed.
Lemma find_string_longer i : find_string r' i = find_string r i.
Proof. reflexivity. Qed.
Lemma get_longer w off : 0 < w -> yields eq (get c w off r) (get c w off r').
Proof.
  intros HW n. unfold get. destruct (u_sub c (usize_bits c) off 4) as [a| |]; cbn [obind]; try discriminate.
  destruct (u_add c (usize_bits c) a w) as [b| |]; cbn [obind]; try discriminate.
  pose proof (slice_longer (data r) e a b) as K. change (data r') with (data r ++ e).
  destruct (slice_get (data r) a b) as [s|].
  - rewrite (K s eq_refl). intros H. exists n. split; [exact H|reflexivity].
  - rewrite len_nil. destruct (N.eqb_spec 0 w); [lia|discriminate].
Qed.
Lemma get_returns w off v : get c w off r = Val v -> exists v', get c w off r' = Val v'.
Proof.
  unfold get. destruct (u_sub c (usize_bits c) off 4) as [a| |]; cbn [obind]; try discriminate.
  destruct (u_add c (usize_bits c) a w) as [b| |]; cbn [obind]; try discriminate. eexists. reflexivity.
Qed.
Lemma ok_longer {A} (m m' : out (res A)) : yields eq m m' -> (forall v, m = Val v -> exists v', m' = Val v') ->
  leads kept (omap ok m) (omap ok m').
Proof.
  intros HY HR o H. destruct m as [v| |]; try discriminate. destruct (HR v eq_refl) as [v' E]. subst m'.
  cbn [omap obind] in *. injection H as <-. exists (ok v'). split; [reflexivity|]. intros x.
  destruct v as [a|]; [|discriminate]. cbn [ok]. intros [= <-].
  destruct (HY a eq_refl) as [y [F <-]]. injection F as ->. reflexivity.
Qed.
Lemma get_ok_longer w off : 0 < w -> leads kept (get_ok c w off r) (get_ok c w off r').
Proof. intros HW. apply ok_longer; [apply get_longer; exact HW|apply get_returns]. Qed.
Lemma get_slice_longer off n : leads kept (get_slice c off n r) (get_slice c off n r').
Proof.
  intros o. unfold get_slice. destruct (u_sub c (usize_bits c) off 4) as [a| |]; cbn [obind]; try discriminate.
  destruct (u_add c (usize_bits c) a n) as [b| |]; cbn [obind]; try discriminate.
  intros [= <-]. eexists. split; [reflexivity|]. apply slice_longer.
Qed.
Lemma get_string_longer off : yields eq (get_string c off r) (get_string c off r').
Proof.
  unfold get_string. eapply yields_rbind; [apply get_longer; reflexivity|]. intros x y <-.
  rewrite find_string_longer. apply yields_same.
Qed.
Lemma get_string_ok_longer off : leads kept (get_string_ok c off r) (get_string_ok c off r').
Proof.
  apply ok_longer; [apply get_string_longer|]. unfold get_string. intros v.
  destruct (get c 1 off r) as [u| |] eqn:E; try discriminate. intros _. destruct (get_returns 1 off u E) as [u' ->].
  destruct u'; eexists; reflexivity.
Qed.
End Longer.

Lemma kept_filter {A} (f : A -> bool) o o' : kept o o' -> kept (ofilter f o) (ofilter f o').
Proof. intros K x. destruct o as [a|]; [|discriminate]. rewrite (K a eq_refl). intros H. exact H. Qed.
Lemma kept_map {A B} (f : A -> B) o o' : kept o o' -> kept (option_map f o) (option_map f o').
Proof. intros K x. destruct o as [a|]; [|discriminate]. rewrite (K a eq_refl). intros H. exact H. Qed.

Ltac follow :=
  match goal with
  | |- yields _ (obind (read_packed _ _ _) _) _ =>
      eapply yields_obind; [apply packed_longer; assumption|intros ? ? <-]
  | |- yields _ (rbind (Val (find_string _ _)) _) _ =>
      rewrite ?find_string_longer; eapply yields_rbind; [apply yields_same|intros ? ? <-]
  | |- yields _ (rbind (get _ _ _ _) _) _ => eapply yields_rbind; [apply get_longer; reflexivity|intros ? ? <-]
  | |- yields _ (rbind (get_string _ _ _) _) _ => eapply yields_rbind; [apply get_string_longer|intros ? ? <-]
  | |- yields _ (obind (get_ok _ _ _ _) _) _ => eapply yields_obind; [apply get_ok_longer; reflexivity|intros ? ? ?]
  | |- yields _ (obind (get_string_ok _ _ _) _) _ => eapply yields_obind; [apply get_string_ok_longer|intros ? ? ?]
  | |- yields _ (obind (CacheConfiguration_from _) _) _ =>
      eapply yields_obind with (R := eq); [intros ? ?; eexists; split; [eassumption|reflexivity]|intros ? ? <-]
  | |- yields _ (if ?b then _ else _) (if ?b then _ else _) => destruct b
  | |- yields _ (Val (Ok _)) (Val (Ok _)) => apply yields_val
  | |- yields _ Panic _ => intros ? ?; discriminate
  end.

Section Types.
Variables (c : cfg) (e : list N) (r : RawStructure).
Hypothesis strict : flat_memory c = false.
Let r' := lengthened e r.

Lemma Bios_longer : yields eq (Bios_try_from c r) (Bios_try_from c r').
Proof. unfold Bios_try_from. change (version r') with (version r). repeat follow; reflexivity. Qed.
Lemma System_longer : yields eq (System_try_from c r) (System_try_from c r').
Proof. unfold System_try_from. change (version r') with (version r). repeat follow; reflexivity. Qed.
Lemma Processor_longer : yields eq (Processor_try_from c r) (Processor_try_from c r').
Proof. unfold Processor_try_from. change (version r') with (version r). repeat follow; reflexivity. Qed.
Lemma Cache_longer : yields eq (Cache_try_from c r) (Cache_try_from c r').
Proof. unfold Cache_try_from. change (version r') with (version r). repeat follow; reflexivity. Qed.
Lemma PortConnector_longer : yields eq (PortConnector_try_from c r) (PortConnector_try_from c r').
Proof. unfold PortConnector_try_from. change (version r') with (version r). repeat follow; reflexivity. Qed.
Lemma options_longer : yields eq (SystemConfigurationOptions_try_from c r) (SystemConfigurationOptions_try_from c r').
Proof.
  unfold SystemConfigurationOptions_try_from. follow. change (strings_count r') with (strings_count r).
  change (handle r') with (handle r). change (raw_strings r') with (raw_strings r). apply yields_same.
Qed.
Lemma BiosLanguage_longer' : yields (BiosLanguage_longer e) (BiosLanguage_try_from c r) (BiosLanguage_try_from c r').
Proof. unfold BiosLanguage_try_from. change (version r') with (version r). repeat follow; split; reflexivity. Qed.

Lemma MemoryDevice_longer' : yields MemoryDevice_longer (MemoryDevice_try_from c r) (MemoryDevice_try_from c r').
Proof.
  unfold MemoryDevice_try_from. change (data r') with (data r ++ e). rewrite len_app.
  destruct (N.ltb_spec (len (data r) + 4) 0x15) as [L|L]; [intros ? ?; discriminate|].
  destruct (N.ltb_spec (len (data r) + len e + 4) 0x15) as [M|M]; [lia|].
  repeat follow. split; cbn; try reflexivity; try assumption.
  all: repeat first [assumption|apply kept_filter|apply kept_map|apply kept_refl].
Qed.

Lemma GroupAssociations_longer' : length_ r = 4 + len (data r) -> 4 + len (data r) + len e < 256 ->
  yields (GroupAssociations_longer e) (GroupAssociations_try_from c r) (GroupAssociations_try_from c r').
Proof.
  intros HL HB g. assert (P32 : 2 ^ 32 <= 2 ^ usize_bits c) by (destruct c as [? ? []]; cbn; lia).
  unfold GroupAssociations_try_from, get_slice, u_sub.
  change (data r') with (data r ++ e). change (length_ r') with (length_ r + len e). change (handle r') with (handle r).
  destruct (N.leb_spec 5 (length_ r)) as [L|L].
  - destruct (N.leb_spec 5 (length_ r + len e)); [|lia]. cbn [obind].
    replace (4 <=? 5) with true by reflexivity. cbn [obind]. unfold u_add.
    destruct (N.ltb_spec (5 - 4 + (length_ r - 5)) (2 ^ usize_bits c)) as [B|B]; [|lia].
    destruct (N.ltb_spec (5 - 4 + (length_ r + len e - 5)) (2 ^ usize_bits c)) as [B'|B']; [|lia]. cbn [obind].
    unfold slice_get. rewrite len_app.
    destruct ((5 - 4 <=? 5 - 4 + (length_ r - 5)) && (5 - 4 + (length_ r - 5) <=? len (data r))) eqn:E; [|lia].
    destruct ((5 - 4 <=? 5 - 4 + (length_ r + len e - 5)) && (5 - 4 + (length_ r + len e - 5) <=? len (data r) + len e)) eqn:E'; [|lia].
    revert g. match goal with |- forall g, ?m = _ -> exists y, ?m' = _ /\ _ => change (yields (GroupAssociations_longer e) m m') end.
    follow. follow. split; cbn [group_handle group_group_name group_items gi_index gi_data]; try reflexivity.
    rewrite drop_app_le by lia. rewrite !take_all; [reflexivity|rewrite len_drop; lia|rewrite len_app, len_drop; lia].
  - destruct (overflow_checks c) eqn:O; [discriminate|]. cbn [obind]. replace (4 <=? 5) with true by reflexivity. cbn [obind].
    unfold u_add. rewrite O. replace (length_ r) with 4 by lia.
    destruct (N.ltb_spec (5 - 4 + (2 ^ usize_bits c + 4 - 5)) (2 ^ usize_bits c)) as [B|B]; [lia|]. cbn [obind].
    replace ((5 - 4 + (2 ^ usize_bits c + 4 - 5)) mod 2 ^ usize_bits c) with 0.
    + cbn. discriminate.
    + replace (5 - 4 + (2 ^ usize_bits c + 4 - 5)) with (2 ^ usize_bits c) by lia. rewrite N.mod_same by lia. reflexivity.
Qed.

Lemma index_longer {A} (d f : list A) i : leads eq (index d i) (index (d ++ f) i).
Proof.
  intros x. unfold index. destruct (nth_error d (N.to_nat i)) eqn:E; [|discriminate]. intros [= <-].
  exists a. split; [|reflexivity]. rewrite nth_error_app1; [rewrite E; reflexivity|]. apply nth_error_Some. congruence.
Qed.
Lemma get_uint_longer w p d f : yields eq (get_uint w p d) (get_uint w p (d ++ f)).
Proof.
  intros x. unfold get_uint, slice_index. pose proof (slice_longer d f p (p + w)) as K.
  destruct (slice_get d p (p + w)) as [s|]; [|discriminate]. rewrite (K s eq_refl). intros H. exists x. split; [exact H|reflexivity].
Qed.
Lemma get_optional_uint_longer w p d f k : yields eq (get_optional_uint w p d k) (get_optional_uint w p (d ++ f) k).
Proof.
  unfold get_optional_uint. eapply yields_rbind; [apply get_uint_longer|]. intros [x q] y <-. apply yields_same.
Qed.
Lemma PhysicalMemoryArray_longer : yields eq (PhysicalMemoryArray_try_from c r) (PhysicalMemoryArray_try_from c r').
Proof.
  unfold PhysicalMemoryArray_try_from. change (data r') with (data r ++ e). change (version r') with (version r).
  change (handle r') with (handle r).
  eapply yields_rbind with (R := eq).
  - destruct (version_gt (version r) (version_of 2 1)); [|apply yields_same].
    do 3 (eapply yields_obind; [apply index_longer|intros ? ? <-]).
    do 2 (eapply yields_rbind; [apply get_optional_uint_longer|intros [? ?] ? <-]).
    eapply yields_rbind; [apply get_uint_longer|intros [? ?] ? <-]. apply yields_same.
  - intros [pma q] y <-. destruct (version_gt (version r) (version_of 2 7)); [|apply yields_same].
    eapply yields_rbind with (R := eq); [|intros ? ? <-; apply yields_same].
    destruct (array_maximum_capacity pma); [apply yields_same|].
    eapply yields_rbind; [apply get_optional_uint_longer|intros [? ?] ? <-]. apply yields_same.
Qed.

Lemma BaseBoard_longer : yields eq (BaseBoard_try_from c r) (BaseBoard_try_from c r').
Proof.
  unfold BaseBoard_try_from, read_packed. rewrite strict. cbn [andb]. change (data r') with (data r ++ e).
  destruct (N.leb_spec 10 (len (data r))) as [L|L]; [|intros ? ?; discriminate]. rewrite len_app.
  destruct (N.leb_spec 10 (len (data r) + len e)) as [M|M]; [|lia]. rewrite take_app_le by lia. cbn [obind].
  repeat match goal with |- context [?k <? len (data r) + len e] =>
    replace (k <? len (data r) + len e) with true by lia; replace (k <? len (data r)) with true by lia end.
  change (handle r') with (handle r). change (find_string r') with (find_string r). apply yields_same.
Qed.

Lemma SystemSlots_longer' : all_bytes e -> from_version (version r) 3 2 ->
  yields SystemSlots_longer (SystemSlots_try_from c r) (SystemSlots_try_from c r').
Proof.
  intros HE HV. unfold SystemSlots_try_from. change (version r') with (version r). change (data r') with (data r ++ e).
  change (handle r') with (handle r). rewrite len_app.
  assert (V : forall a b, a * 256 + b < 3 * 256 + 3 -> b < 256 -> version_lt (version r) (version_of a b) = false).
  { intros a b A B. apply version_lt_not; unfold from_version in *; lia. }
  rewrite !V by lia. rewrite !Bool.andb_false_r. cbn [andb]. clear V.
  assert (V : version_ge (version r) (version_of 3 2) = true) by (apply version_ge_iff; [lia|lia|exact HV]). rewrite V. cbn [andb].
  destruct (N.ltb_spec (len (data r) + 4) 0x11) as [L|L]; [intros ? ?; discriminate|].
  destruct (N.ltb_spec (len (data r) + len e + 4) 0x11) as [M|M]; [lia|]. clear V.
  destruct (field r 0x12 1) as [n|] eqn:F.
  - assert (F' : field r' 0x12 1 = Some n).
    { destruct (get_ok_longer c e r 1 0x12 eq_refl (Some n)) as [o [E K]].
      - rewrite get_ok_field by lia. rewrite F. reflexivity.
      - rewrite get_ok_field in E by lia. injection E as E. rewrite (K n eq_refl) in E. exact E. }
    rewrite !get_ok_field with (off := 0x12) by lia. rewrite F, F'. cbn [obind].
    repeat follow. eapply yields_obind; [apply get_slice_longer|intros ? ? ?].
    repeat follow. split; cbn; try reflexivity; try assumption.
    all: repeat first [assumption|apply kept_filter|apply kept_map|apply kept_refl].
  - rewrite (get_ok_field c 1 0x12) by lia. rewrite F. cbn [obind].
    unfold field in F. destruct ((4 <=? 0x12) && (0x12 + 1 <=? 4 + len (data r))) eqn:F1; [discriminate|]. clear F.
    rewrite (get_ok_field c 1 0x12 r') by lia. cbn [obind].
    set (k := match field r' 0x12 1 with Some x => x | None => 0 end).
    assert (HK : k < 256).
    { unfold k. destruct (field r' 0x12 1) as [x|] eqn:E; [|reflexivity]. unfold field in E.
      destruct ((4 <=? 0x12) && (0x12 + 1 <=? 4 + len (data r'))) eqn:F2; [|discriminate].
      injection E as <-. change (data r') with (data r ++ e) in *. rewrite len_app in F2. rewrite drop_app_ge by lia.
      assert (T : len (take 1 (drop (0x12 - 4 - len (data r)) e)) = 1) by (rewrite len_take, len_drop; lia).
      rewrite little_le. pose proof (le_bound _ (all_bytes_take 1 _ (all_bytes_drop (0x12 - 4 - len (data r)) _ HE))) as LB.
      rewrite T in LB. exact LB. }
    clearbody k.
    assert (NG : forall w off off' : N, 0 < w < 9 -> 4 <= off < 5000 -> 0x13 < off + w -> 4 <= off' < 5000 ->
      leads kept (get_ok c w off r) (get_ok c w off' r')).
    { intros w off off' W O1 O2 O3 o. rewrite !get_ok_field by lia. intros [= <-]. eexists. split; [reflexivity|]. intros x H.
      unfold field in H. destruct ((4 <=? off) && (off + w <=? 4 + len (data r))) eqn:F2; [lia|discriminate]. }
    do 12 follow. eapply yields_obind with (R := kept).
    { intros o. unfold get_slice. unfold u_sub. replace (4 <=? 0x13) with true by reflexivity. cbn [obind].
      assert (P32 : 2 ^ 32 <= 2 ^ usize_bits c) by (destruct c as [? ? []]; cbn; lia).
      unfold u_add. destruct (N.ltb_spec (0x13 - 4 + 5 * 0) (2 ^ usize_bits c)) as [B|B]; [|lia].
      destruct (N.ltb_spec (0x13 - 4 + 5 * k) (2 ^ usize_bits c)) as [B'|B']; [|lia]. cbn [obind]. intros [= <-].
      eexists. split; [reflexivity|]. intros ? Z. apply slice_get_some in Z. lia. }
    intros ? ? ?.
    do 3 (eapply yields_obind; [apply NG; lia|intros ? ? ?]).
    repeat follow. split; cbn; try reflexivity; try assumption.
    all: repeat first [assumption|apply kept_filter|apply kept_map|apply kept_refl].
Qed.

(* ----------------------------------------------------------------- type 3 *)

Lemma read_bytes_longer w d f x d' : read_bytes w d = Some (x, d') -> read_bytes w (d ++ f) = Some (x, d' ++ f).
Proof.
  unfold read_bytes. rewrite len_app. destruct (N.ltb_spec (len d) w) as [L|L]; [discriminate|]. intros [= <- <-].
  destruct (N.ltb_spec (len d + len f) w) as [M|M]; [lia|]. rewrite take_app_le, drop_app_le by lia. reflexivity.
Qed.
Definition read_on {A} (f : list N) (o o' : option (A * list N)) : Prop :=
  forall x d, o = Some (x, d) -> o' = Some (x, d ++ f).
Lemma read_on_then {A} f w (o o' : option (A * list N)) : read_on f o o' ->
  read_on f (oand_then o (fun '(_, d) => read_bytes w d)) (oand_then o' (fun '(_, d) => read_bytes w d)).
Proof.
  intros H x d. destruct o as [[y d1]|]; [|discriminate]. rewrite (H y d1 eq_refl). cbn [oand_then]. apply read_bytes_longer.
Qed.
Lemma read_on_map {A B} f (g : A -> B) (o o' : option (A * list N)) : read_on f o o' ->
  kept (option_map (fun x => g (fst x)) o) (option_map (fun x => g (fst x)) o').
Proof. intros H x. destruct o as [[y d]|]; [|discriminate]. rewrite (H y d eq_refl). exact id. Qed.
Lemma read_on_fst {A} f (o o' : option (A * list N)) : read_on f o o' -> kept (option_map fst o) (option_map fst o').
Proof. intros H x. destruct o as [[y d]|]; [|discriminate]. rewrite (H y d eq_refl). exact id. Qed.

(* the same elements, and as many bytes more behind them *)
Definition elements_on (f : list N) (o o' : option (ContainedElements * list N)) : Prop := forall a d, o = Some (a, d) ->
  exists b, o' = Some (b, d ++ f) /\ ce_chunks a = ce_chunks b /\ ce_count a = ce_count b /\ ce_record_length a = ce_record_length b.
Lemma elements_longer d f aft a d' : ContainedElements_new c d aft = Val (Some (a, d')) ->
  exists o, ContainedElements_new c (d ++ f) aft = Val o /\ elements_on f (Some (a, d')) o.
Proof.
  unfold ContainedElements_new. destruct (read_bytes 1 d) as [[n d1]|] eqn:E1; [|discriminate].
  rewrite (read_bytes_longer _ _ f _ _ E1). destruct (read_bytes 1 d1) as [[m d2]|] eqn:E2; [|discriminate].
  rewrite (read_bytes_longer _ _ f _ _ E2). destruct ((n =? 0) || (m =? 0)).
  - intros [= <- <-]. eexists. split; [reflexivity|]. intros a' d'' [= <- <-]. eexists. split; [reflexivity|]. repeat split.
  - destruct (u_mul c 8 n m) as [l| |]; cbn [obind]; try discriminate.
    pose proof (slice_longer d2 f 0 l) as K. destruct (slice_get d2 0 l) as [s|] eqn:S; [|discriminate].
    rewrite (K s eq_refl). intros [= <- <-]. eexists. split; [reflexivity|]. intros a' d'' [= <- <-].
    apply slice_get_some in S. destruct S as [_ [S _]]. eexists. split; [rewrite drop_app_le by exact S; reflexivity|repeat split].
Qed.

Lemma Enclosure_longer' x y : Enclosure_try_from c r = Val (Ok x) -> Enclosure_try_from c r' = Val (Ok y) -> Enclosure_longer x y.
Proof.
  unfold Enclosure_try_from. change (data r') with (data r ++ e). rewrite len_app.
  destruct (N.ltb_spec (len (data r)) 5) as [L|L]; [discriminate|].
  destruct (N.ltb_spec (len (data r) + len e) 5) as [M|M]; [lia|].
  rewrite take_app_le, drop_app_le by lia. change (handle r') with (handle r). change (after r') with (after r).
  change (find_string r') with (find_string r).
  destruct (find_string r (at_ 0 1 (take 5 (data r)))) as [t1|]; [|discriminate]. rewrite !rbind_ok.
  destruct (find_string r (at_ 2 1 (take 5 (data r)))) as [t2|]; [|discriminate]. rewrite !rbind_ok.
  destruct (find_string r (at_ 3 1 (take 5 (data r)))) as [t3|]; [|discriminate]. rewrite !rbind_ok.
  destruct (find_string r (at_ 4 1 (take 5 (data r)))) as [t4|]; [|discriminate]. rewrite !rbind_ok. cbv zeta.
  assert (R1 : read_on e (read_bytes 1 (drop 5 (data r))) (read_bytes 1 (drop 5 (data r) ++ e))).
  { intros ? ? ?. apply read_bytes_longer. assumption. }
  pose proof (read_on_then e 1 _ _ R1) as R2. pose proof (read_on_then e 1 _ _ R2) as R3. pose proof (read_on_then e 1 _ _ R3) as R4.
  pose proof (read_on_then e 4 _ _ R4) as R5. pose proof (read_on_then e 1 _ _ R5) as R6. pose proof (read_on_then e 1 _ _ R6) as R7.
  match type of R7 with read_on e ?a ?b => set (O7 := a) in *; set (P7 := b) in * end.
  match type of R6 with read_on e ?a ?b => set (O6 := a) in *; set (P6 := b) in * end.
  match type of R5 with read_on e ?a ?b => set (O5 := a) in *; set (P5 := b) in * end.
  match type of R4 with read_on e ?a ?b => set (O4 := a) in *; set (P4 := b) in * end.
  match type of R3 with read_on e ?a ?b => set (O3 := a) in *; set (P3 := b) in * end.
  match type of R2 with read_on e ?a ?b => set (O2 := a) in *; set (P2 := b) in * end.
  match type of R1 with read_on e ?a ?b => set (O1 := a) in *; set (P1 := b) in * end.
  clearbody O7 P7 O6 P6 O5 P5 O4 P4 O3 P3 O2 P2 O1 P1.
  set (E := match O7 with Some (_, d) => ContainedElements_new c d (after r) | None => Val None end).
  set (E' := match P7 with Some (_, d) => ContainedElements_new c d (after r) | None => Val None end).
  assert (RE : forall o o', E = Val o -> E' = Val o' -> elements_on e o o').
  { intros o o' H H' a d ->. unfold E, E' in *. destruct O7 as [[n d7]|]; [|discriminate]. rewrite (R7 n d7 eq_refl) in H'.
    destruct (elements_longer d7 e (after r) a d H) as [o2 [H2 H3]]. rewrite H2 in H'. injection H' as <-. exact (H3 a d eq_refl). }
  clearbody E E'. destruct E as [o| |]; try discriminate. destruct E' as [o'| |]; [|intros _; discriminate|intros _; discriminate].
  specialize (RE o o' eq_refl eq_refl). cbn [obind].
  set (K := oand_then o (fun '(_, d) => read_bytes 1 d)). set (K' := oand_then o' (fun '(_, d) => read_bytes 1 d)).
  assert (RK : read_on e K K').
  { intros n d. unfold K, K'. destruct o as [[a d1]|]; [|discriminate]. destruct (RE a d1 eq_refl) as [b [-> _]]. cbn [oand_then].
    apply read_bytes_longer. }
  clearbody K K'. intros HX HY.
  assert (SX : exists u, match K with Some (n, _) => Val (rmap Some (find_string r n)) | None => Val (Ok None) end = Val (Ok u)).
  { destruct K as [[n d]|]; [|eexists; reflexivity]. destruct (find_string r n); [eexists; reflexivity|discriminate HX]. }
  assert (SY : exists u, match K' with Some (n, _) => Val (rmap Some (find_string r n)) | None => Val (Ok None) end = Val (Ok u)).
  { destruct K' as [[n d]|]; [|eexists; reflexivity]. destruct (find_string r n); [eexists; reflexivity|discriminate HY]. }
  destruct SX as [u SX], SY as [u' SY]. rewrite SX in HX. rewrite SY in HY. rewrite rbind_ok in HX, HY.
  injection HX as <-. injection HY as <-.
  assert (KU : kept u u').
  { intros t ->. destruct K as [[n d]|]; [|discriminate]. rewrite (RK n d eq_refl) in SY. congruence. }
  split; cbn; try reflexivity; try assumption.
  1-4: eapply read_on_map; eassumption.
  1-3: eapply read_on_fst; eassumption.
  intros a HA. destruct o as [[b d]|]; [|discriminate]. injection HA as <-. destruct (RE b d eq_refl) as [b' [-> H]].
  exists b'. split; [reflexivity|exact H].
Qed.

(* once the last field has been found the structure is complete *)
Lemma Enclosure_complete x t : Enclosure_try_from c r = Val (Ok x) -> enclosure_sku_number x = Some t ->
  exists y, Enclosure_try_from c r' = Val (Ok y).
Proof.
  unfold Enclosure_try_from. change (data r') with (data r ++ e). rewrite len_app.
  destruct (N.ltb_spec (len (data r)) 5) as [L|L]; [discriminate|].
  destruct (N.ltb_spec (len (data r) + len e) 5) as [M|M]; [lia|].
  rewrite take_app_le, drop_app_le by lia. change (handle r') with (handle r). change (after r') with (after r).
  change (find_string r') with (find_string r).
  destruct (find_string r (at_ 0 1 (take 5 (data r)))) as [t1|]; [|discriminate]. rewrite !rbind_ok.
  destruct (find_string r (at_ 2 1 (take 5 (data r)))) as [t2|]; [|discriminate]. rewrite !rbind_ok.
  destruct (find_string r (at_ 3 1 (take 5 (data r)))) as [t3|]; [|discriminate]. rewrite !rbind_ok.
  destruct (find_string r (at_ 4 1 (take 5 (data r)))) as [t4|]; [|discriminate]. rewrite !rbind_ok. cbv zeta.
  assert (R1 : read_on e (read_bytes 1 (drop 5 (data r))) (read_bytes 1 (drop 5 (data r) ++ e))).
  { intros ? ? ?. apply read_bytes_longer. assumption. }
  pose proof (read_on_then e 1 _ _ R1) as R2. pose proof (read_on_then e 1 _ _ R2) as R3. pose proof (read_on_then e 1 _ _ R3) as R4.
  pose proof (read_on_then e 4 _ _ R4) as R5. pose proof (read_on_then e 1 _ _ R5) as R6. pose proof (read_on_then e 1 _ _ R6) as R7.
  match type of R7 with read_on e ?a ?b => set (O7 := a) in *; set (P7 := b) in * end.
  match type of R6 with read_on e ?a ?b => set (O6 := a) in *; set (P6 := b) in * end.
  match type of R5 with read_on e ?a ?b => set (O5 := a) in *; set (P5 := b) in * end.
  match type of R4 with read_on e ?a ?b => set (O4 := a) in *; set (P4 := b) in * end.
  match type of R3 with read_on e ?a ?b => set (O3 := a) in *; set (P3 := b) in * end.
  match type of R2 with read_on e ?a ?b => set (O2 := a) in *; set (P2 := b) in * end.
  match type of R1 with read_on e ?a ?b => set (O1 := a) in *; set (P1 := b) in * end.
  clearbody O7 P7 O6 P6 O5 P5 O4 P4 O3 P3 O2 P2 O1 P1.
  destruct O7 as [[n d7]|].
  - rewrite (R7 n d7 eq_refl). destruct (ContainedElements_new c d7 (after r)) as [[[a d]|]| |] eqn:E; try discriminate; cbn [obind oand_then].
    + destruct (elements_longer d7 e (after r) a d E) as [o2 [-> H3]]. destruct (H3 a d eq_refl) as [b [-> _]]. cbn [obind oand_then].
      destruct (read_bytes 1 d) as [[k d8]|] eqn:E8.
      * rewrite (read_bytes_longer _ _ e _ _ E8). destruct (find_string r k) as [s|]; [|discriminate]. intros _ _. eexists. reflexivity.
      * cbn. intros [= <-]. discriminate.
    + cbn. intros [= <-]. discriminate.
  - cbn. intros [= <-]. discriminate.
Qed.

(* -------------------------------------------------------------- all types *)

Lemma yields_map {A B} (R : A -> A -> Prop) (S : B -> B -> Prop) f (m m' : out (res A)) :
  (forall x y, R x y -> S (f x) (f y)) -> yields R m m' -> yields S (omap (rmap f) m) (omap (rmap f) m').
Proof.
  intros HF H z. destruct m as [[x|]| |]; try discriminate. intros E. injection E as <-.
  destruct (H x eq_refl) as [y [-> HR]]. exists (f y). split; [reflexivity|exact (HF x y HR)].
Qed.

Lemma dispatch_longer : length_ r = 4 + len (data r) -> 4 + len (data r) + len e < 256 -> all_bytes e ->
  ~ one_length (version r) (info r) -> info r <> InfoType_Enclosure ->
  yields (longer e) (dispatch c r) (dispatch c r').
Proof.
  intros HL HB HE HO HN. unfold dispatch. change (info r') with (info r).
  destruct (info r) eqn:I; unfold map_ok; cbn [one_length] in HO; try (exfalso; apply HO; exact Logic.I); try (exfalso; apply HN; reflexivity).
  all: try (apply yields_val; reflexivity).
  - eapply yields_map; [|apply Bios_longer]. intros ? ? <-. reflexivity.
  - eapply yields_map; [|apply System_longer]. intros ? ? <-. reflexivity.
  - eapply yields_map; [|apply BaseBoard_longer]. intros ? ? <-. reflexivity.
  - eapply yields_map; [|apply Processor_longer]. intros ? ? <-. reflexivity.
  - eapply yields_map; [|apply Cache_longer]. intros ? ? <-. reflexivity.
  - eapply yields_map; [|apply PortConnector_longer]. intros ? ? <-. reflexivity.
  - eapply yields_map; [|apply SystemSlots_longer'; [exact HE|]]; [intros ? ? H; exact H|].
    unfold before_version, from_version in *. lia.
  - eapply yields_map; [|apply options_longer]. intros ? ? <-. reflexivity.
  - eapply yields_map; [|apply GroupAssociations_longer'; assumption]. intros ? ? H. exact H.
  - eapply yields_map; [|apply BiosLanguage_longer']. intros ? ? H. exact H.
  - eapply yields_map; [|apply PhysicalMemoryArray_longer]. intros ? ? <-. reflexivity.
  - eapply yields_map; [|apply MemoryDevice_longer']. intros ? ? H. exact H.
Qed.

End Types.

(* ------------------------------------------------- structures that are complete *)

Section Complete.
Variables (c : cfg) (e : list N) (r : RawStructure).
Let r' := lengthened e r.

Lemma slice_same {A} (d f : list A) a b : b <= len d -> slice_get (d ++ f) a b = slice_get d a b.
Proof.
  intros H. unfold slice_get. rewrite len_app. destruct (N.leb_spec a b) as [L|L]; [|reflexivity]. cbn [andb].
  destruct (N.leb_spec b (len d)); [|lia]. destruct (N.leb_spec b (len d + len f)); [|lia].
  rewrite drop_app_le, take_app_le by (rewrite ?len_drop; lia). reflexivity.
Qed.
Lemma get_same w off : 4 <= off -> off + w <= 4 + len (data r) -> len (data r) < 256 -> get c w off r' = get c w off r.
Proof.
  intros H1 H2 H3. assert (P32 : 2 ^ 32 <= 2 ^ usize_bits c) by (destruct c as [? ? []]; cbn; lia).
  unfold get, u_sub. destruct (N.leb_spec 4 off); [|lia]. cbn [obind]. unfold u_add.
  destruct (N.ltb_spec (off - 4 + w) (2 ^ usize_bits c)); [|lia]. cbn [obind]. change (data r') with (data r ++ e).
  rewrite slice_same by lia. reflexivity.
Qed.
Lemma get_string_same off : 4 <= off -> off < 4 + len (data r) -> len (data r) < 256 -> get_string c off r' = get_string c off r.
Proof. intros. unfold get_string. rewrite get_same by lia. reflexivity. Qed.
Lemma get_slice_same off n : 4 <= off -> off + n <= 4 + len (data r) -> len (data r) < 256 -> get_slice c off n r' = get_slice c off n r.
Proof.
  intros H1 H2 H3. assert (P32 : 2 ^ 32 <= 2 ^ usize_bits c) by (destruct c as [? ? []]; cbn; lia).
  unfold get_slice, u_sub. destruct (N.leb_spec 4 off); [|lia]. cbn [obind]. unfold u_add.
  destruct (N.ltb_spec (off - 4 + n) (2 ^ usize_bits c)); [|lia]. cbn [obind]. change (data r') with (data r ++ e).
  rewrite slice_same by lia. reflexivity.
Qed.

Lemma MemoryDevice_complete : 0x5C <= 4 + len (data r) -> len (data r) < 256 -> MemoryDevice_try_from c r' = MemoryDevice_try_from c r.
Proof.
  intros H1 H2. unfold MemoryDevice_try_from, get_ok, get_string_ok. change (data r') with (data r ++ e). rewrite len_app.
  destruct (N.ltb_spec (len (data r) + 4) 0x15) as [L|L]; [lia|].
  destruct (N.ltb_spec (len (data r) + len e + 4) 0x15) as [M|M]; [lia|].
  rewrite !get_same, !get_string_same by lia. reflexivity.
Qed.

Lemma SystemSlots_complete x p : from_version (version r) 3 2 -> len (data r) < 252 -> all_bytes (data r) ->
  SystemSlots_try_from c r = Val (Ok x) -> slots_slot_pitch x = Some p -> SystemSlots_try_from c r' = Val (Ok x).
Proof.
  intros HV HB HA H HP. rewrite <- H. revert H. unfold SystemSlots_try_from. change (version r') with (version r).
  change (data r') with (data r ++ e). change (handle r') with (handle r). rewrite len_app.
  assert (V : forall a b, a * 256 + b < 3 * 256 + 3 -> b < 256 -> version_lt (version r) (version_of a b) = false).
  { intros a b A B. apply version_lt_not; unfold from_version in *; lia. }
  rewrite !V by lia. rewrite !Bool.andb_false_r. clear V.
  assert (V : version_ge (version r) (version_of 3 2) = true) by (apply version_ge_iff; [lia|lia|exact HV]). rewrite V. cbn [andb].
  destruct (N.ltb_spec (len (data r) + 4) 0x11) as [L|L]; [discriminate|].
  destruct (N.ltb_spec (len (data r) + len e + 4) 0x11) as [M|M]; [lia|]. clear V.
  assert (HC : forall k, field r 0x12 1 = Some k -> k < 256) by (intros k E; exact (field_lt _ _ _ _ HA E)).
  rewrite (get_ok_field c 1 0x12 r) by lia. cbn [obind].
  assert (HN : match field r 0x12 1 with Some k => k | None => 0 end < 256).
  { destruct (field r 0x12 1) as [k|] eqn:E; [exact (HC k eq_refl)|reflexivity]. }
  rewrite (get_ok_field c 2 (0x16 + _) r) by lia.
  intros H.
  assert (F : exists q, field r (0x16 + 5 * match field r 0x12 1 with Some k => k | None => 0 end) 2 = Some q).
  { repeat match type of H with
    | rbind ?m _ = _ => destruct m as [[?|?]| |]; try discriminate H; rewrite rbind_ok in H
    | obind (Val _) _ = _ => cbn [obind] in H
    | obind ?m _ = _ => destruct m as [?| |]; try discriminate H; cbn [obind] in H
    end. injection H as <-. cbn [slots_slot_pitch] in HP. exists p. exact HP. }
  destruct F as [q F]. unfold field in F at 1.
  match type of F with (if ?b then _ else _) = _ => destruct b eqn:B; [|discriminate F] end. clear F.
  assert (B' : 0x16 + 5 * match field r 0x12 1 with Some k => k | None => 0 end + 2 <= 4 + len (data r)) by lia. clear B.
  assert (S : field r' 0x12 1 = field r 0x12 1).
  { pose proof (get_same 1 0x12) as G. assert (T : get_ok c 1 0x12 r' = get_ok c 1 0x12 r) by (unfold get_ok; rewrite G by lia; reflexivity).
    rewrite !get_ok_field in T by lia. injection T as T. exact T. }
  rewrite (get_ok_field c 1 0x12 r') by lia. cbn [obind]. rewrite S.
  rewrite (get_ok_field c 2 (0x16 + _) r') by lia.
  set (n := match field r 0x12 1 with Some k => k | None => 0 end) in *. clearbody n.
  assert (S2 : field r' (0x16 + 5 * n) 2 = field r (0x16 + 5 * n) 2).
  { pose proof (get_same 2 (0x16 + 5 * n)) as G.
    assert (T : get_ok c 2 (0x16 + 5 * n) r' = get_ok c 2 (0x16 + 5 * n) r) by (unfold get_ok; rewrite G by lia; reflexivity).
    rewrite !get_ok_field in T by lia. injection T as T. exact T. }
  rewrite S2. unfold get_ok. rewrite !get_same, !get_string_same, get_slice_same by lia. reflexivity.
Qed.
End Complete.

(* ----------------------------------------------------- decoders for one length *)

Section Refusals.
Variables (c : cfg) (e : list N) (r : RawStructure).
Hypothesis HL : length_ r = 4 + len (data r).
Hypothesis HE : 0 < len e.
Let r' := lengthened e r.

Lemma ver_ge a b : a < 256 -> b < 256 -> from_version (version r) a b -> version_ge (version r) (version_of a b) = true.
Proof. intros. apply version_ge_iff; assumption. Qed.
Lemma ver_lt a b : a < 256 -> b < 256 -> before_version (version r) a b -> version_lt (version r) (version_of a b) = true.
Proof. intros. apply version_lt_iff; assumption. Qed.
Lemma ver_nlt a b : a < 256 -> b < 256 -> from_version (version r) a b -> version_lt (version r) (version_of a b) = false.
Proof. intros. apply version_lt_not; assumption. Qed.

Definition refused {A} (m : out (res A)) (i : InfoType) : Prop :=
  exists spec n, m = Val (Err (InvalidFormattedSectionLength i (handle r) spec n)).

Lemma MemoryError32_refused x : from_version (version r) 2 1 -> MemoryError32_try_from c r = Val (Ok x) ->
  refused (MemoryError32_try_from c r') InfoType_MemoryError32.
Proof.
  intros HV. unfold MemoryError32_try_from. change (version r') with (version r). change (length_ r') with (length_ r + len e).
  rewrite ver_ge by (lia || assumption). cbn [andb]. destruct (N.eqb_spec (length_ r) 0x17) as [L|L]; cbn [negb]; [|discriminate].
  intros _. destruct (N.eqb_spec (length_ r + len e) 0x17) as [M|M]; [lia|]. cbn [negb]. do 2 eexists. reflexivity.
Qed.
Lemma BuiltInPointingDevice_refused x : from_version (version r) 2 1 -> BuiltInPointingDevice_try_from c r = Val (Ok x) ->
  refused (BuiltInPointingDevice_try_from c r') InfoType_BuiltInPointingDevice.
Proof.
  intros HV. unfold BuiltInPointingDevice_try_from. change (version r') with (version r). change (length_ r') with (length_ r + len e).
  rewrite ver_ge by (lia || assumption). cbn [andb]. destruct (N.eqb_spec (length_ r) 7) as [L|L]; cbn [negb]; [|discriminate].
  intros _. destruct (N.eqb_spec (length_ r + len e) 7) as [M|M]; [lia|]. cbn [negb]. do 2 eexists. reflexivity.
Qed.
Lemma dma_refused x : from_version (version r) 2 1 -> MemoryDeviceMappedAddress_try_from c r = Val (Ok x) ->
  refused (MemoryDeviceMappedAddress_try_from c r') InfoType_MemoryDeviceMappedAddress.
Proof.
  intros HV. unfold MemoryDeviceMappedAddress_try_from. change (version r') with (version r). change (length_ r') with (length_ r + len e).
  rewrite ver_ge by (lia || assumption). cbn [andb].
  destruct (version_lt (version r) (version_of 2 7)) eqn:V; cbn [andb].
  - destruct (N.eqb_spec (length_ r) 0x13) as [L|L]; cbn [negb]; [|discriminate].
    intros _. destruct (N.eqb_spec (length_ r + len e) 0x13) as [M|M]; [lia|]. cbn [negb]. do 2 eexists. reflexivity.
  - unfold version_ge. rewrite V. cbn [negb andb]. destruct (N.eqb_spec (length_ r) 0x23) as [L|L]; cbn [negb]; [|discriminate].
    intros _. destruct (N.eqb_spec (length_ r + len e) 0x23) as [M|M]; [lia|]. cbn [negb]. do 2 eexists. reflexivity.
Qed.
Lemma ama_refused x : from_version (version r) 2 1 -> MemoryArrayMappedAddress_try_from c r = Val (Ok x) ->
  refused (MemoryArrayMappedAddress_try_from c r') InfoType_MemoryArrayMappedAddress.
Proof.
  intros HV. unfold MemoryArrayMappedAddress_try_from. change (version r') with (version r). change (length_ r') with (length_ r + len e).
  rewrite ver_ge by (lia || assumption). cbn [andb].
  destruct (version_lt (version r) (version_of 2 7)) eqn:V; cbn [andb].
  - destruct (N.eqb_spec (length_ r) 0x0F) as [L|L]; cbn [negb]; [|discriminate].
    intros _. destruct (N.eqb_spec (length_ r + len e) 0x0F) as [M|M]; [lia|]. cbn [negb]. do 2 eexists. reflexivity.
  - unfold version_ge. rewrite V. cbn [negb andb]. destruct (N.eqb_spec (length_ r) 0x1F) as [L|L]; cbn [negb]; [|discriminate].
    intros _. destruct (N.eqb_spec (length_ r + len e) 0x1F) as [M|M]; [lia|]. cbn [negb]. do 2 eexists. reflexivity.
Qed.
Lemma battery_refused x : from_version (version r) 2 1 -> PortableBattery_try_from c r = Val (Ok x) ->
  refused (PortableBattery_try_from c r') InfoType_PortableBattery.
Proof.
  intros HV. unfold PortableBattery_try_from. change (version r') with (version r). change (length_ r') with (length_ r + len e).
  destruct (version_eq (version r) (version_of 2 1)) eqn:V; cbn [andb].
  - destruct (N.eqb_spec (length_ r) 0x10) as [L|L]; cbn [negb]; [|discriminate].
    intros _. destruct (N.eqb_spec (length_ r + len e) 0x10) as [M|M]; [lia|]. cbn [negb]. do 2 eexists. reflexivity.
  - rewrite ver_ge; [|lia|lia|]; cycle 1.
    { apply version_eq_not in V; [|lia|lia]. unfold from_version, version_is in *. lia. }
    cbn [negb andb]. destruct (N.eqb_spec (length_ r) 0x1A) as [L|L]; cbn [negb]; [|discriminate].
    intros _. destruct (N.eqb_spec (length_ r + len e) 0x1A) as [M|M]; [lia|]. cbn [negb]. do 2 eexists. reflexivity.
Qed.
Lemma slots_refused x : from_version (version r) 2 1 -> before_version (version r) 3 2 -> SystemSlots_try_from c r = Val (Ok x) ->
  refused (SystemSlots_try_from c r') InfoType_SystemSlots.
Proof.
  intros HV HW. unfold SystemSlots_try_from. change (version r') with (version r). change (data r') with (data r ++ e). rewrite len_app.
  rewrite (ver_nlt 2 1) by (lia || assumption). rewrite Bool.andb_false_r. cbn [andb].
  rewrite (ver_ge 2 1) by (lia || assumption). cbn [andb].
  destruct (version_lt (version r) (version_of 2 6)) eqn:V; cbn [andb].
  - destruct (N.eqb_spec (len (data r) + 4) 0x0D) as [L|L]; cbn [negb]; [|discriminate].
    intros _. destruct (N.eqb_spec (len (data r) + len e + 4) 0x0D) as [M|M]; [lia|]. cbn [negb]. do 2 eexists. reflexivity.
  - unfold version_ge at 1. rewrite V. cbn [negb andb]. rewrite (ver_lt 3 2) by (lia || assumption). cbn [andb].
    destruct (N.eqb_spec (len (data r) + 4) 0x11) as [L|L]; cbn [negb]; [|discriminate].
    intros _. unfold version_ge at 1. rewrite V. cbn [negb andb].
    destruct (N.eqb_spec (len (data r) + len e + 4) 0x11) as [M|M]; [lia|]. cbn [negb]. do 2 eexists. reflexivity.
Qed.
Lemma log_refused x : from_version (version r) 2 1 -> SystemEventLog_try_from c r = Val (Ok x) ->
  refused (SystemEventLog_try_from c r') InfoType_SystemEventLog.
Proof.
  intros HV. unfold SystemEventLog_try_from. change (version r') with (version r). change (data r') with (data r ++ e). rewrite len_app.
  rewrite !get_ok_field by lia. cbn [obind]. change (handle r') with (handle r).
  assert (V : version_eq (version r) (version_of 2 0) = false).
  { apply version_eq_not; [lia|lia|]. unfold from_version, version_is in *. lia. }
  rewrite V. cbn [andb]. rewrite (ver_ge 2 1) by (lia || assumption). cbn [andb].
  assert (K : forall off, kept (field r off 1) (field r' off 1)).
  { intros off n H. unfold field in *. change (data r') with (data r ++ e). rewrite len_app.
    destruct ((4 <=? off) && (off + 1 <=? 4 + len (data r))) eqn:B; [|discriminate]. injection H as <-.
    destruct ((4 <=? off) && (off + 1 <=? 4 + (len (data r) + len e))) eqn:B'; [|lia].
    rewrite drop_app_le, take_app_le by (rewrite ?len_drop; lia). reflexivity. }
  pose proof (K 0x15) as K1. pose proof (K 0x16) as K2.
  destruct (field r 0x15 1) as [a|]; [|discriminate]. destruct (field r 0x16 1) as [b|]; [|discriminate].
  rewrite (K1 a eq_refl), (K2 b eq_refl). cbn [oand_then option_map].
  destruct (N.eqb_spec (len (data r) + 4) (0x17 + a * b)) as [L|L]; cbn [negb]; [|discriminate].
  intros _. destruct (N.eqb_spec (len (data r) + len e + 4) (0x17 + a * b)) as [M|M]; [lia|]. cbn [negb]. do 2 eexists. reflexivity.
Qed.

Lemma refused_map {A} (f : A -> Structure) m i : refused m i -> refused (omap (rmap f) m) i.
Proof. intros [s [n ->]]. do 2 eexists. reflexivity. Qed.
Lemma map_val {A B} (f : A -> B) (m : out (res A)) x : omap (rmap f) m = Val (Ok x) -> exists y, m = Val (Ok y).
Proof. destruct m as [[y|]| |]; try discriminate. intros _. exists y. reflexivity. Qed.

Lemma dispatch_refused x : from_version (version r) 2 1 -> one_length (version r) (info r) ->
  dispatch c r = Val (Ok x) -> refused (dispatch c r') (info r).
Proof.
  intros HV HO. unfold dispatch. change (info r') with (info r).
  destruct (info r) eqn:I; cbn [one_length] in HO; try contradiction; unfold map_ok; intros H;
    apply map_val in H; destruct H as [y H]; apply refused_map.
  - exact (slots_refused y HV HO H).
  - exact (log_refused y HV H).
  - exact (MemoryError32_refused y HV H).
  - exact (ama_refused y HV H).
  - exact (dma_refused y HV H).
  - exact (BuiltInPointingDevice_refused y HV H).
  - exact (battery_refused y HV H).
Qed.
End Refusals.

(* ---------------------------------------------------------- whole structures *)

Lemma dispatch_takes c e r x : flat_memory c = false -> length_ r = 4 + len (data r) -> 4 + len (data r) + len e < 256 -> all_bytes e ->
  ~ one_length (version r) (info r) -> dispatch c r = Val (Ok x) -> complete_enclosure x ->
  exists y, dispatch c (lengthened e r) = Val (Ok y) /\ longer e x y.
Proof.
  intros HF HL HB HE HO HD HC.
  destruct (info r) eqn:I; [ | | |clear HO| | | | | | | | | | | | | | | | | | | ].
  4: { revert HD. unfold dispatch. change (info (lengthened e r)) with (info r). rewrite I. unfold map_ok. intros HD.
    destruct (map_val _ _ _ HD) as [a HA]. rewrite HA in HD. injection HD as <-. cbn [complete_enclosure] in HC.
    destruct (enclosure_sku_number a) as [t|] eqn:T; [|contradiction].
    destruct (Enclosure_complete c e r a t HA T) as [b HB']. exists (SEnclosure b). rewrite HB'. split; [reflexivity|].
    cbn [longer]. exact (Enclosure_longer' c e r a b HA HB'). }
  all: rewrite <- I in HO; apply (dispatch_longer c e r HF HL HB HE HO); [rewrite I; discriminate|exact HD].
Qed.

Lemma dispatch_keeps c e r x y : flat_memory c = false -> length_ r = 4 + len (data r) -> 4 + len (data r) + len e < 256 -> all_bytes e ->
  ~ one_length (version r) (info r) -> dispatch c r = Val (Ok x) -> dispatch c (lengthened e r) = Val (Ok y) -> longer e x y.
Proof.
  intros HF HL HB HE HO HD HD'.
  destruct (info r) eqn:I; [ | | |clear HO| | | | | | | | | | | | | | | | | | | ].
  4: { revert HD HD'. unfold dispatch. change (info (lengthened e r)) with (info r). rewrite I. unfold map_ok. intros HD HD'.
    destruct (map_val _ _ _ HD) as [a HA]. rewrite HA in HD. injection HD as <-.
    destruct (map_val _ _ _ HD') as [b HB']. rewrite HB' in HD'. injection HD' as <-.
    cbn [longer]. exact (Enclosure_longer' c e r a b HA HB'). }
  all: rewrite <- I in HO; destruct (dispatch_longer c e r HF HL HB HE HO) with (x := x) as [z [HZ HR]];
    [rewrite I; discriminate|exact HD|rewrite HZ in HD'; injection HD' as <-; exact HR].
Qed.

(* ------------------------------------------------------------------- tables *)

Lemma longer_forget e x y : longer e x y -> longer e (forget x) (forget y).
Proof.
  destruct x, y; cbn [longer forget]; try (intros H; exact H); try discriminate; try contradiction.
  - intros H. destruct H. split; cbn; try assumption. intros a HA.
    match goal with K : kept_elements _ _ |- _ => rename K into KE end.
    destruct (enclosure_contained_elements s) as [z|]; [|discriminate]. injection HA as <-.
    destruct (KE z eq_refl) as [b [-> [E1 [E2 E3]]]]. exists (bare_elements b). cbn. repeat split; assumption.
  - intros H. destruct H. split; cbn; try assumption.
    match goal with K : il_structure _ = _ |- _ => rewrite K end. reflexivity.
  - intros ->. reflexivity.
Qed.

Lemma widened_table c v rest l : flat_memory c = false -> all_bytes (table (map (fun p => widened (fst p) (snd p)) l)) ->
  Forall (fun p => encodable_ok (widened (fst p) (snd p)) /\ ~ one_length v (InfoType_from (e_type (fst p)))) l ->
  forall xs, Forall complete_enclosure xs -> Forall2 (fun r x => dispatch c r = Val (Ok x)) (shown v (map fst l) rest) xs ->
  exists ys, Forall2 (fun r y => dispatch c r = Val (Ok y)) (shown v (map (fun p => widened (fst p) (snd p)) l) rest) ys /\
    length ys = length xs /\
    forall i p x y, nth_error l i = Some p -> nth_error xs i = Some x -> nth_error ys i = Some y ->
      longer (snd p) (forget x) (forget y).
Proof.
  intros HF. induction l as [|[s e] l IH]; intros HA HO xs HC H; cbn [map shown fst snd] in *.
  - inversion H; subst. exists []. split; [constructor|]. split; [reflexivity|]. intros [|i]; discriminate.
  - inversion H as [|r x rs xs' HX HXS]; subst. inversion HC as [|? ? HC1 HC2]; subst. inversion HO as [|? ? HO1 HO2]; subst.
    destruct HO1 as [[_ [_ [HL _]]] HN]. cbn [widened e_body] in HL. rewrite len_app in HL. cbn [fst] in HN.
    assert (HA2 : all_bytes e /\ all_bytes (table (map (fun p => widened (fst p) (snd p)) l))).
    { unfold table in HA. cbn [map concat] in HA. apply all_bytes_app in HA. destruct HA as [HA1 HA2]. split; [|exact HA2].
      unfold encode in HA1. cbn [widened e_body] in HA1. apply all_bytes_app in HA1. destruct HA1 as [_ HA1].
      apply all_bytes_app in HA1. destruct HA1 as [HA1 _]. apply all_bytes_app in HA1. exact (proj2 HA1). }
    destruct HA2 as [HAe HAt].
    cbn [fst snd] in HL.
    assert (HY0 : exists y, dispatch c (lengthened e (raw_of v s (table (map fst l) ++ rest))) = Val (Ok y) /\ longer e x y).
    { apply dispatch_takes; [exact HF|reflexivity|cbn [raw_of data]; lia|exact HAe|exact HN|exact HX|exact HC1]. }
    destruct HY0 as [y0 [HY HR]].
    assert (HY' : exists y, dispatch c (raw_of v (widened s e) (table (map (fun p => widened (fst p) (snd p)) l) ++ rest)) = Val (Ok y)
      /\ forget y = forget y0).
    { match goal with |- exists y, dispatch c ?r1 = _ /\ _ =>
        pose proof (dispatch_same c r1 (lengthened e (raw_of v s (table (map fst l) ++ rest))) HF) as HS end.
      rewrite HY in HS. specialize (HS ltac:(unfold bare, raw_of, lengthened, widened; cbn [version info length_ handle data strings after e_type e_handle e_body e_strings]; rewrite len_app, N.add_assoc; reflexivity)).
      match type of HS with omap _ ?m = _ => destruct m as [[y|]| |]; try discriminate HS end.
      injection HS as HS. exists y. split; [reflexivity|exact HS]. }
    destruct HY' as [y [HY' HYF]]. change (e_type (widened s e)) with (e_type s).
    destruct ((3 <=? major v) && (e_type s =? 127)).
    + inversion HXS; subst. exists [y]. split; [constructor; [exact HY'|constructor]|]. split; [reflexivity|].
      intros [|i] p a b; cbn [nth_error]; [|destruct i; discriminate]. intros [= <-] [= <-] [= <-]. cbn [snd].
      rewrite HYF. apply longer_forget. exact HR.
    + destruct (IH HAt HO2 xs' HC2 HXS) as [ys [I1 [I2 I3]]]. exists (y :: ys). split; [constructor; assumption|].
      split; [cbn; congruence|]. intros [|i] p a b; cbn [nth_error]; [|apply I3]. intros [= <-] [= <-] [= <-]. cbn [snd].
      rewrite HYF. apply longer_forget. exact HR.
Qed.

(* ------------------------------------------------------------- the elements *)

Definition alike_elements (a b : ContainedElements) : Prop :=
  ce_chunks a = ce_chunks b /\ ce_count a = ce_count b /\ ce_record_length a = ce_record_length b.
Lemma elements_alike c a b o a' : flat_memory c = false -> alike_elements a b -> ContainedElements_next c a = Val (o, a') ->
  exists b', ContainedElements_next c b = Val (o, b') /\ alike_elements a' b'.
Proof.
  intros HF [H1 [H2 H3]]. unfold ContainedElements_next. rewrite <- H1. destruct (ce_chunks a) as [|x l] eqn:E.
  - intros [= <- <-]. exists b. split; [reflexivity|]. repeat split; congruence.
  - rewrite <- E, <- H2, <- H3. unfold ContainedElement_from. rewrite HF. cbn [andb].
    destruct (3 <=? len (take (ce_record_length a) (ce_chunks a))); cbn [obind]; [|discriminate].
    intros [= <- <-]. eexists. split; [reflexivity|]. repeat split.
Qed.
Lemma elements_drain_alike c a l s : flat_memory c = false -> drains (ContainedElements_next c) a l s ->
  forall b, alike_elements a b -> exists s', drains (ContainedElements_next c) b l s'.
Proof.
  intros HF H. induction H as [a a' H|a x a' l s H _ IH]; intros b HB.
  - destruct (elements_alike c a b None a' HF HB H) as [b' [E _]]. exists b'. constructor. exact E.
  - destruct (elements_alike c a b (Some x) a' HF HB H) as [b' [E HB']]. destruct (IH b' HB') as [s' D].
    exists s'. econstructor; eassumption.
Qed.
