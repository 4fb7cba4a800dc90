(* Lemmas about M_CostDecoders. *)
From Coq Require Import String.
From Coq Require Import ZArith Lia ZifyBool ZifyNat ZifyN.
From Verif Require Import Base G_Enums M_Raw M_Bios M_System M_BaseBoard M_Enclosure M_Processor M_Cache
  M_PortConnector M_SystemSlots M_Strings M_GroupAssociations M_SystemEventLog M_PhysicalMemoryArray M_MemoryDevice
  M_Memory M_PortableBattery M_Iter M_Cost M_CostDecoders Spec S_Iter S_Cost S_CostDecoders L_Base L_Utf8 L_Strings L_Iter L_Cost P_Iter.
Local Open Scope N_scope.

(* ------------------------------------------------------------- the same results *)
Lemma erase_free {A} (m : out A) : fst (free m) = m.
Proof. reflexivity. Qed.
Lemma erase_bind {A B} (m : counted A) m' (k : A -> counted B) k' :
  fst m = m' -> (forall a, fst (k a) = k' a) -> fst (pay_bind m k) = obind m' k'.
Proof. intros <- H. unfold pay_bind, obind. destruct (fst m); cbn [fst]; auto. Qed.
Lemma erase_rbind {E A B} (m : counted (result E A)) m' (k : A -> counted (result E B)) k' :
  fst m = m' -> (forall a, fst (k a) = k' a) -> fst (pay_rbind m k) = rbind m' k'.
Proof. intros <- H. unfold pay_rbind, pay_bind, rbind. destruct (fst m) as [[a|e]| |]; cbn [fst free]; auto. Qed.
Lemma erase_map {A B} (f : A -> B) (m : counted A) m' : fst m = m' -> fst (pay_map f m) = omap f m'.
Proof. intros <-. reflexivity. Qed.
Lemma erase_look r i : fst (look r i) = Val (find_string r i).
Proof. unfold look. rewrite <- find_string_erase. destruct (find_string_counted r i). reflexivity. Qed.
Lemma erase_look_some r i : fst (pay_map (rmap Some) (look r i)) = Val (rmap Some (find_string r i)).
Proof. unfold pay_map. cbn [fst]. now rewrite erase_look. Qed.
Lemma erase_look_ok r i : fst (pay_map ok (look r i)) = Val (ok (find_string r i)).
Proof. unfold pay_map. cbn [fst]. now rewrite erase_look. Qed.
Lemma erase_look_at c o r : fst (look_at c o r) = get_string c o r.
Proof. unfold look_at, get_string. apply erase_rbind; [reflexivity|]. intros i. apply erase_look. Qed.
Lemma erase_look_at_ok c o r : fst (look_at_ok c o r) = get_string_ok c o r.
Proof. unfold look_at_ok, get_string_ok. apply erase_map, erase_look_at. Qed.
Lemma erase_basic c o r : fst (basic_counted c o r) = basic_string c o r.
Proof.
  unfold basic_counted, basic_string. apply erase_bind; [reflexivity|]. intros i.
  destruct (ofilter (fun i => negb (i =? 0)) i); [apply erase_look_ok|reflexivity].
Qed.
Lemma collect_erase n : forall s, fst (collect_counted n s) = strings_collect n s.
Proof.
  induction n as [|n IH]; intros s; [reflexivity|]. cbn [collect_counted strings_collect]. rewrite <- strings_next_erase.
  destruct (strings_next_counted s) as [[[t|] s'] k]; cbn [fst]; [|reflexivity].
  rewrite <- IH. destruct (collect_counted n s'). reflexivity.
Qed.
Lemma erase_count r : fst (count_counted r) = strings_count r.
Proof.
  unfold count_counted, strings_count. rewrite <- collect_erase. destruct (collect_counted _ _) as [o k]. reflexivity.
Qed.

Ltac erase_step := first
  [ reflexivity
  | apply erase_look | apply erase_look_some | apply erase_look_ok | apply erase_look_at | apply erase_look_at_ok
  | apply erase_basic | apply erase_count
  | apply erase_rbind; [|intro] | apply erase_bind; [|intro]
  | match goal with |- fst (if ?b then _ else _) = _ => destruct b end
  | match goal with |- fst (match ?x with _ => _ end) = _ => destruct x end
  | match goal with |- fst (match ?x with _ => _ end) = match ?y with _ => _ end => destruct x as [[? ?]|] end ].
Ltac erase := cbv zeta; repeat erase_step.

Lemma Bios_erase c r : fst (Bios_counted c r) = Bios_try_from c r.
Proof. unfold Bios_counted, Bios_try_from. erase. Qed.
Lemma System_erase c r : fst (System_counted c r) = System_try_from c r.
Proof. unfold System_counted, System_try_from. erase. Qed.
Lemma BaseBoard_erase c r : fst (BaseBoard_counted c r) = BaseBoard_try_from c r.
Proof. unfold BaseBoard_counted, BaseBoard_try_from, look_if. erase. Qed.
Lemma Enclosure_erase c r : fst (Enclosure_counted c r) = Enclosure_try_from c r.
Proof. unfold Enclosure_counted, Enclosure_try_from. erase. Qed.
Lemma Processor_erase c r : fst (Processor_counted c r) = Processor_try_from c r.
Proof. unfold Processor_counted, Processor_try_from. erase. Qed.
Lemma Cache_erase c r : fst (Cache_counted c r) = Cache_try_from c r.
Proof. unfold Cache_counted, Cache_try_from. erase. Qed.
Lemma PortConnector_erase c r : fst (PortConnector_counted c r) = PortConnector_try_from c r.
Proof. unfold PortConnector_counted, PortConnector_try_from. erase. Qed.
Lemma SystemSlots_erase c r : fst (SystemSlots_counted c r) = SystemSlots_try_from c r.
Proof. unfold SystemSlots_counted, SystemSlots_try_from. erase. Qed.
Lemma SystemConfigurationOptions_erase c r : fst (SystemConfigurationOptions_counted c r) = SystemConfigurationOptions_try_from c r.
Proof. unfold SystemConfigurationOptions_counted, SystemConfigurationOptions_try_from. erase. Qed.
Lemma GroupAssociations_erase c r : fst (GroupAssociations_counted c r) = GroupAssociations_try_from c r.
Proof. unfold GroupAssociations_counted, GroupAssociations_try_from. erase. Qed.
Lemma MemoryDevice_erase c r : fst (MemoryDevice_counted c r) = MemoryDevice_try_from c r.
Proof. unfold MemoryDevice_counted, MemoryDevice_try_from. erase. Qed.
Lemma PortableBattery_erase c r : fst (PortableBattery_counted c r) = PortableBattery_try_from c r.
Proof. unfold PortableBattery_counted, PortableBattery_try_from. erase. Qed.

Lemma dispatch_erase c r : fst (dispatch_counted c r) = dispatch c r.
Proof.
  unfold dispatch_counted. destruct (info r) eqn:I; try reflexivity;
    unfold dispatch; rewrite I; unfold map_ok; apply erase_map.
  - apply Bios_erase.
  - apply System_erase.
  - apply BaseBoard_erase.
  - apply Enclosure_erase.
  - apply Processor_erase.
  - apply Cache_erase.
  - apply PortConnector_erase.
  - apply SystemSlots_erase.
  - apply SystemConfigurationOptions_erase.
  - apply GroupAssociations_erase.
  - apply MemoryDevice_erase.
  - apply PortableBattery_erase.
Qed.
Lemma next_erase c s : fst (next_counted c s) = next c s.
Proof.
  unfold next_counted, next. apply erase_bind; [apply next_raw_erase|]. intros [item s1].
  destruct item as [[r|e]|]; try reflexivity. cbv zeta. apply erase_bind; [apply dispatch_erase|]. reflexivity.
Qed.
Lemma languages_erase c l : fst (InstallableLanguages_next_counted c l) = InstallableLanguages_next c l.
Proof.
  unfold InstallableLanguages_next_counted, InstallableLanguages_next. apply erase_bind; [reflexivity|]. intros i.
  unfold pay_bind. rewrite erase_look_ok. reflexivity.
Qed.

(* ------------------------------------------------------------- the steps *)
Definition costs {A} (u : N) (n : nat) (m : counted A) : Prop := snd m <= N.of_nat n * u.
Lemma costs_free {A} u n (m : out A) : costs u n (free m).
Proof. unfold costs. cbn. lia. Qed.
Lemma costs_more {A} u n k (m : counted A) : costs u n m -> (n <= k)%nat -> costs u k m.
Proof. unfold costs. intros. nia. Qed.
Lemma costs_bind {A B} u n k (m : counted A) (f : A -> counted B) :
  costs u n m -> (forall a, costs u k (f a)) -> costs u (n + k) (pay_bind m f).
Proof.
  unfold costs, pay_bind. intros H K. destruct (fst m) as [a| |]; cbn [snd]; [specialize (K a)|..]; nia.
Qed.
Lemma costs_bind_free {A B} u k (m : out A) (f : A -> counted B) :
  (forall a, costs u k (f a)) -> costs u k (pay_bind (free m) f).
Proof. intros K. apply (costs_bind u 0 k); [apply costs_free|exact K]. Qed.
Lemma costs_bind_once {A B} u k (m : counted A) (f : A -> counted B) :
  costs u 1 m -> (forall a, costs u k (f a)) -> costs u (S k) (pay_bind m f).
Proof. intros H K. apply (costs_bind u 1 k); assumption. Qed.
Lemma costs_rbind_free {E A B} u k (m : out (result E A)) (f : A -> counted (result E B)) :
  (forall a, costs u k (f a)) -> costs u k (pay_rbind (free m) f).
Proof. intros K. apply costs_bind_free. intros [a|e]; [apply K|apply costs_free]. Qed.
Lemma costs_rbind_once {E A B} u k (m : counted (result E A)) (f : A -> counted (result E B)) :
  costs u 1 m -> (forall a, costs u k (f a)) -> costs u (S k) (pay_rbind m f).
Proof. intros H K. apply costs_bind_once; [exact H|]. intros [a|e]; [apply K|apply costs_free]. Qed.
Lemma costs_map {A B} u n (f : A -> B) (m : counted A) : costs u n m -> costs u n (pay_map f m).
Proof. exact (fun H => H). Qed.
Lemma costs_look r i : costs (2 * len (strings r)) 1 (look r i).
Proof.
  unfold costs, look. pose proof (find_string_count r i). destruct (find_string_counted r i). cbn [snd] in *. lia.
Qed.
Lemma costs_look_if b r i : costs (2 * len (strings r)) 1 (look_if b r i).
Proof. destruct b; [apply costs_map, costs_look|apply costs_free]. Qed.
Lemma costs_look_at c o r : costs (2 * len (strings r)) 1 (look_at c o r).
Proof. apply costs_rbind_free. intros i. apply costs_look. Qed.
Lemma costs_basic c o r : costs (2 * len (strings r)) 1 (basic_counted c o r).
Proof.
  apply costs_bind_free. intros i. destruct (ofilter _ i); [apply costs_map, costs_look|apply costs_free].
Qed.
Lemma collect_count n : forall s, snd (collect_counted n s) <= 2 * (len (bytes s) - start s).
Proof.
  induction n as [|n IH]; intros s; [cbn; lia|]. cbn [collect_counted]. pose proof (strings_next_count s) as H.
  destruct (strings_next_counted s) as [[[t|] s'] k]; cbn [fst snd] in *; destruct H as [H1 [H2 H3]]; [|exact H1].
  specialize (IH s'). destruct (collect_counted n s') as [o k']. cbn [snd] in *. rewrite H2 in IH.
  specialize (H3 ltac:(discriminate)). lia.
Qed.
Lemma costs_count r : costs (2 * len (strings r)) 1 (count_counted r).
Proof.
  unfold costs, count_counted. pose proof (collect_count (S (length (strings r))) (raw_strings r)) as H.
  destruct (collect_counted _ _) as [o k]. cbn [snd raw_strings strings_new bytes start] in *. lia.
Qed.

Ltac cost_step :=
  lazymatch goal with
  | |- costs _ _ (free _) => apply costs_free
  | |- costs _ _ (look _ _) => apply costs_look
  | |- costs _ _ (look_if _ _ _) => apply costs_look_if
  | |- costs _ _ (look_at _ _ _) => apply costs_look_at
  | |- costs _ _ (basic_counted _ _ _) => apply costs_basic
  | |- costs _ _ (count_counted _) => apply costs_count
  | |- costs _ _ (pay_map _ _) => apply costs_map
  | |- costs _ _ (pay_rbind (free _) _) => apply costs_rbind_free; intro
  | |- costs _ _ (pay_bind (free _) _) => apply costs_bind_free; intro
  | |- costs _ _ (pay_rbind _ _) => apply costs_rbind_once; [|intro]
  | |- costs _ _ (pay_bind _ _) => apply costs_bind_once; [|intro]
  | |- costs _ _ (if ?b then _ else _) => destruct b
  | |- costs _ _ (match ?x with _ => _ end) => destruct x
  end.
Ltac cost := cbv zeta; repeat cost_step.

Lemma dispatch_costs c r : costs (2 * len (strings r)) (lookups (info r)) (dispatch_counted c r).
Proof.
  unfold dispatch_counted, lookups. destruct (info r); try apply costs_free; apply costs_map;
    [unfold Bios_counted|unfold System_counted|unfold BaseBoard_counted|unfold Enclosure_counted|unfold Processor_counted
    |unfold Cache_counted|unfold PortConnector_counted|unfold SystemSlots_counted|unfold SystemConfigurationOptions_counted
    |unfold GroupAssociations_counted|unfold MemoryDevice_counted, look_at_ok|unfold PortableBattery_counted, look_at_ok]; cost.
Qed.

Lemma lookups_at_most i : (lookups i <= 7)%nat.
Proof. destruct i; cbn; lia. Qed.
Lemma dispatch_at_most c r : snd (dispatch_counted c r) <= 14 * len (strings r).
Proof. pose proof (dispatch_costs c r) as H. pose proof (lookups_at_most (info r)). unfold costs in H. nia. Qed.

(* the raw structure of a call of next *)
Lemma next_raw_area c s r s1 : sane s -> next_raw c s = Val (Some (Ok r), s1) ->
  idx s1 = idx s + length_ r + len (strings r) /\ idx s + len (strings r) <= len (buffer s).
Proof.
  intros [A [B C]] H. destruct (long_area c s r s1 A B H) as [area [post [E [SA [S [I _]]]]]].
  assert (2 <= len area) by (destruct SA as [[front ->] _]; rewrite len_app; change (len [0; 0]) with 2; lia).
  assert (L : len (strings r) = len area mod 2 ^ 32).
  { rewrite S. rewrite len_take. pose proof (N.mod_le (len area) (2 ^ 32) ltac:(discriminate)). lia. }
  split; [lia|]. apply (f_equal len) in E. rewrite len_drop, len_app in E.
  pose proof (N.mod_le (len area) (2 ^ 32) ltac:(discriminate)). lia.
Qed.
Lemma next_steps c s : sane s ->
  (exists r s1, next_raw c s = Val (Some (Ok r), s1) /\ snd (next_counted c s) = turns c s + snd (dispatch_counted c r)) \/
  snd (next_counted c s) = turns c s.
Proof.
  intros S. unfold next_counted, turns. set (k := fun raw : option (res RawStructure) * Structures => _).
  assert (P : snd (pay_bind (next_raw_counted c s) k) = snd (next_raw_counted c s) +
    match next_raw c s with Val x => snd (k x) | _ => 0 end).
  { unfold pay_bind. rewrite next_raw_erase. destruct (next_raw c s); cbn [snd]; lia. }
  rewrite P. clear P. destruct (next_raw c s) as [[item s1]| |]; [|right; lia..].
  destruct item as [[r|e]|]; [|right; cbn [k snd free]; lia..].
  left. exists r, s1. split; [reflexivity|]. cbn [k]. cbv zeta. unfold pay_bind.
  destruct (fst (dispatch_counted c r)); cbn [snd free]; lia.
Qed.
Lemma next_at_most c s : sane s -> snd (next_counted c s) <= 15 * (len (buffer s) - idx s).
Proof.
  intros S. pose proof (turns_at_most c s S). destruct (next_steps c s S) as [[r [s1 [E ->]]]| ->]; [|lia].
  destruct (next_raw_area c s r s1 S E) as [_ L]. pose proof (dispatch_at_most c r). lia.
Qed.
Lemma next_item_at_most c s x s' : sane s -> next c s = Val (Some x, s') ->
  idx s <= idx s' /\ (snd (next_counted c s) <= 15 * (idx s' - idx s) \/ s' = stopped_at (idx s) s).
Proof.
  intros S E. destruct (next_framing c s x s' S E) as [H4 [[e [_ [_ ->]]]|[r [F [HL [_ [I _]]]]]]].
  - split; [reflexivity|now right].
  - split; [lia|left]. pose proof (turns_framed c s r S F H4 HL) as T. unfold extent in I.
    destruct (next_steps c s S) as [[r2 [s1 [E2 ->]]]| ->]; [|lia].
    destruct (next_raw_area c s r2 s1 S E2) as [I2 _]. pose proof (dispatch_at_most c r2).
    assert (IE : idx s' = idx s1).
    { unfold next in E. rewrite E2 in E. cbn [obind] in E. destruct (dispatch c r2); [|discriminate..]. cbn [obind] in E.
      injection E as _ <-. destruct (_ && _); reflexivity. }
    lia.
Qed.
Lemma labour_linear c s n : sane s -> labour c s n -> n <= 15 * (len (buffer s) - idx s).
Proof.
  intros S W. induction W as [s s' E|s E|s E|s x s' n E W IH].
  1-3: now apply next_at_most.
  destruct (next_sane c s _ _ S E) as [S' B']. specialize (IH S'). rewrite B' in IH.
  destruct (next_item_at_most c s x s' S E) as [I [L| ->]].
  - assert (idx s' <= len (buffer s)); [|lia].
    destruct (next_framing c s x s' S E) as [H4 [[e [_ [_ ->]]]|[r [F [HL [_ [I2 _]]]]]]].
    + cbn [idx stopped_at] in *. destruct (N.leb_spec (idx s) (len (buffer s))) as [|G]; [assumption|].
      exfalso. unfold next, next_raw, u_add, size_of_header in E. destruct S as [_ [S2 _]].
      replace (idx s + 4 <? 2 ^ 32) with true in E by (symmetry; apply N.ltb_lt; lia). cbn [obind] in E.
      replace (smbios_len_ s <? idx s + 4) with false in E by (symmetry; lia).
      unfold slice_index_from, slice_get_from in E. replace (idx s <=? len (buffer s)) with false in E by (symmetry; lia).
      discriminate.
    + destruct (framed_end _ _ F S) as [_ [_ HE]]. lia.
  - assert (n = 0).
    { assert (Z : next c (stopped_at (idx s) s) = Val (None, stopped_at (idx s) s)) by (apply stopped_none; [exact S'|cbn; lia]).
      assert (T : snd (next_counted c (stopped_at (idx s) s)) = 0).
      { destruct (next_steps c _ S') as [[r [s1 [E2 _]]]| ->]; [|apply turns_none; [exact S'|cbn; lia]].
        exfalso. unfold next in Z. rewrite E2 in Z. cbn [obind] in Z. destruct (dispatch c r); discriminate. }
      inversion W; subst; try congruence. }
    pose proof (next_at_most c s S). lia.
Qed.
Lemma labour_exists c s : sane s -> exists n, labour c s n.
Proof.
  intros S. destruct (runs_exists c s S) as [l [e [R _]]]. clear S. induction R as [s s' E|s E|s E|s a s1 l e E R IH].
  - eexists. eapply labour_end, E.
  - eexists. eapply labour_panic, E.
  - eexists. eapply labour_ub, E.
  - destruct IH as [n W]. eexists. eapply labour_item; [exact E|exact W].
Qed.

(* ------------------------------------------------------------- languages *)
Lemma language_steps c l : snd (InstallableLanguages_next_counted c l) <= 2 * len (strings (il_structure l)).
Proof.
  unfold InstallableLanguages_next_counted. pose proof (costs_look (il_structure l) (il_index l)) as K. unfold costs in K.
  unfold pay_bind. cbn [fst free snd]. destruct (u_add c 8 (il_index l) 1); cbn [snd]; [|lia..].
  rewrite erase_look_ok. unfold pay_map. cbn [snd free]. rewrite N.add_0_r, N.add_0_l. rewrite N.mul_1_l in K. exact K.
Qed.
Lemma browsing_at_most c l n :
  overflow_checks c = true \/ (forall t, find_string (il_structure l) 255 <> Ok t) -> il_index l <= 255 -> browsing c l n ->
  n <= (256 - il_index l) * (2 * len (strings (il_structure l))).
Proof.
  intros H I B. induction B as [l l' E|l E|l t l' n E B IH].
  - pose proof (language_steps c l). nia.
  - pose proof (language_steps c l). nia.
  - unfold InstallableLanguages_next, u_add in E.
    destruct (N.ltb_spec (il_index l + 1) (2 ^ 8)) as [L|L]; cbn [obind] in E.
    + injection E as _ <-. cbn [il_structure il_index] in *. change (2 ^ 8) with 256 in L.
      specialize (IH H ltac:(lia)). pose proof (language_steps c l). nia.
    + change (2 ^ 8) with 256 in L. assert (X : il_index l = 255) by lia.
      destruct H as [H|H]; [rewrite H in E; discriminate|]. exfalso.
      destruct (overflow_checks c); [discriminate|]. cbn [obind] in E. injection E as E _. rewrite X in E.
      destruct (find_string (il_structure l) 255) as [u|e] eqn:F; [|discriminate]. exact (H u eq_refl).
Qed.

(* k names of one letter *)
Definition letters (k : N) : list N := terminated (repeat [65] (N.to_nat k)) ++ [0].
Lemma letter_good : good_string [65].
Proof. split; [discriminate|]. split; [intros [E|[]]; discriminate|]. now apply from_utf8_iff. Qed.
Lemma letters_len n : len (terminated (repeat [65] n)) = 2 * N.of_nat n.
Proof.
  induction n as [|n IH]; [reflexivity|]. cbn [repeat]. rewrite terminated_cons. lens. rewrite IH. lia.
Qed.
Lemma nth_past before : forall s, Forall good_string before -> rest s = terminated before ++ [0] ->
  fst (strings_nth_counted (length before) s) = None /\
  snd (strings_nth_counted (length before) s) + len before = 2 * len (terminated before) + 1.
Proof.
  induction before as [|u before IH]; intros s F E.
  - cbn [length strings_nth_counted]. unfold strings_next_counted.
    destruct (slice_get_from (bytes s) (start s)) as [q|] eqn:G.
    + assert (R : q = rest s). { unfold slice_get_from in G. destruct (start s <=? len (bytes s)); [|discriminate]. injection G as <-. reflexivity. }
      rewrite R, E. split; reflexivity.
    + exfalso. unfold slice_get_from in G. destruct (N.leb_spec (start s) (len (bytes s))); [discriminate|].
      unfold rest in E. apply (f_equal len) in E. rewrite len_drop, len_app in E. change (len [0]) with 1 in E. lia.
  - inversion F as [|? ? G1 F1]; subst. rewrite terminated_cons, <- app_assoc in E. cbn [app] in E.
    cbn [length strings_nth_counted]. rewrite (strings_next_good s u _ E G1).
    specialize (IH (advance s (len u + 1)) F1).
    rewrite rest_advance, E, ends_drop in IH by (right; eauto). specialize (IH eq_refl).
    destruct (strings_nth_counted (length before) (advance s (len u + 1))) as [o k]. cbn [fst snd] in *.
    destruct IH as [IH1 IH2]. split; [exact IH1|].
    rewrite terminated_cons. replace (len (u :: before)) with (1 + len before) by (unfold len; cbn [length]; lia). lens. lia.
Qed.
Lemma letters_there r k i : strings r = letters k -> 1 <= i <= k ->
  find_string r i = Ok [65] /\ snd (find_string_counted r i) = 3 * i.
Proof.
  intros E [I1 I2]. set (b := repeat ([65] : text) (N.to_nat (i - 1))).
  assert (FB : Forall good_string b) by (apply Forall_forall; intros x X; apply repeat_spec in X; subst x; apply letter_good).
  assert (LB : @len text b = i - 1) by (unfold b, len; rewrite repeat_length; lia).
  assert (EE : exists tl, strings r = terminated b ++ [65] ++ 0 :: tl).
  { exists (letters (k - i)). rewrite E. unfold letters, b.
    replace (N.to_nat k) with (N.to_nat (i - 1) + S (N.to_nat (k - i)))%nat by lia.
    rewrite repeat_app. unfold terminated. rewrite map_app, concat_app, <- app_assoc. f_equal. }
  destruct EE as [tl EE]. split.
  - apply find_string_ok. right. split; [lia|]. exists b, (0 :: tl). split; [exact (eq_trans (f_equal (fun x => x + 1) LB) (N.sub_add 1 i I1))|]. split; [exact FB|]. split; [apply letter_good|].
    split; [exact EE|]. right. now exists tl.
  - pose proof (find_string_exactly r b [65] tl FB letter_good EE) as H. rewrite LB in H.
    unfold b in H. rewrite letters_len in H. change (len [65]) with 1 in H. replace (i - 1 + 1) with i in H by lia. lia.
Qed.
Lemma letters_over r k : strings r = letters k ->
  (forall t, find_string r (k + 1) <> Ok t) /\ snd (find_string_counted r (k + 1)) = 3 * k + 1.
Proof.
  intros E. set (b := repeat ([65] : text) (N.to_nat k)).
  assert (FB : Forall good_string b) by (apply Forall_forall; intros x X; apply repeat_spec in X; subst x; apply letter_good).
  assert (LB : @len text b = k) by (unfold b, len; rewrite repeat_length; lia).
  destruct (nth_past b (raw_strings r) FB) as [H1 H2]; [unfold raw_strings; rewrite rest_new; exact E|].
  rewrite LB in H2. replace (len (terminated b)) with (2 * k) in H2 by (unfold b; rewrite letters_len; lia).
  assert (X : find_string_counted r (k + 1) = (Err (InvalidStringIndex (info r) (handle r) (k + 1)), 3 * k + 1)).
  { unfold find_string_counted. replace (k + 1 =? 0) with false by lia.
    replace (N.to_nat (k + 1 - 1)) with (length b) by (unfold b; rewrite repeat_length; lia).
    destruct (strings_nth_counted (length b) (raw_strings r)) as [o m]. cbn [fst snd] in *. subst o. f_equal. lia. }
  rewrite <- find_string_erase, X. split; [discriminate|reflexivity].
Qed.
Lemma language_step c r i : i < 255 ->
  InstallableLanguages_next c {| il_structure := r; il_index := i |} =
    Val (ok (find_string r i), {| il_structure := r; il_index := i + 1 |}) /\
  snd (InstallableLanguages_next_counted c {| il_structure := r; il_index := i |}) = snd (find_string_counted r i).
Proof.
  intros H. unfold InstallableLanguages_next, InstallableLanguages_next_counted, u_add. cbn [il_structure il_index].
  replace (i + 1 <? 2 ^ 8) with true by (symmetry; apply N.ltb_lt; lia). split; [reflexivity|].
  unfold pay_bind at 1. cbn [fst free snd]. unfold pay_bind. rewrite erase_look_ok. unfold pay_map, look.
  destruct (find_string_counted r i). cbn [snd free]. lia.
Qed.
Lemma letters_browsing c r k : strings r = letters k -> k <= 253 -> forall d i, 1 <= i -> i + N.of_nat d = k + 1 ->
  exists n, browsing c {| il_structure := r; il_index := i |} n /\ 2 * n + 3 * i * (i - 1) = 3 * k * (k + 1) + 2 * (3 * k + 1).
Proof.
  intros E K. induction d as [|d IH]; intros i I1 I2.
  - assert (X : i = k + 1) by lia. subst i. destruct (letters_over r k E) as [L1 L2].
    destruct (language_step c r (k + 1) ltac:(lia)) as [N1 N2].
    eexists. split.
    + eapply browsing_end. rewrite N1. destruct (find_string r (k + 1)) as [t|e] eqn:F; [exfalso; exact (L1 t eq_refl)|reflexivity].
    + rewrite N2, L2. nia.
  - destruct (IH (i + 1) ltac:(lia) ltac:(lia)) as [n [B Q]]. destruct (letters_there r k i E ltac:(lia)) as [L1 L2].
    destruct (language_step c r i ltac:(lia)) as [N1 N2].
    eexists. split.
    + eapply browsing_item; [rewrite N1, L1; reflexivity|exact B].
    + rewrite N2, L2. nia.
Qed.
