(* Proofs for C42-C44 *)
From Coq Require Import String.
From Coq Require Import ZArith Lia ZifyBool ZifyNat ZifyN.
From Verif Require Import Base G_Enums M_Raw M_Entry M_Bitfield M_Bios M_System M_BaseBoard M_Enclosure M_Processor M_Cache
  M_PortConnector M_SystemSlots M_Strings M_GroupAssociations M_SystemEventLog M_PhysicalMemoryArray M_MemoryDevice
  M_Memory M_PortableBattery M_Iter Spec S_Iter S_Decode S_System S_Hardware S_Lists S_EventLog S_Memory S_Safety
  L_Base L_Iter L_After L_Frame L_Decode L_System L_Enclosure L_Hardware L_Cache L_Slots L_Lists L_EventLog L_Memory L_Array L_Battery.
Local Open Scope N_scope.
Ltac Zify.zify_post_hook ::= Z.div_mod_to_equations.

Lemma read_packed_beyond c n r : beyond c n r -> read_packed c n r = UB.
Proof.
  unfold beyond, read_packed. destruct (flat_memory c); cbn [andb]; intros H; lens;
  repeat match goal with |- context [?a <=? ?b] => destruct (N.leb_spec a b) end; lens; reflexivity || lia.
Qed.
Lemma read_packed_within c n r : ~ beyond c n r -> exists p, read_packed c n r = Val p.
Proof.
  unfold beyond, read_packed. destruct (flat_memory c); cbn [andb]; intros H;
  repeat match goal with |- context [?a <=? ?b] => destruct (N.leb_spec a b) end; lens; eauto; lia.
Qed.
Lemma beyond_dec c n r : beyond c n r \/ ~ beyond c n r.
Proof. unfold beyond. destruct (flat_memory c); lia. Qed.

Definition returns {A} (x : out A) : Prop := exists o, x = Val o.

Ltac packed :=
  split; intros H; sinces; versions; try vlia;
  [..];
  match goal with
  | H : beyond ?c ?n ?r |- _ => rewrite (read_packed_beyond c n r H); reflexivity
  | H : ~ beyond ?c ?n ?r |- _ => destruct (read_packed_within c n r H) as [p ->]; cbn [obind]; finds; eexists; reflexivity
  end.

Lemma Bios_beyond c r : (beyond c (Bios_area (version r)) r -> Bios_try_from c r = UB) /\
  (~ beyond c (Bios_area (version r)) r -> returns (Bios_try_from c r)).
Proof. unfold Bios_try_from, Bios_area, returns. packed. Qed.
Lemma System_beyond c r : (beyond c (System_area (version r)) r -> System_try_from c r = UB) /\
  (~ beyond c (System_area (version r)) r -> returns (System_try_from c r)).
Proof. unfold System_try_from, System_area, returns. packed. Qed.
Lemma Processor_beyond c r : (beyond c (Processor_area (version r)) r -> Processor_try_from c r = UB) /\
  (~ beyond c (Processor_area (version r)) r -> returns (Processor_try_from c r)).
Proof. unfold Processor_try_from, Processor_area, returns. packed. Qed.
Lemma BiosLanguage_beyond c r : (beyond c (BiosLanguage_area (version r)) r -> BiosLanguage_try_from c r = UB) /\
  (~ beyond c (BiosLanguage_area (version r)) r -> returns (BiosLanguage_try_from c r)).
Proof. unfold BiosLanguage_try_from, BiosLanguage_area, returns. packed. Qed.
Lemma PortConnector_beyond c r : (beyond c 5 r -> PortConnector_try_from c r = UB) /\
  (~ beyond c 5 r -> returns (PortConnector_try_from c r)).
Proof. unfold PortConnector_try_from, returns. packed. Qed.
Lemma BaseBoard_beyond c r : (beyond c 10 r -> BaseBoard_try_from c r = UB) /\
  (~ beyond c 10 r -> returns (BaseBoard_try_from c r)).
Proof.
  unfold BaseBoard_try_from, returns. split; intros H; [rewrite (read_packed_beyond c 10 r H); reflexivity|].
  destruct (read_packed_within c 10 r H) as [p ->]. cbn [obind].
  destruct (4 <? len (data r)); destruct (6 <? len (data r)); unfold some_if; finds; eexists; reflexivity.
Qed.
Lemma Cache_beyond c r : from_version (version r) 2 1 ->
  (beyond c (Cache_area (version r)) r -> Cache_try_from c r = UB) /\
  (~ beyond c (Cache_area (version r)) r -> returns (Cache_try_from c r)).
Proof.
  intros HV. unfold Cache_try_from, Cache_area, returns.
  split; intros H; sinces; versions; try vlia;
  match goal with
  | H : beyond ?c ?n ?r |- _ => rewrite (read_packed_beyond c n r H); reflexivity
  | H : ~ beyond ?c ?n ?r |- _ => destruct (read_packed_within c n r H) as [p ->]; cbn [obind];
     destruct (configuration_total (at_ 1 2 p)) as [x ->]; cbn [obind]; finds; eexists; reflexivity
  end.
Qed.

(* ------------------------------------------------------- one structure, all types *)

Lemma omap_val {A B} (f : A -> B) x : omap f x = UB <-> x = UB.
Proof. destruct x; cbn; split; intros; congruence. Qed.
Lemma omap_panic {A B} (f : A -> B) x : omap f x = Panic <-> x = Panic.
Proof. destruct x; cbn; split; intros; congruence. Qed.
Lemma map_ok_ub {A} (f : A -> Structure) x : map_ok f x = UB <-> x = UB.
Proof. apply omap_val. Qed.
Lemma map_ok_panic {A} (f : A -> Structure) x : map_ok f x = Panic <-> x = Panic.
Proof. apply omap_panic. Qed.

Lemma returns_no_ub {A} (x : out A) : returns x -> x <> UB.
Proof. intros [o ->]. discriminate. Qed.
Lemma returns_no_panic {A} (x : out A) : returns x -> x <> Panic.
Proof. intros [o ->]. discriminate. Qed.

Lemma ub_iff {A} c n r (x : out A) : (beyond c n r -> x = UB) /\ (~ beyond c n r -> returns x) ->
  x = UB <-> exists m, Some n = Some m /\ beyond c m r.
Proof.
  intros [H1 H2]. split.
  - intros ->. exists n. split; [reflexivity|]. destruct (beyond_dec c n r); [assumption|].
    destruct (H2 H) as [o E]. discriminate E.
  - intros [m [E B]]. injection E as <-. auto.
Qed.
Lemma panic_never {A} c n r (x : out A) : (beyond c n r -> x = UB) /\ (~ beyond c n r -> returns x) -> x <> Panic.
Proof.
  intros [H1 H2] ->. destruct (beyond_dec c n r) as [B|B]; [specialize (H1 B)|destruct (H2 B) as [o E]]; discriminate.
Qed.

Lemma returns_ub_iff {A} r c (x : out A) : layout_size r = None -> returns x -> x = UB <-> decoder_overreads c r.
Proof.
  intros L [o ->]. split; [discriminate|]. intros [n [E _]]. congruence.
Qed.

Lemma well_formed_log_total c r : all_bytes (data r) -> SystemEventLog_try_from c r <> UB.
Proof. intros H E. destruct (SystemEventLog_total c r H) as [P|[o P]]; congruence. Qed.
Lemma array_no_ub c r : PhysicalMemoryArray_try_from c r <> UB.
Proof. intros E. destruct (array_total c r) as [P|[o P]]; congruence. Qed.
Lemma group_no_ub c r : length_ r = 4 + len (data r) -> length_ r < 256 -> GroupAssociations_try_from c r <> UB.
Proof.
  intros H1 H2. destruct (N.leb_spec 5 (length_ r)).
  - destruct (group_returns c r H1) as [o ->]; [lia|discriminate].
  - rewrite group_short by assumption. destruct (overflow_checks c); discriminate.
Qed.
Lemma group_panic c r : length_ r = 4 + len (data r) -> length_ r < 256 ->
  GroupAssociations_try_from c r = Panic <-> overflow_checks c = true /\ length_ r < 5.
Proof.
  intros H1 H2. destruct (N.leb_spec 5 (length_ r)).
  - destruct (group_returns c r H1) as [o ->]; [lia|]. split; [discriminate|lia].
  - rewrite group_short by assumption. destruct (overflow_checks c); (split; [intros E|intros [E _]]); try discriminate; auto.
Qed.

Ltac no_layout := let n := fresh in let E := fresh in intros [n [E _]]; discriminate E.

Lemma dispatch_ub c r : all_bytes (data r) -> length_ r = 4 + len (data r) -> length_ r < 256 ->
  (dispatch c r = UB <-> decoder_overreads c r).
Proof.
  intros HB H4 H256. unfold dispatch, decoder_overreads, layout_size.
  destruct (info r) eqn:I; try (rewrite map_ok_ub); try (split; [discriminate|no_layout]).
  - apply ub_iff, Bios_beyond.
  - apply ub_iff, System_beyond.
  - apply ub_iff, BaseBoard_beyond.
  - split; [intros E; destruct (Enclosure_no_ub c r E)|no_layout].
  - apply ub_iff, Processor_beyond.
  - destruct (since (version r) 2 1) eqn:V.
    + apply since_iff in V. apply ub_iff, Cache_beyond, V.
    + split; [|no_layout]. apply since_not in V. apply (Cache_panics c r) in V. congruence.
  - apply ub_iff, PortConnector_beyond.
  - split; [intros E; destruct (returns_no_ub _ (SystemSlots_total c r HB) E)|no_layout].
  - split; [intros E; destruct (returns_no_ub _ (options_returns c r) E)|no_layout].
  - split; [intros E; destruct (group_no_ub c r H4 H256 E)|no_layout].
  - split; [intros E; destruct (well_formed_log_total c r HB E)|no_layout].
  - apply ub_iff, BiosLanguage_beyond.
  - split; [intros E; destruct (array_no_ub c r E)|no_layout].
  - split; [intros E; destruct (returns_no_ub _ (MemoryDevice_total c r) E)|no_layout].
  - split; [intros E; destruct (returns_no_ub _ (MemoryError32_total c r) E)|no_layout].
  - split; [intros E; destruct (returns_no_ub _ (MemoryArrayMappedAddress_total c r) E)|no_layout].
  - split; [intros E; destruct (returns_no_ub _ (MemoryDeviceMappedAddress_total c r) E)|no_layout].
  - split; [intros E; destruct (returns_no_ub _ (BuiltInPointingDevice_total c r) E)|no_layout].
  - split; [intros E; destruct (returns_no_ub _ (PortableBattery_total c r) E)|no_layout].
Qed.

Ltac never H := split; [intros E; destruct (H E)|tauto].
Lemma dispatch_panic c r : all_bytes (data r) -> length_ r = 4 + len (data r) -> length_ r < 256 ->
  (dispatch c r = Panic <-> decoder_panics c r).
Proof.
  intros HB H4 H256. unfold dispatch, decoder_panics.
  destruct (info r) eqn:I; try (rewrite map_ok_panic); try (split; [discriminate|tauto]).
  - never (panic_never _ _ _ _ (Bios_beyond c r)).
  - never (panic_never _ _ _ _ (System_beyond c r)).
  - never (panic_never _ _ _ _ (BaseBoard_beyond c r)).
  - apply Enclosure_panic.
  - never (panic_never _ _ _ _ (Processor_beyond c r)).
  - apply Cache_panics.
  - never (panic_never _ _ _ _ (PortConnector_beyond c r)).
  - never (returns_no_panic _ (SystemSlots_total c r HB)).
  - never (returns_no_panic _ (options_returns c r)).
  - apply group_panic; assumption.
  - apply SystemEventLog_panic, HB.
  - never (panic_never _ _ _ _ (BiosLanguage_beyond c r)).
  - apply array_panic.
  - never (returns_no_panic _ (MemoryDevice_total c r)).
  - never (returns_no_panic _ (MemoryError32_total c r)).
  - never (returns_no_panic _ (MemoryArrayMappedAddress_total c r)).
  - never (returns_no_panic _ (MemoryDeviceMappedAddress_total c r)).
  - never (returns_no_panic _ (BuiltInPointingDevice_total c r)).
  - never (returns_no_panic _ (PortableBattery_total c r)).
Qed.

(* ------------------------------------------------------------ reading on, flat *)

Lemma read_packed_stretched c n r : flat_memory c = true -> read_packed c n r = read_packed c n (stretched r).
Proof.
  intros F. destruct (N.leb_spec n (len (data r) + len (after r))) as [H|H]; [apply read_packed_flat; assumption|].
  rewrite !read_packed_beyond; [reflexivity| |]; unfold beyond; rewrite F; cbn [stretched data after]; lens; try lia.
Qed.

Definition overlaid : list InfoType :=
  [InfoType_Bios; InfoType_System; InfoType_Processor; InfoType_Cache; InfoType_PortConnector].

Lemma dispatch_stretched c r : flat_memory c = true -> In (info r) overlaid -> dispatch c r = dispatch c (stretched r).
Proof.
  intros F H. unfold dispatch. cbn [stretched info]. cbn [overlaid In] in H.
  destruct H as [<-|[<-|[<-|[<-|[<-|[]]]]]]; f_equal;
  unfold Bios_try_from, System_try_from, Processor_try_from, Cache_try_from, PortConnector_try_from;
  rewrite ?(read_packed_stretched c _ r F); reflexivity.
Qed.
Lemma language_stretched c r s : flat_memory c = true -> BiosLanguage_try_from c r = Val (Ok s) ->
  exists s', BiosLanguage_try_from c (stretched r) = Val (Ok s') /\ language_handle s' = language_handle s /\
    language_flags s' = language_flags s /\ language_current_language s' = language_current_language s.
Proof.
  intros F. unfold BiosLanguage_try_from. change (version (stretched r)) with (version r).
  rewrite !(read_packed_stretched c _ r F). versions;
  (destruct (read_packed c _ (stretched r)); cbn [obind]; intros E; try discriminate;
   injection E as <-; eexists; repeat split; reflexivity).
Qed.

(* -------------------------------------------------------------------- tables *)

Lemma well_sized_safe c r : all_bytes (data r) -> length_ r = 4 + len (data r) -> length_ r < 256 -> well_sized r ->
  exists o, dispatch c r = Val o.
Proof.
  intros HB H4 H256 W. destruct (dispatch c r) eqn:E; [eauto| |]; exfalso.
  - apply dispatch_panic in E; try assumption. unfold decoder_panics, well_sized in *.
    destruct (info r); try tauto; vlia.
  - apply dispatch_ub in E; try assumption. destruct E as [n [L B]].
    assert (len (data r) < n) as B' by (unfold beyond in B; destruct (flat_memory c); lia).
    unfold layout_size, well_sized in *. destruct (info r); try discriminate;
    try (destruct (since (version r) 2 1)); try discriminate; injection L as <-; vlia.
Qed.

Lemma here_shape s r : sane s -> here s r -> all_bytes (data r) /\ length_ r = 4 + len (data r) /\ length_ r < 256.
Proof.
  intros [HB _] [[pre [post [k [h0 [h1 [E [_ [L _]]]]]]]] _]. rewrite E in HB.
  apply all_bytes_app in HB. destruct HB as [_ HB]. apply all_bytes_app in HB. destruct HB as [H4 HB].
  apply all_bytes_app in HB. split; [apply HB|]. split; [exact L|].
  inversion H4 as [|? ? _ H5]. inversion H5 as [|? ? H6 _]. exact H6.
Qed.

Lemma next_panic_exact c s : sane s ->
  next c s = Panic <-> framing_panics s \/ exists r, here s r /\ decoder_panics c r.
Proof.
  intros HS. rewrite next_panic_iff by exact HS.
  split; (intros [H|[r [H D]]]; [left; exact H|right; exists r; split; [exact H|]]);
  destruct (here_shape s r HS H) as [A [B C]]; [apply dispatch_panic in D|apply dispatch_panic]; assumption.
Qed.
Lemma next_ub_exact c s : sane s ->
  next c s = UB <-> framing_overreads s \/ exists r, here s r /\ decoder_overreads c r.
Proof.
  intros HS. rewrite next_ub_iff by exact HS.
  split; (intros [H|[r [H D]]]; [left; exact H|right; exists r; split; [exact H|]]);
  destruct (here_shape s r HS H) as [A [B C]]; [apply dispatch_ub in D|apply dispatch_ub]; assumption.
Qed.

Lemma reached_sane c s s1 : sane s -> reached c s s1 -> sane s1.
Proof.
  intros HS H. induction H as [|s1 x s2 _ IH H]; [exact HS|]. destruct (next_sane c s1 _ s2 IH H). assumption.
Qed.
Lemma reached_runs c s s1 l e : reached c s s1 -> runs (next c) s l e -> exists l1, runs (next c) s1 l1 e.
Proof.
  intros H R. induction H as [|s1 x s2 _ IH H]; [eauto|]. destruct IH as [l1 R1].
  inversion R1; subst; try congruence.
  match goal with [ A : next c s1 = Val (Some _, ?s3), B : runs _ ?s3 _ _ |- _ ] =>
    rewrite A in H; injection H as _ <-; eauto end.
Qed.
Lemma reached_cons c s x s1 s2 : next c s = Val (Some x, s1) -> reached c s1 s2 -> reached c s s2.
Proof.
  intros H R. induction R as [|s2 y s3 _ IH H2]; [econstructor; [constructor|eassumption]|econstructor; eassumption].
Qed.
Lemma runs_reached c s l e : runs (next c) s l e -> exists s1, reached c s s1 /\
  match e with Exhausted s2 => next c s1 = Val (None, s2) | Panicked => next c s1 = Panic | Undefined => next c s1 = UB end.
Proof.
  intros R. induction R as [s s' H|s H|s H|s a s1 l e H _ [s2 [IH E]]];
  [exists s; split; [constructor|assumption]..|].
  exists s2. split; [eapply reached_cons; eassumption|exact E].
Qed.

Lemma run_panics c s l e : sane s -> runs (next c) s l e ->
  (e = Panicked <-> exists s1, reached c s s1 /\ (framing_panics s1 \/ exists r, here s1 r /\ decoder_panics c r)).
Proof.
  intros HS R. split.
  - intros ->. destruct (runs_reached c s l _ R) as [s1 [H1 H2]]. exists s1. split; [exact H1|].
    apply next_panic_exact; [eapply reached_sane; eassumption|exact H2].
  - intros [s1 [H1 H2]]. apply (next_panic_exact c s1) in H2; [|eapply reached_sane; eassumption].
    destruct (reached_runs c s s1 l e H1 R) as [l1 R1]. inversion R1; subst; congruence.
Qed.
Lemma run_overreads c s l e : sane s -> runs (next c) s l e ->
  (e = Undefined <-> exists s1, reached c s s1 /\ (framing_overreads s1 \/ exists r, here s1 r /\ decoder_overreads c r)).
Proof.
  intros HS R. split.
  - intros ->. destruct (runs_reached c s l _ R) as [s1 [H1 H2]]. exists s1. split; [exact H1|].
    apply next_ub_exact; [eapply reached_sane; eassumption|exact H2].
  - intros [s1 [H1 H2]]. apply (next_ub_exact c s1) in H2; [|eapply reached_sane; eassumption].
    destruct (reached_runs c s s1 l e H1 R) as [l1 R1]. inversion R1; subst; congruence.
Qed.

Lemma shown_shape v ss rest r : Forall encodable_ok ss -> all_bytes (table ss ++ rest) -> In r (shown v ss rest) ->
  all_bytes (data r) /\ length_ r = 4 + len (data r) /\ length_ r < 256.
Proof.
  induction ss as [|s ss IH]; intros HF HB HI; [destruct HI|]. inversion HF as [|? ? Hs HF']; subst.
  cbn [table map concat] in HB. rewrite <- app_assoc in HB. apply all_bytes_app in HB. destruct HB as [HB1 HB2].
  cbn [shown] in HI. destruct HI as [<-|HI].
  - destruct Hs as [_ [_ [Hl _]]]. cbn [raw_of data length_]. split; [|split; [reflexivity|lia]].
    unfold encode in HB1. apply all_bytes_app in HB1. destruct HB1 as [_ HB1]. apply all_bytes_app in HB1. apply HB1.
  - destruct ((3 <=? major v) && (e_type s =? 127)); [destruct HI|]. apply IH; assumption.
Qed.

Lemma table_safe c e ss rest :
  Forall encodable_ok ss -> ep_smbios_len e = len (table ss) ->
  all_bytes (table ss ++ rest) -> len (table ss ++ rest) + 260 <= 2 ^ 32 ->
  Forall well_sized (shown (ep_to_version e) ss rest) ->
  exists items s', Forall2 (fun r x => dispatch c r = Val x) (shown (ep_to_version e) ss rest) items /\
    drains (next c) (structures e (table ss ++ rest)) items s'.
Proof.
  intros H1 H2 H3 H4 H5.
  assert (exists items, Forall2 (fun r x => dispatch c r = Val x) (shown (ep_to_version e) ss rest) items) as [items HI].
  { assert (HW : Forall (fun r => exists x, dispatch c r = Val x) (shown (ep_to_version e) ss rest)).
    { rewrite Forall_forall in *. intros r Hr.
      destruct (shown_shape (ep_to_version e) ss rest r) as [A [B C]]; [rewrite Forall_forall; exact H1|assumption..|].
      apply well_sized_safe; auto. }
    clear -HW. induction HW as [|r l [x Hx] _ [items IH]]; [exists []; constructor|exists (x :: items); constructor; assumption]. }
  destruct (drains_table c e ss rest items H1 H2 H3 H4 HI) as [s' [D _]]. eauto.
Qed.

Lemma run_safe c s : sane s ->
  (forall s1, reached c s s1 -> ~ framing_panics s1 /\ ~ framing_overreads s1 /\ forall r, here s1 r -> well_sized r) ->
  exists l s', drains (next c) s l s'.
Proof.
  intros HS H. destruct (runs_exists c s HS) as [l [e [R _]]].
  assert (Q : forall s1, reached c s s1 -> next c s1 <> Panic /\ next c s1 <> UB).
  { intros s1 H1. destruct (H s1 H1) as [A [B D]]. assert (S1 := reached_sane c s s1 HS H1).
    split; intros E; [apply next_panic_iff in E|apply next_ub_iff in E]; try assumption;
    destruct E as [E|[r [Hr E]]]; try tauto; destruct (here_shape s1 r S1 Hr) as [X [Y Z]];
    destruct (well_sized_safe c r X Y Z (D r Hr)) as [o O]; congruence. }
  clear H HS. revert Q. induction R as [s s' H|s H|s H|s a s1 l e H _ IH]; intros Q.
  - exists [], s'. constructor. exact H.
  - destruct (Q s (reached_start c s)). contradiction.
  - destruct (Q s (reached_start c s)). contradiction.
  - destruct IH as [l1 [s2 D]]; [intros s2 H2; apply Q; eapply reached_cons; eassumption|].
    exists (a :: l1), s2. econstructor; eassumption.
Qed.

Lemma always_returns_ok c r : all_bytes (data r) -> In (info r) always_returns -> exists o, dispatch c r = Val o.
Proof.
  intros HB H. destruct (dispatch c r) eqn:E; [eauto| |]; exfalso; revert E; unfold dispatch; cbn [always_returns In] in H;
  (destruct H as [<-|[<-|[<-|[<-|[<-|[<-|[<-|[<-|[<-|[]]]]]]]]]]; rewrite ?map_ok_panic, ?map_ok_ub;
  [pose proof (SystemSlots_total c r HB) as [o Q]|discriminate|pose proof (options_returns c r) as [o Q]
  |pose proof (MemoryDevice_total c r) as [o Q]|pose proof (MemoryError32_total c r) as [o Q]
  |pose proof (MemoryArrayMappedAddress_total c r) as [o Q]|pose proof (MemoryDeviceMappedAddress_total c r) as [o Q]
  |pose proof (BuiltInPointingDevice_total c r) as [o Q]|pose proof (PortableBattery_total c r) as [o Q]];
  rewrite Q; discriminate).
Qed.

Lemma other_returns c r : ~ In (type_number (info r)) decoded_types -> dispatch c r = Val (Ok (SOther r)).
Proof.
  unfold dispatch. destruct (info r); try reflexivity; intros H; exfalso; apply H; cbn; tauto.
Qed.
