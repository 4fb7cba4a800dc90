(* Lemmas for C12-C15 and C17: what a caller can tell from one call of next. *)
From Coq Require Import ZArith Lia ZifyBool ZifyNat ZifyN String.
From Verif Require Import Base G_Enums M_Raw M_Entry M_Bios M_System M_BaseBoard M_Enclosure
  M_Processor M_Cache M_PortConnector M_SystemSlots M_Strings M_GroupAssociations
  M_SystemEventLog M_PhysicalMemoryArray M_MemoryDevice M_Memory M_PortableBattery
  M_Iter Spec S_Iter L_Base L_Entry L_Strings L_Iter L_After.
Local Open Scope N_scope.
Ltac Zify.zify_post_hook ::= Z.div_mod_to_equations.

(* ---------------------------------------- decoders never report a framing error *)

Definition fine {A} (x : out (res A)) : Prop := forall e, x = Val (Err e) -> ~ framing_error e.

Lemma fine_obind {A B} (m : out A) (k : A -> out (res B)) : (forall a, fine (k a)) -> fine (obind m k).
Proof. intros H e. destruct m as [a| |]; cbn [obind]; [apply H|discriminate|discriminate]. Qed.
Lemma fine_rbind {A B} (m : out (res A)) (k : A -> out (res B)) :
  fine m -> (forall a, fine (k a)) -> fine (rbind m k).
Proof.
  intros HM H e. destruct m as [[a|e']| |]; cbn [rbind]; [apply H| |discriminate|discriminate].
  intros [= <-]. apply HM. reflexivity.
Qed.
Lemma fine_ok {A} (a : A) : fine (Val (Ok a)). Proof. intros e; discriminate. Qed.
Lemma fine_panic {A} : @fine A Panic. Proof. intros e; discriminate. Qed.
Lemma fine_ub {A} : @fine A UB. Proof. intros e; discriminate. Qed.
Lemma fine_find {A} (f : text -> A) r k : fine (Val (rmap f (find_string r k))).
Proof.
  unfold find_string, fine. destruct (k =? 0); [discriminate|].
  destruct (strings_nth _ _); cbn [rmap]; [discriminate|]. intros e [= <-] [].
Qed.
Lemma fine_find0 r k : fine (Val (find_string r k)).
Proof.
  unfold find_string, fine. destruct (k =? 0); [discriminate|].
  destruct (strings_nth _ _); [discriminate|]. intros e [= <-] [].
Qed.
Lemma fine_get c w o r : fine (get c w o r).
Proof.
  unfold get. apply fine_obind; intros a. apply fine_obind; intros b.
  destruct (_ =? w); [apply fine_ok|]. intros e [= <-] [].
Qed.
Lemma fine_get_string c o r : fine (get_string c o r).
Proof. unfold get_string. apply fine_rbind; [apply fine_get|]. intros; apply fine_find0. Qed.
Lemma fine_formatted {A} i h s l : @fine A (Val (Err (InvalidFormattedSectionLength i h s l))).
Proof. intros e [= <-] []. Qed.
Lemma fine_index {A} i h n : @fine A (Val (Err (InvalidStringIndex i h n))).
Proof. intros e [= <-] []. Qed.
Lemma fine_map_ok {A} (f : A -> Structure) x : fine x -> fine (map_ok f x).
Proof. intros H e. unfold map_ok, omap. destruct x as [[a|e']| |]; cbn [obind rmap]; try discriminate. intros [= <-]. apply H; reflexivity. Qed.

Ltac fine_step :=
  cbv zeta;
  first
  [ apply fine_ok | apply fine_panic | apply fine_ub | apply fine_find0 | apply fine_find
  | apply fine_get | apply fine_get_string | apply fine_formatted | apply fine_index
  | match goal with |- fine (rbind _ _) => apply fine_rbind; [|intros ?]
                  | |- fine (obind _ _) => apply fine_obind; intros ? end
  | match goal with |- fine (if ?b then _ else _) => destruct b
                  | |- fine (match ?x with _ => _ end) => destruct x end ].

Lemma fine_dispatch c r : fine (dispatch c r).
Proof.
  unfold dispatch. destruct (info r); try apply fine_ok; apply fine_map_ok.
  all: cbv beta delta [Bios_try_from System_try_from BaseBoard_try_from Enclosure_try_from Processor_try_from
    Cache_try_from PortConnector_try_from SystemSlots_try_from OemStrings_try_from
    SystemConfigurationOptions_try_from BiosLanguage_try_from GroupAssociations_try_from
    SystemEventLog_try_from PhysicalMemoryArray_try_from MemoryDevice_try_from MemoryError32_try_from
    MemoryArrayMappedAddress_try_from MemoryDeviceMappedAddress_try_from BuiltInPointingDevice_try_from
    PortableBattery_try_from some_if get_optional_uint get_uint].
  all: repeat fine_step.
Qed.

(* ------------------------------------------------------------ C12: what is final *)

Lemma none_forever_stay {S A} (next : S -> out (option A * S)) s :
  next s = Val (None, s) -> none_forever next s.
Proof. intros H n. induction n as [|n IH]; cbn [nones]; [exact I|]. exists s. auto. Qed.

Lemma none_final c s s' : sane s -> next c s = Val (None, s') -> none_forever (next c) s'.
Proof.
  intros HS H. destruct (next_none c s s' HS H) as [-> _]. apply none_forever_stay, H.
Qed.

Lemma stopped_forever c s p : sane s -> p + 260 <= 2 ^ 32 -> none_forever (next c) (stopped_at p s).
Proof.
  intros HS HP. apply none_forever_stay, stopped_none; [apply sane_stopped; assumption|].
  cbn [stopped_at smbios_len_ idx]. lia.
Qed.

Lemma dispatch_other c r x : dispatch c r = Val (Ok (SOther x)) -> x = r.
Proof.
  unfold dispatch, map_ok, omap.
  destruct (info r);
    repeat match goal with |- obind ?m _ = _ -> _ => destruct m as [[?|?]| |]; cbn [obind rmap]; try discriminate end;
    congruence.
Qed.

Lemma dispatch_end c r : info r = InfoType_End -> dispatch c r = Val (Ok (SOther r)).
Proof. unfold dispatch. intros ->. reflexivity. Qed.

Lemma next_item c s item s' : sane s -> next c s = Val (Some item, s') ->
  (exists e, item = Err e /\ framing_error e /\ s' = stopped_at (idx s) s) \/
  (exists r, here s r /\ dispatch c r = Val item /\
     s' = if (3 <=? major (smbios_version s)) && is_end (info r)
          then stopped_at (idx s + extent r) s else moved_to (idx s + extent r) s).
Proof.
  intros HS H. apply next_iff in H; [|exact HS]. inversion H; subst.
  - left. eexists. split; [reflexivity|]. split; [exact I|reflexivity].
  - left. eexists. split; [reflexivity|]. split; [exact I|reflexivity].
  - right. exists r. unfold here. auto.
Qed.

Lemma framing_final c s e s' : sane s -> next c s = Val (Some (Err e), s') -> framing_error e ->
  none_forever (next c) s'.
Proof.
  intros HS H HF. destruct (next_item c s _ s' HS H) as [[e' [E [_ ->]]]|[r [_ [D _]]]].
  - apply stopped_forever; [exact HS|]. apply HS.
  - destruct (fine_dispatch c r e D HF).
Qed.

Lemma decode_error_moves c s e s' : sane s -> next c s = Val (Some (Err e), s') -> ~ framing_error e ->
  exists r, here s r /\ s' = moved_to (idx s + extent r) s.
Proof.
  intros HS H HF. destruct (next_item c s _ s' HS H) as [[e' [[= <-] [F _]]]|[r [HR [D ->]]]]; [contradiction|].
  exists r. split; [exact HR|].
  destruct (is_end (info r)) eqn:EE; [|rewrite andb_false_r; reflexivity].
  rewrite dispatch_end in D; [discriminate|]. destruct (info r); try discriminate EE; reflexivity.
Qed.

Lemma success_moves c s x s' : sane s -> next c s = Val (Some (Ok x), s') ->
  exists r, here s r /\ dispatch c r = Val (Ok x) /\
  ((3 <= major (smbios_version s) /\ info r = InfoType_End /\ s' = stopped_at (idx s + extent r) s) \/
   (~ (3 <= major (smbios_version s) /\ info r = InfoType_End) /\ s' = moved_to (idx s + extent r) s)).
Proof.
  intros HS H. destruct (next_item c s _ s' HS H) as [[e' [E _]]|[r [HR [D ->]]]]; [discriminate|].
  exists r. split; [exact HR|]. split; [exact D|].
  destruct (N.leb_spec 3 (major (smbios_version s))); cbn [andb].
  - destruct (is_end (info r)) eqn:EE.
    + left. split; [assumption|]. split; [destruct (info r); try discriminate EE; reflexivity|reflexivity].
    + right. split; [|reflexivity]. intros [_ E]. rewrite E in EE. discriminate.
  - right. split; [|reflexivity]. lia.
Qed.

(* ------------------------------------------------------------------ C13: End *)

Lemma end_v3 c s r : sane s -> here s r -> info r = InfoType_End -> 3 <= major (smbios_version s) ->
  exists s', next c s = Val (Some (Ok (SOther r)), s') /\ none_forever (next c) s'.
Proof.
  intros HS [HF [H1 H2]] HE H3. exists (stopped_at (idx s + extent r) s). split.
  - rewrite (next_framed c s r HS HF H1 H2), (dispatch_end c r HE). cbn [obind]. rewrite HE.
    destruct (N.leb_spec 3 (major (smbios_version s))); [reflexivity|lia].
  - apply stopped_forever; [exact HS|]. apply (framed_end s r HF HS).
Qed.

Lemma end_v2 c s r : sane s -> here s r -> info r = InfoType_End -> major (smbios_version s) < 3 ->
  next c s = Val (Some (Ok (SOther r)), moved_to (idx s + extent r) s).
Proof.
  intros HS [HF [H1 H2]] HE H3.
  rewrite (next_framed c s r HS HF H1 H2), (dispatch_end c r HE). cbn [obind].
  destruct (N.leb_spec 3 (major (smbios_version s))); [lia|reflexivity].
Qed.

Lemma version_kept c s item s' : sane s -> next c s = Val (item, s') -> smbios_version s' = smbios_version s.
Proof.
  intros HS H. apply next_iff in H; [|exact HS]. inversion H; subst; try reflexivity.
  destruct (_ && _); reflexivity.
Qed.

Lemma end_last c s l e : sane s -> 3 <= major (smbios_version s) -> runs (next c) s l e ->
  forall l1 r l2, l = l1 ++ Ok (SOther r) :: l2 -> info r = InfoType_End ->
  l2 = [] /\ exists s', e = Exhausted s'.
Proof.
  intros HS HV R. revert HS HV. induction R as [s s' H|s H|s H|s a s1 l e H R IH]; intros HS HV l1 r l2 E HE;
    try (destruct l1; discriminate).
  pose proof (next_sane c s _ s1 HS H) as [HS1 _].
  pose proof (version_kept c s _ s1 HS H) as HV1.
  destruct l1 as [|b l1]; injection E as -> ->.
  - destruct (success_moves c s _ s1 HS H) as [r0 [HR [D K]]].
    apply dispatch_other in D. subst r0.
    destruct K as [[_ [_ ->]]|[K _]]; [|tauto].
    pose proof (framed_end s r (proj1 HR) HS) as [HB _].
    assert (HN : next c (stopped_at (idx s + extent r) s) = Val (None, stopped_at (idx s + extent r) s)).
    { apply stopped_none; [apply sane_stopped; assumption|]. cbn [stopped_at smbios_len_ idx]. lia. }
    split; [eapply runs_none_inv|eexists; eapply runs_none_end]; eassumption.
  - apply (IH HS1 ltac:(rewrite HV1; exact HV) l1 r l2 eq_refl HE).
Qed.

(* ------------------------------------------------------------- C14: crashes *)

Lemma next_panic_iff c s : sane s ->
  (next c s = Panic <-> framing_panics s \/ exists r, here s r /\ dispatch c r = Panic).
Proof.
  intros HS. rewrite next_iff by exact HS. split.
  - intros H. inversion H; subst.
    + left. split; [assumption|]. left. assumption.
    + left. split; [assumption|]. right. exists l.
      destruct (header_facts _ _ _ _ _ _ _ _ H0 H1) as [F1 [F2 [F3 _]]]. auto 10.
    + left. split; [assumption|]. right. exists l.
      destruct (header_facts _ _ _ _ _ _ _ _ H0 H1) as [F1 [F2 [F3 _]]]. split; [assumption|]. split; [assumption|]. split; [assumption|]. right. eauto.
    + right. exists r. unfold here. auto.
  - intros [[H1 [H2|[l [HB [H2 [H3 H4]]]]]]|[r [[HF [H1 H2]] D]]].
    + apply position_past_buffer; assumption.
    + destruct (header_at (buffer s) (idx s) H2) as [pre [k [l' [h0 [h1 [post [E L]]]]]]].
      destruct (header_facts _ _ _ _ _ _ _ _ E L) as [_ [_ [F3 _]]].
      rewrite F3 in HB. injection HB as ->.
      destruct H4 as [H4|[H4 [x [y H5]]]].
      * eapply length_past_buffer; eauto.
      * eapply length_below_header; eauto.
    + eapply decoder_panics; eauto.
Qed.

Lemma next_ub_iff c s : sane s ->
  (next c s = UB <-> framing_overreads s \/ exists r, here s r /\ dispatch c r = UB).
Proof.
  intros HS. rewrite next_iff by exact HS. split.
  - intros H. inversion H; subst.
    + left. split; assumption.
    + right. exists r. unfold here. auto.
  - intros [[H1 H2]|[r [[HF [H1 H2]] D]]].
    + apply header_past_buffer; assumption.
    + eapply decoder_overreads; eauto.
Qed.

Lemma sane_structures e b : all_bytes b -> len b + 260 <= 2 ^ 32 -> sane (structures e b).
Proof. intros H1 H2. split; [exact H1|]. cbn [structures idx buffer]. split; [lia|exact H2]. Qed.

(* ------------------------------------------------------------ C17: dispatch *)

Definition decoded_type (k : N) : bool := existsb (N.eqb k) decoded_types.

Lemma decoded_type_iff k : decoded_type k = true <-> In k decoded_types.
Proof.
  unfold decoded_type. rewrite existsb_exists. split.
  - intros [x [H E]]. apply N.eqb_eq in E. subst. exact H.
  - intros H. exists k. split; [exact H|]. apply N.eqb_refl.
Qed.

Lemma dispatch_variant c r k x : info r = InfoType_from k -> dispatch c r = Val (Ok x) ->
  variant_type x = if decoded_type k then Some k else None.
Proof.
  intros HI. unfold dispatch, map_ok, omap. rewrite HI.
  unfold InfoType_from.
  repeat match goal with |- context [if k =? ?v then _ else _] => destruct (N.eqb_spec k v) as [->|] end.
  all: try (match goal with |- obind ?m _ = _ -> _ => destruct m as [[?|?]| |]; cbn [obind rmap]; try discriminate end).
  all: try (intros [= <-]; reflexivity).
  all: repeat match goal with |- context [if ?b then _ else _] => destruct b eqn:? end.
  all: intros [= <-]; try reflexivity.
  all: exfalso; match goal with H : decoded_type _ = true |- _ => apply decoded_type_iff in H; cbn in H end; tauto || lia.
Qed.

Lemma dispatch_raw c r k : info r = InfoType_from k -> ~ In k decoded_types -> dispatch c r = Val (Ok (SOther r)).
Proof.
  intros HI HN. unfold dispatch. rewrite HI. unfold InfoType_from.
  repeat match goal with |- context [if k =? ?v then _ else _] => destruct (N.eqb_spec k v) as [->|] end.
  all: try reflexivity.
  all: try (exfalso; apply HN; cbn; tauto).
  all: repeat match goal with |- context [if ?b then _ else _] => destruct b eqn:? end; reflexivity.
Qed.

Lemma framed_kind v buf pos r : framed v buf pos r ->
  exists k, byte_at buf pos = Some k /\ info r = InfoType_from k.
Proof.
  intros [pre [post [k [h0 [h1 [E [L [_ [_ [HI _]]]]]]]]]]. exists k. split; [|exact HI].
  destruct (header_facts buf pre (data r ++ strings r ++ post) pos k (length_ r) h0 h1 E L) as [_ [F _]]. exact F.
Qed.

Lemma next_variant c s x s' : sane s -> next c s = Val (Some (Ok x), s') ->
  exists k, byte_at (buffer s) (idx s) = Some k /\
  (In k decoded_types -> variant_type x = Some k) /\
  (~ In k decoded_types -> exists r, here s r /\ x = SOther r).
Proof.
  intros HS H. destruct (success_moves c s x s' HS H) as [r [HR [D _]]].
  destruct (framed_kind _ _ _ _ (proj1 HR)) as [k [HK HI]].
  exists k. split; [exact HK|]. split.
  - intros HIn. rewrite (dispatch_variant c r k x HI D).
    apply decoded_type_iff in HIn. rewrite HIn. reflexivity.
  - intros HN. rewrite (dispatch_raw c r k HI HN) in D. injection D as <-. eauto.
Qed.

Lemma next_raw_type c s r k : sane s -> here s r -> byte_at (buffer s) (idx s) = Some k ->
  ~ In k decoded_types -> exists s', next c s = Val (Some (Ok (SOther r)), s').
Proof.
  intros HS [HF [H1 H2]] HK HN. destruct (framed_kind _ _ _ _ HF) as [k' [HK' HI]].
  rewrite HK in HK'. injection HK' as <-.
  rewrite (next_framed c s r HS HF H1 H2), (dispatch_raw c r k HI HN). cbn [obind]. eauto.
Qed.

Lemma InfoType_number k : type_number (InfoType_from k) = k.
Proof.
  unfold InfoType_from.
  repeat match goal with |- context [if k =? ?v then _ else _] => destruct (N.eqb_spec k v) as [->|]; [reflexivity|] end.
  reflexivity.
Qed.

Lemma InfoType_injective a b : InfoType_from a = InfoType_from b -> a = b.
Proof. intros H. rewrite <- (InfoType_number a), H. apply InfoType_number. Qed.
