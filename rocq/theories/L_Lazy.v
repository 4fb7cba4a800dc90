(* Proofs about the iterators over lists inside a structure and over bit fields. *)
From Coq Require Import ZArith Lia ZifyBool ZifyNat ZifyN.
From Coq Require Import String.
From Verif Require Import Base G_Enums M_Raw M_Bitfield M_Enclosure M_SystemSlots M_GroupAssociations M_SystemEventLog.
From Verif Require Import Spec S_Decode S_Lists S_EventLog L_Base L_Frame L_EventLog.
Ltac Zify.zify_post_hook ::= Z.div_mod_to_equations.
Local Open Scope N_scope.

Lemma group_finished s s' : lift_next GroupItems_next s = Val (None, s') -> none_forever (lift_next GroupItems_next) s'.
Proof.
  intros H. assert (s' = s) as ->.
  { unfold lift_next, GroupItems_next in H. destruct (slice_get (gi_data s) (gi_index s) (gi_index s + 3)); congruence. }
  apply none_forever_stay, H.
Qed.
Lemma peers_finished s s' : PeerDevices_next s = Val (None, s') -> none_forever PeerDevices_next s'.
Proof.
  intros H. assert (s' = s) as ->.
  { unfold PeerDevices_next in H. destruct (peer_chunks s); [congruence|].
    destruct (Device_from _); cbn [obind] in H; discriminate. }
  apply none_forever_stay, H.
Qed.
Lemma elements_finished c s s' : ContainedElements_next c s = Val (None, s') -> none_forever (ContainedElements_next c) s'.
Proof.
  intros H. assert (s' = s) as ->.
  { unfold ContainedElements_next in H. destruct (ce_chunks s); [congruence|].
    destruct (ContainedElement_from c _ _); cbn [obind] in H; discriminate. }
  apply none_forever_stay, H.
Qed.

Lemma iter_none c it it' : iter_next c it = Val (None, it') -> it' = it.
Proof.
  unfold iter_next. destruct (it_index it =? it_size it * 8); [congruence|].
  destruct (shl1 c 128 (it_index it)); cbn [obind]; [|discriminate|discriminate].
  destruct (index (it_layout it) (it_index it)); cbn [obind]; discriminate.
Qed.
Lemma iter_finished c s s' : iter_next c s = Val (None, s') -> none_forever (iter_next c) s'.
Proof. intros H. pose proof (iter_none c s s' H). subst s'. apply none_forever_stay, H. Qed.

Lemma significants_none c n : forall it it', significants_loop n c it = Val (None, it') -> iter_next c it' = Val (None, it').
Proof.
  induction n as [|n IH]; intros it it' H; cbn [significants_loop] in H; [discriminate|].
  destruct (iter_next c it) as [[[fl|] it1]| |] eqn:E; cbn [obind] in H; try discriminate.
  - destruct (is_reserved (type_ fl) || negb (is_set fl)); [exact (IH it1 it' H)|discriminate].
  - injection H as <-. pose proof (iter_none c it it1 E). subst it1. exact E.
Qed.
Lemma significants_finished c s s' : significants_next c s = Val (None, s') -> none_forever (significants_next c) s'.
Proof.
  intros H. apply none_forever_stay. unfold significants_next in *. apply significants_none in H.
  cbn [significants_loop]. rewrite H. reflexivity.
Qed.

Lemma reserved_none c n : forall rv fin rv', reserved_loop n c rv fin = Val (None, rv') ->
  iter_next c (rv_iter rv') = Val (None, rv_iter rv') /\ rv_desc rv' = None.
Proof.
  induction n as [|n IH]; intros rv fin rv' H; cbn [reserved_loop] in H; [discriminate|].
  destruct (iter_next c (rv_iter rv)) as [[[fl|] it1]| |] eqn:E; cbn [obind] in H; try discriminate.
  - destruct (type_ fl); destruct (rv_desc rv); try discriminate H; try exact (IH _ _ _ H).
    destruct (negb _); [discriminate H|exact (IH _ _ _ H)].
  - destruct (rv_desc rv); [discriminate H|]. injection H as <-. cbn [rv_iter rv_desc].
    pose proof (iter_none _ _ _ E). subst it1. auto.
Qed.
Lemma reserved_finished c s s' : reserved_next c s = Val (None, s') -> none_forever (reserved_next c) s'.
Proof.
  intros H. apply none_forever_stay. unfold reserved_next in *. apply reserved_none in H. destruct H as [H1 H2].
  cbn [reserved_loop]. rewrite H1. cbn [obind]. rewrite H2. f_equal. f_equal. destruct s' as [it d st].
  cbn [rv_desc] in H2. subst d. reflexivity.
Qed.

(* ---------------------------------------------------------------- counts *)

Lemma group_count n : forall s, (N.to_nat (len (gi_data s) - gi_index s) <= n)%nat ->
  exists l s', drains (lift_next GroupItems_next) s l s' /\ len l = (len (gi_data s) - gi_index s) / 3.
Proof.
  induction n as [|n IH]; intros s H.
  - exists [], s. split; [|unfold len at 1; cbn [length]; lia]. apply drains_nil.
    unfold lift_next, GroupItems_next, slice_get.
    destruct (gi_index s + 3 <=? len (gi_data s)) eqn:E; [lia|]. rewrite ?andb_false_r; reflexivity.
  - destruct (gi_index s + 3 <=? len (gi_data s)) eqn:E.
    + destruct (IH {| gi_data := gi_data s; gi_index := gi_index s + 3 |}) as [l [s' [D L]]];
        [cbn [gi_data gi_index]; lia|].
      eexists (_ :: l), s'. split.
      * eapply drains_cons; [|exact D]. unfold lift_next, GroupItems_next, slice_get. rewrite E.
        assert (EE : (gi_index s <=? gi_index s + 3) = true) by lia. rewrite EE. cbn [andb]. reflexivity.
      * unfold len in *. cbn [length gi_data gi_index] in *. lia.
    + exists [], s. split; [|unfold len at 1; cbn [length]; lia]. apply drains_nil.
      unfold lift_next, GroupItems_next, slice_get. rewrite E. rewrite ?andb_false_r; reflexivity.
Qed.

Lemma peers_count n : forall s, (length (peer_chunks s) <= n)%nat ->
  exists l e, runs PeerDevices_next s l e /\ len l = len (peer_chunks s) / 5 /\
    ((exists s', e = Exhausted s') <-> len (peer_chunks s) mod 5 = 0) /\ e <> Panicked.
Proof.
  induction n as [|n IH]; intros s H.
  - destruct (peer_chunks s) as [|b t] eqn:E; [|cbn [length] in H; lia].
    exists [], (Exhausted s). split; [apply runs_none; unfold PeerDevices_next; rewrite E; reflexivity|].
    split; [reflexivity|]. split; [|discriminate]. split; [reflexivity|eauto].
  - destruct (peer_chunks s) as [|b t] eqn:E.
    { exists [], (Exhausted s). split; [apply runs_none; unfold PeerDevices_next; rewrite E; reflexivity|].
      split; [reflexivity|]. split; [|discriminate]. split; [reflexivity|eauto]. }
    rewrite <- E in *.
    destruct (5 <=? len (peer_chunks s)) eqn:L.
    + destruct (IH {| peer_chunks := drop 5 (peer_chunks s) |}) as [l [e [R [C [F P]]]]].
      { cbn [peer_chunks]. unfold drop. rewrite skipn_length. unfold len in L. lia. }
      cbn [peer_chunks] in *. rewrite len_drop in *.
      eexists (_ :: l), e. split; [|split; [|split; [|exact P]]].
      * eapply runs_some; [|exact R]. unfold PeerDevices_next. rewrite E. rewrite <- E.
        unfold Device_from. assert (LT : (5 <=? len (take 5 (peer_chunks s))) = true) by (rewrite len_take; lia).
        rewrite LT. cbn [obind]. reflexivity.
      * unfold len in *. cbn [length]. lia.
      * rewrite F. unfold len in *. lia.
    + exists [], Undefined. split; [|split; [|split; [|discriminate]]].
      * apply runs_ub. unfold PeerDevices_next. rewrite E. rewrite <- E. unfold Device_from.
        assert (LT : (5 <=? len (take 5 (peer_chunks s))) = false) by (rewrite len_take; lia).
        rewrite LT. reflexivity.
      * unfold len in *. cbn [length]. lia.
      * split; [intros [s' [=]]|]. intros M. exfalso. rewrite E in *. unfold len in *. cbn [length] in *. lia.
Qed.

Lemma elements_count c n : forall s, 0 < ce_record_length s -> (length (ce_chunks s) <= n)%nat ->
  exists l e, runs (ContainedElements_next c) s l e /\ e <> Panicked /\
    len l * ce_record_length s < len (ce_chunks s) + ce_record_length s /\
    (forall s', e = Exhausted s' -> len (ce_chunks s) <= len l * ce_record_length s).
Proof.
  induction n as [|n IH]; intros s HR H.
  - destruct (ce_chunks s) as [|b t] eqn:E; [|cbn [length] in H; lia].
    exists [], (Exhausted s). split; [apply runs_none; unfold ContainedElements_next; rewrite E; reflexivity|].
    split; [discriminate|]. unfold len; cbn [length]. split; [lia|]. intros; lia.
  - destruct (ce_chunks s) as [|b t] eqn:E.
    { exists [], (Exhausted s). split; [apply runs_none; unfold ContainedElements_next; rewrite E; reflexivity|].
      split; [discriminate|]. unfold len; cbn [length]. split; [lia|]. intros; lia. }
    destruct (ContainedElement_from c (take (ce_record_length s) (b :: t)) (drop (ce_record_length s) (b :: t) ++ ce_after s))
      as [x| |] eqn:X.
    + destruct (IH {| ce_chunks := drop (ce_record_length s) (b :: t); ce_after := ce_after s;
                      ce_count := ce_count s; ce_record_length := ce_record_length s |}) as [l [e [R [P [B F]]]]].
      { exact HR. } { cbn [ce_chunks]. unfold drop. rewrite skipn_length. cbn [length] in *. lia. }
      cbn [ce_chunks ce_record_length] in *. rewrite len_drop in *.
      exists (x :: l), e. split; [|split; [exact P|split]].
      * eapply runs_some; [|exact R]. unfold ContainedElements_next. rewrite E, X. reflexivity.
      * assert (M : len (x :: l) * ce_record_length s = len l * ce_record_length s + ce_record_length s)
          by (unfold len; cbn [length]; lia).
        rewrite M. set (X0 := len l * ce_record_length s) in *.
        assert (Z : X0 = 0 \/ ce_record_length s <= X0).
        { subst X0. destruct (N.eq_dec (len l) 0) as [Z|Z]; [left; rewrite Z; reflexivity|right].
          rewrite <- (N.mul_1_l (ce_record_length s)) at 1. apply N.mul_le_mono_r. lia. }
        unfold len in *. cbn [length] in *. lia.
      * assert (M : len (x :: l) * ce_record_length s = len l * ce_record_length s + ce_record_length s)
          by (unfold len; cbn [length]; lia).
        intros s' HE. specialize (F s' HE). rewrite M. lia.
    + exfalso. unfold ContainedElement_from in X.
      destruct (3 <=? _); cbn [obind] in X; [discriminate|]. destruct (flat_memory c && _); cbn [obind] in X; discriminate.
    + exists [], Undefined. split; [|split; [discriminate|split]].
      * apply runs_ub. unfold ContainedElements_next. rewrite E, X. reflexivity.
      * unfold len. cbn [length]. lia.
      * intros s' HE. discriminate HE.
Qed.

(* descriptors: chunks that all have the same size *)
Definition whole_chunks (s : EventLogTypeDescriptors) : Prop := exists k, len (descriptors_data s) = k * descriptors_size s.

Lemma whole_next s o s' : whole_chunks s -> lift_next EventLogTypeDescriptors_next s = Val (o, s') -> whole_chunks s'.
Proof.
  intros [k HK] H. unfold lift_next, EventLogTypeDescriptors_next in H.
  destruct (descriptors_data s) as [|b t] eqn:E; injection H as _ <-.
  - exists k. rewrite E. exact HK.
  - exists (k - 1). cbn [descriptors_data descriptors_size]. rewrite len_drop, HK. nia.
Qed.

Lemma descriptors_finished s s' : whole_chunks s -> lift_next EventLogTypeDescriptors_next s = Val (None, s') ->
  none_forever (lift_next EventLogTypeDescriptors_next) s'.
Proof.
  intros HW H. pose proof (whole_next s None s' HW H) as [k' HK']. destruct HW as [k HK].
  unfold lift_next, EventLogTypeDescriptors_next in H. destruct (descriptors_data s) as [|b t] eqn:E.
  - injection H as <-. apply none_forever_stay. unfold lift_next, EventLogTypeDescriptors_next. rewrite E. reflexivity.
  - assert (N2 : descriptors_size s <> 2).
    { intros H2. rewrite H2 in *. destruct t as [|b2 t]; [unfold len in HK; cbn [length] in HK; lia|].
      cbn in H. discriminate H. }
    injection H as _ <-. cbn [descriptors_data descriptors_size] in HK'. intros n.
    exact (other_size_none (descriptors_size s) N2 n k' _ HK').
Qed.

Lemma log_descriptors_finished c r s d l d1 d2 : all_bytes (data r) -> SystemEventLog_try_from c r = Val (Ok s) ->
  log_descriptors s = Some d -> steps (lift_next EventLogTypeDescriptors_next) d l d1 ->
  lift_next EventLogTypeDescriptors_next d1 = Val (None, d2) -> none_forever (lift_next EventLogTypeDescriptors_next) d2.
Proof.
  intros HB H P ST HN.
  assert (W : whole_chunks d).
  { apply SystemEventLog_ok in H; [|exact HB]. destruct H as [_ [_ H]]. destruct H as [_ _ _ _ _ _ _ _ H].
    rewrite P in H. destruct H as [[_ [d' [[= <-] [x [FX [FY [pre [post [_ [_ B]]]]]]]]]]|[_ H]]; [|discriminate].
    exists x. exact B. }
  assert (W1 : whole_chunks d1).
  { clear H P HB HN. induction ST as [|a o a1 l0 a2 E ST IH]; [exact W|]. apply IH. exact (whole_next _ _ _ W E). }
  exact (descriptors_finished d1 d2 W1 HN).
Qed.
