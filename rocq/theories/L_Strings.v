(* Proofs about the string area and the raw accessors. *)
From Coq Require Import ZArith Lia ZifyBool ZifyNat ZifyN.
From Verif Require Import Base G_Enums M_Raw M_Strings Spec L_Base L_Utf8.
Local Open Scope N_scope.
Ltac Zify.zify_post_hook ::= Z.div_mod_to_equations.

(* what is still to be read *)
Definition rest (s : StructureStrings) : list N := drop (start s) (bytes s).

Definition ends (tail : list N) : Prop := tail = [] \/ exists tail', tail = 0 :: tail'.

Lemma until_nul_spec l : exists tail, l = until_nul l ++ tail /\ ~ In 0 (until_nul l) /\ ends tail.
Proof.
  induction l as [|b l [tail [E [NI HE]]]]; cbn [until_nul].
  - exists []. repeat split; [intros []|left; reflexivity].
  - destruct (N.eqb_spec b 0) as [->|Hb].
    + exists (0 :: l). repeat split; [intros []|right; eauto].
    + exists tail. cbn [app]. rewrite <- E. repeat split; auto. cbn [In]. tauto.
Qed.

Lemma until_nul_app t tail : ~ In 0 t -> ends tail -> until_nul (t ++ tail) = t.
Proof.
  intros NI HE. induction t as [|b t IH]; cbn [app until_nul].
  - destruct HE as [->|[tl ->]]; reflexivity.
  - destruct (N.eqb_spec b 0) as [->|Hb]; [exfalso; apply NI; left; reflexivity|].
    f_equal. apply IH. intros HI. apply NI. right. exact HI.
Qed.

Definition advance (s : StructureStrings) (n : N) : StructureStrings :=
  {| bytes := bytes s; start := start s + n |}.

Lemma rest_advance s n : rest (advance s n) = drop n (rest s).
Proof. unfold rest, advance; cbn [start bytes]. rewrite drop_drop. f_equal. lia. Qed.

Lemma strings_next_eq s : strings_next s =
  match until_nul (rest s) with
  | [] => (None, s)
  | t => if from_utf8 t then (Some t, advance s (len t + 1)) else (None, advance s (len t + 1))
  end.
Proof.
  unfold strings_next, rest, slice_get_from. destruct (N.leb_spec (start s) (len (bytes s))).
  - destruct (until_nul _); reflexivity.
  - rewrite drop_all by lia. reflexivity.
Qed.

Lemma good_from_utf8 t : good_string t -> from_utf8 t = true.
Proof. intros [_ [_ H]]. apply from_utf8_iff, H. Qed.

(* a good string at the front is yielded *)
Lemma next_good s t tail : rest s = t ++ tail -> good_string t -> ends tail ->
  strings_next s = (Some t, advance s (len t + 1)).
Proof.
  intros E G HE. rewrite strings_next_eq, E. pose proof G as [G1 [G2 _]].
  rewrite until_nul_app by assumption.
  pose proof (good_from_utf8 t G) as GU. destruct t as [|x t]; [congruence|]. cbv beta iota zeta. rewrite GU. reflexivity.
Qed.

Lemma next_some s t s' : strings_next s = (Some t, s') ->
  exists tail, rest s = t ++ tail /\ good_string t /\ ends tail /\ s' = advance s (len t + 1).
Proof.
  rewrite strings_next_eq. destruct (until_nul_spec (rest s)) as [tail [E [NI HE]]].
  destruct (until_nul (rest s)) as [|x u]; [discriminate|].
  cbv beta iota zeta. destruct (from_utf8 (x :: u)) eqn:EU; [|discriminate].
  intros [= <- <-]. exists tail. repeat split; auto; [discriminate|]. apply from_utf8_iff, EU.
Qed.

Lemma ends_drop t tail : ends tail -> drop (len t + 1) (t ++ tail) = match tail with [] => [] | _ :: tl => tl end.
Proof.
  intros HE. rewrite drop_app_ge by lia. replace (len t + 1 - len t) with 1 by lia.
  destruct HE as [->|[tl ->]]; reflexivity.
Qed.

Lemma terminated_cons s ss : terminated (s :: ss) = s ++ 0 :: terminated ss.
Proof. unfold terminated. cbn [map concat]. rewrite <- app_assoc. reflexivity. Qed.
Lemma terminated_app a b : terminated (a ++ b) = terminated a ++ terminated b.
Proof. unfold terminated. rewrite map_app, concat_app. reflexivity. Qed.

Definition at_number (area : list N) (n : nat) (t : text) : Prop :=
  exists before tail, length before = n /\ Forall good_string before /\ good_string t /\
    area = terminated before ++ t ++ tail /\ ends tail.

Lemma at_number_S area n t : at_number area (S n) t <->
  exists u area', area = u ++ 0 :: area' /\ good_string u /\ at_number area' n t.
Proof.
  split.
  - intros [[|u before] [tail [L [F [G [E HE]]]]]]; [discriminate|].
    inversion F as [|? ? GU F']; subst. rewrite terminated_cons, <- app_assoc.
    exists u, (terminated before ++ t ++ tail). split; [reflexivity|]. split; [assumption|].
    exists before, tail. cbn [length] in L. split; [lia|auto].
  - intros [u [area' [E [G [before [tail [L [F [G2 [E2 HE]]]]]]]]]].
    exists (u :: before), tail. cbn [length]. split; [auto|]. split; [auto|]. split; [auto|]. split; [|auto].
    rewrite E, terminated_cons, <- app_assoc, E2. reflexivity.
Qed.

Lemma nth_spec n s t : strings_nth n s = Some t <-> at_number (rest s) n t.
Proof.
  revert s; induction n as [|n IH]; intros s; cbn [strings_nth].
  - split.
    + intros H. destruct (strings_next s) as [o s'] eqn:E; cbn [fst] in H; subst o.
      apply next_some in E. destruct E as [tail [E [G [HE _]]]].
      exists [], tail. auto.
    + intros [before [tail [L [_ [G [E HE]]]]]]. destruct before; [|discriminate].
      cbn [terminated map concat app] in E. rewrite (next_good s t tail); auto.
  - rewrite at_number_S. split.
    + intros H. destruct (strings_next s) as [[u|] s'] eqn:E; [|discriminate].
      apply next_some in E. destruct E as [tail [E [G [HE ->]]]].
      apply IH in H. rewrite rest_advance, E, ends_drop in H by assumption.
      destruct HE as [->|[tl ->]].
      * exfalso. destruct H as [before [tail [L [F [[G1 _] [E2 HE]]]]]].
        destruct t; [congruence|]. destruct (terminated before); discriminate.
      * exists u, tl. auto.
    + intros [u [area' [E [G H]]]]. rewrite (next_good s u (0 :: area')); auto.
      * apply IH. rewrite rest_advance, E, ends_drop by (right; eauto). exact H.
      * right; eauto.
Qed.

Lemma string_number_at area k t : k <> 0 -> string_number area k t <-> at_number area (N.to_nat (k - 1)) t.
Proof.
  intros Hk. unfold string_number, at_number, ends, len. split.
  - intros [before [tail [L H]]]. exists before, tail. split; [lia|exact H].
  - intros [before [tail [L H]]]. exists before, tail. split; [lia|exact H].
Qed.

Lemma rest_new l : rest (strings_new l) = l.
Proof. unfold rest, strings_new. cbn [start bytes]. apply drop_0. Qed.

Lemma find_string_ok r k t : find_string r k = Ok t <-> text_number r k t.
Proof.
  unfold find_string, text_number. destruct (N.eqb_spec k 0) as [->|Hk].
  - split; [intros [= <-]; auto|]. intros [[_ ->]|[H _]]; [reflexivity|congruence].
  - rewrite string_number_at, <- (rest_new (strings r)), <- nth_spec by assumption. unfold raw_strings.
    destruct (strings_nth _ _) as [u|].
    + split; [intros [= ->]; auto|]. intros [[H _]|[_ [= ->]]]; congruence.
    + split; [discriminate|]. intros [[H _]|[_ H]]; congruence.
Qed.

Lemma find_string_err r k e :
  find_string r k = Err e <-> e = InvalidStringIndex (info r) (handle r) k /\ forall t, ~ text_number r k t.
Proof.
  split.
  - intros H. split.
    + unfold find_string in H. destruct (k =? 0); [discriminate|].
      destruct (strings_nth _ _); congruence.
    + intros t Ht. apply find_string_ok in Ht. congruence.
  - intros [-> H]. destruct (find_string r k) as [t|e] eqn:E.
    + apply find_string_ok in E. exfalso; eapply H; eauto.
    + unfold find_string in E. destruct (k =? 0); [discriminate|].
      destruct (strings_nth _ _); congruence.
Qed.

Lemma text_number_fun r k t1 t2 : text_number r k t1 -> text_number r k t2 -> t1 = t2.
Proof. intros H1 H2. apply find_string_ok in H1, H2. congruence. Qed.

Lemma text_number_sound r k t : text_number r k t -> k <> 0 ->
  t <> [] /\ ~ In 0 t /\ utf8 t /\ exists pre post, strings r = pre ++ t ++ post.
Proof.
  intros [[-> _]|[_ [before [tail [_ [_ [[G1 [G2 G3]] [E _]]]]]]]] Hk; [congruence|].
  repeat split; auto. exists (terminated before), tail. exact E.
Qed.

(* draining the string iterator *)
Lemma terminated_ends l : rest (strings_new l) = l.
Proof. apply rest_new. Qed.

Definition next_s (s : StructureStrings) := lift_next strings_next s.

Lemma drain_terminated ss s tail : Forall good_string ss -> (tail = [] \/ exists tl, tail = 0 :: tl) ->
  rest s = terminated ss ++ tail ->
  exists s', drains (lift_next strings_next) s ss s' /\ strings_next s' = (None, s') /\
             s' = advance s (len (terminated ss)).
Proof.
  intros F HE. revert s. induction F as [|t ss G F IH]; intros s E.
  - exists s. cbn [terminated map concat app] in E.
    assert (H : strings_next s = (None, s)).
    { rewrite strings_next_eq, E. destruct HE as [->|[tl ->]]; reflexivity. }
    split; [constructor; unfold lift_next; rewrite H; reflexivity|]. split; [exact H|].
    destruct s as [b st]. unfold advance. cbn [bytes start terminated map concat]. f_equal. rewrite len_nil. lia.
  - rewrite terminated_cons, <- app_assoc in E. cbn [app] in E.
    pose proof (next_good s t _ E G ltac:(right; eauto)) as H.
    destruct (IH (advance s (len t + 1))) as [s' [D [N E']]].
    { rewrite rest_advance, E, ends_drop by (right; eauto). reflexivity. }
    exists s'. split; [|split; [exact N|]].
    + econstructor; [|exact D]. unfold lift_next. rewrite H. reflexivity.
    + rewrite E'. unfold advance. cbn [bytes start]. f_equal. rewrite terminated_cons. lens. lia.
Qed.

(* every string area can be drained *)
Lemma drain_total s : exists l s', drains (lift_next strings_next) s l s'.
Proof.
  remember (length (rest s)) as n eqn:Hn. revert s Hn.
  induction n as [n IH] using lt_wf_ind. intros s ->.
  destruct (strings_next s) as [[t|] s1] eqn:E.
  - pose proof E as E2. apply next_some in E2. destruct E2 as [tail [E2 [[G _] [HE ->]]]].
    destruct (IH (length (rest (advance s (len t + 1))))) with (s := advance s (len t + 1)) as [l [s' D]]; auto.
    + rewrite rest_advance, E2, ends_drop by assumption. rewrite app_length.
      destruct t; [congruence|]. destruct tail; cbn [length]; lia.
    + exists (t :: l), s'. econstructor; [|exact D]. unfold lift_next. rewrite E. reflexivity.
  - exists [], s1. constructor. unfold lift_next. rewrite E. reflexivity.
Qed.

Lemma drain_nth s l s' n : drains (lift_next strings_next) s l s' -> strings_nth n s = nth_error l n.
Proof.
  intros D. revert n. induction D as [s s' H|s t s1 l s' H D IH]; intros n; unfold lift_next in H; injection H as H.
  - destruct n; cbn [strings_nth]; rewrite H; reflexivity.
  - destruct n as [|n]; cbn [strings_nth nth_error]; rewrite H; [reflexivity|]. apply IH.
Qed.

Lemma drain_find r l s' k t : drains (lift_next strings_next) (raw_strings r) l s' -> k <> 0 ->
  (find_string r k = Ok t <-> nth_error l (N.to_nat (k - 1)) = Some t).
Proof.
  intros D Hk. unfold find_string. destruct (N.eqb_spec k 0); [congruence|].
  rewrite (drain_nth _ _ _ _ D). destruct (nth_error l _); split; congruence.
Qed.

(* the fuel of the collecting loop of the model suffices *)
Lemma strings_collect_total n s : (length (rest s) < n)%nat ->
  exists l s', strings_collect n s = Some l /\ drains (lift_next strings_next) s l s'.
Proof.
  revert s; induction n as [|n IH]; intros s Hn; [lia|].
  cbn [strings_collect]. destruct (strings_next s) as [[t|] s1] eqn:E.
  - pose proof E as E2. apply next_some in E2. destruct E2 as [tail [E2 [[G _] [HE ->]]]].
    destruct (IH (advance s (len t + 1))) as [l [s' [C D]]].
    + rewrite rest_advance, E2, ends_drop by assumption. rewrite E2, app_length in Hn.
      destruct t; [congruence|]. destruct tail; cbn [length] in *; lia.
    + rewrite C. exists (t :: l), s'. split; [reflexivity|].
      econstructor; [|exact D]. unfold lift_next. rewrite E. reflexivity.
  - exists [], s1. split; [reflexivity|]. constructor. unfold lift_next. rewrite E. reflexivity.
Qed.

(* ------------------------------------------------------------------- get *)

(* both widths of usize *)
Lemma usize_room c : 2 ^ 32 <= 2 ^ usize_bits c /\ 2 ^ usize_bits c = 2 * 2 ^ (usize_bits c - 1).
Proof. unfold usize_bits. destruct (pointer_width c); split; try reflexivity; discriminate. Qed.
Lemma usize_not0 c : 2 ^ usize_bits c <> 0.
Proof. pose proof (usize_room c). lia. Qed.

Lemma get_fit c w off r : 0 < w -> 4 <= off -> off - 4 + w < 2 ^ usize_bits c ->
  get c w off r = Val (match field r off w with Some v => Ok v | None => Err InvalidSlice end).
Proof.
  intros Hw H4 Hb. unfold get, u_sub, u_add, field.
  destruct (N.leb_spec 4 off); [|lia]. cbn [obind].
  destruct (N.ltb_spec (off - 4 + w) (2 ^ usize_bits c)); [|lia]. cbn [obind andb].
  unfold slice_get. destruct (N.leb_spec (off - 4) (off - 4 + w)); [|lia].
  destruct (N.leb_spec (off - 4 + w) (len (data r))); destruct (N.leb_spec (off + w) (4 + len (data r))); try lia; cbn [andb].
  - replace (off - 4 + w - (off - 4)) with w by lia.
    destruct (N.eqb_spec (len (take w (drop (off - 4) (data r)))) w) as [E|E].
    + reflexivity.
    + exfalso. apply E. lens. lia.
  - destruct (N.eqb_spec (len (@nil N)) w) as [E|E]; [rewrite len_nil in E; lia|reflexivity].
Qed.

Lemma get_bad c w off r : 0 < w <= 16 -> off < 2 ^ usize_bits c -> len (data r) < 2 ^ (usize_bits c - 1) ->
  (off < 4 \/ 2 ^ usize_bits c <= off - 4 + w) ->
  get c w off r = if overflow_checks c then Panic else Val (Err InvalidSlice).
Proof.
  intros Hw Ho Hd Hb. pose proof (usize_room c) as U. pose proof (usize_not0 c) as U0. unfold get, u_sub, u_add.
  destruct (N.leb_spec 4 off) as [H4|H4].
  - cbn [obind]. destruct (N.ltb_spec (off - 4 + w) (2 ^ usize_bits c)); [lia|].
    destruct (overflow_checks c); [reflexivity|]. cbn [obind].
    assert (S : slice_get (data r) (off - 4) ((off - 4 + w) mod 2 ^ usize_bits c) = None).
    { apply slice_get_none. left.
      replace (off - 4 + w) with (off - 4 + w - 2 ^ usize_bits c + 1 * 2 ^ usize_bits c) by lia.
      rewrite N.mod_add by exact U0. rewrite N.mod_small by lia. lia. }
    rewrite S. destruct (N.eqb_spec (len (@nil N)) w) as [E|E]; [rewrite len_nil in E; lia|reflexivity].
  - destruct (overflow_checks c); [reflexivity|]. cbn [obind].
    assert (S : forall b, b < 2 ^ usize_bits c -> slice_get (data r) (2 ^ usize_bits c + off - 4) b = None).
    { intros b Hb'. apply slice_get_none. lia. }
    destruct (N.ltb_spec (2 ^ usize_bits c + off - 4 + w) (2 ^ usize_bits c)); cbn [obind].
    + rewrite S by lia. destruct (N.eqb_spec (len (@nil N)) w) as [E|E]; [rewrite len_nil in E; lia|reflexivity].
    + rewrite S by (apply N.mod_lt; exact U0).
      destruct (N.eqb_spec (len (@nil N)) w) as [E|E]; [rewrite len_nil in E; lia|reflexivity].
Qed.

Lemma get_slice_fit c off size r : 4 <= off -> off - 4 + size < 2 ^ usize_bits c ->
  get_slice c off size r =
  Val (if off + size <=? 4 + len (data r) then Some (take size (drop (off - 4) (data r))) else None).
Proof.
  intros H4 Hb. unfold get_slice, u_sub, u_add.
  destruct (N.leb_spec 4 off); [|lia]. cbn [obind].
  destruct (N.ltb_spec (off - 4 + size) (2 ^ usize_bits c)); [|lia]. cbn [obind].
  unfold slice_get. destruct (N.leb_spec (off - 4) (off - 4 + size)); [|lia].
  destruct (N.leb_spec (off - 4 + size) (len (data r))); destruct (N.leb_spec (off + size) (4 + len (data r))); try lia; cbn [andb].
  - replace (off - 4 + size - (off - 4)) with size by lia. reflexivity.
  - reflexivity.
Qed.

Lemma get_slice_bad c size off r : size < 2 ^ usize_bits c -> off < 2 ^ usize_bits c -> len (data r) < 2 ^ (usize_bits c - 1) ->
  (off < 4 \/ 2 ^ usize_bits c <= off - 4 + size) ->
  get_slice c off size r = if overflow_checks c then Panic else Val None.
Proof.
  intros Hs Ho Hd Hb. pose proof (usize_room c) as U. pose proof (usize_not0 c) as U0. unfold get_slice, u_sub, u_add.
  destruct (N.leb_spec 4 off) as [H4|H4].
  - cbn [obind]. destruct (N.ltb_spec (off - 4 + size) (2 ^ usize_bits c)); [lia|].
    destruct (overflow_checks c); [reflexivity|]. cbn [obind]. f_equal. apply slice_get_none. left.
    replace (off - 4 + size) with (off - 4 + size - 2 ^ usize_bits c + 1 * 2 ^ usize_bits c) by lia.
    rewrite N.mod_add by exact U0. rewrite N.mod_small by lia. lia.
  - destruct (overflow_checks c); [reflexivity|]. cbn [obind].
    destruct (N.ltb_spec (2 ^ usize_bits c + off - 4 + size) (2 ^ usize_bits c)); cbn [obind]; f_equal; apply slice_get_none.
    + lia.
    + left.
      assert (2 ^ usize_bits c + off - 4 + size = (off + size - 4) + 1 * 2 ^ usize_bits c) as -> by lia.
      rewrite N.mod_add by exact U0. rewrite N.mod_small; lia.
Qed.

Lemma get_all c w off r : 0 < w <= 16 -> off < 2 ^ usize_bits c -> len (data r) < 2 ^ (usize_bits c - 1) ->
  get c w off r =
  if (off <? 4) || (2 ^ usize_bits c <=? off - 4 + w)
  then if overflow_checks c then Panic else Val (Err InvalidSlice)
  else Val (match field r off w with Some v => Ok v | None => Err InvalidSlice end).
Proof.
  intros Hw Ho Hd. pose proof (usize_room c) as U. pose proof (usize_not0 c) as U0. destruct (N.ltb_spec off 4); cbn [orb]; [apply get_bad; auto|].
  destruct (N.leb_spec (2 ^ usize_bits c) (off - 4 + w)); [apply get_bad; auto|]. apply get_fit; lia.
Qed.

Lemma get_slice_all c size off r : size < 2 ^ usize_bits c -> off < 2 ^ usize_bits c -> len (data r) < 2 ^ (usize_bits c - 1) ->
  get_slice c off size r =
  if (off <? 4) || (2 ^ usize_bits c <=? off - 4 + size)
  then if overflow_checks c then Panic else Val None
  else Val (if off + size <=? 4 + len (data r) then Some (take size (drop (off - 4) (data r))) else None).
Proof.
  intros Hw Ho Hd. pose proof (usize_room c) as U. pose proof (usize_not0 c) as U0. destruct (N.ltb_spec off 4); cbn [orb]; [apply get_slice_bad; auto|].
  destruct (N.leb_spec (2 ^ usize_bits c) (off - 4 + size)); [apply get_slice_bad; auto|]. apply get_slice_fit; lia.
Qed.

Lemma get_field c w off r : 0 < w -> 4 <= off -> off - 4 + w < 2 ^ 32 ->
  get c w off r = Val (match field r off w with Some v => Ok v | None => Err InvalidSlice end).
Proof. intros. apply get_fit; [assumption..|]. pose proof (usize_room c). lia. Qed.
Lemma get_slice_field c off size r : 4 <= off -> off - 4 + size < 2 ^ 32 ->
  get_slice c off size r =
  Val (if off + size <=? 4 + len (data r) then Some (take size (drop (off - 4) (data r))) else None).
Proof. intros. apply get_slice_fit; [assumption..|]. pose proof (usize_room c). lia. Qed.

Lemma get_string_field c off r : 4 <= off -> off < 2 ^ 31 ->
  get_string c off r = Val (match field r off 1 with Some k => find_string r k | None => Err InvalidSlice end).
Proof.
  intros H4 Hb. unfold get_string. rewrite get_field by lia.
  destruct (field r off 1); reflexivity.
Qed.

Lemma get_string_all c off r : off < 2 ^ usize_bits c -> len (data r) < 2 ^ (usize_bits c - 1) ->
  get_string c off r =
  if off <? 4 then if overflow_checks c then Panic else Val (Err InvalidSlice)
  else Val (match field r off 1 with
            | Some k => match find_string r k with Ok t => Ok t | Err e => Err e end
            | None => Err InvalidSlice end).
Proof.
  intros Ho Hd. unfold get_string. pose proof (usize_room c). rewrite get_all by (first [assumption|lia]).
  destruct (N.leb_spec (2 ^ usize_bits c) (off - 4 + 1)); [lia|]. rewrite orb_false_r.
  destruct (off <? 4).
  - destruct (overflow_checks c); reflexivity.
  - destruct (field r off 1); cbn [rbind]; [|reflexivity]. destruct (find_string r n); reflexivity.
Qed.

Lemma field_some r off w v : field r off w = Some v <->
  4 <= off /\ off + w <= 4 + len (data r) /\ v = little (take w (drop (off - 4) (data r))).
Proof.
  unfold field. destruct (N.leb_spec 4 off); destruct (N.leb_spec (off + w) (4 + len (data r))); cbn [andb];
    split; try discriminate; try lia.
  - intros [= <-]; auto.
  - intros [_ [_ ->]]; reflexivity.
Qed.

Lemma field_none r off w : field r off w = None <-> off < 4 \/ 4 + len (data r) < off + w.
Proof.
  unfold field. destruct (N.leb_spec 4 off); destruct (N.leb_spec (off + w) (4 + len (data r))); cbn [andb];
    split; try discriminate; auto; lia.
Qed.

Lemma get_ok_iff c w off r v : 0 < w <= 16 -> off < 2 ^ usize_bits c -> len (data r) < 2 ^ (usize_bits c - 1) ->
  (get c w off r = Val (Ok v) <->
   4 <= off /\ off + w <= 4 + len (data r) /\ v = little (take w (drop (off - 4) (data r)))).
Proof.
  intros Hw Ho Hd. pose proof (usize_room c) as U. pose proof (usize_not0 c) as U0. rewrite get_all, <- field_some by assumption.
  destruct (N.ltb_spec off 4); cbn [orb].
  { split; [destruct (overflow_checks c); discriminate|]. intros F. apply field_some in F. lia. }
  destruct (N.leb_spec (2 ^ usize_bits c) (off - 4 + w)).
  { split; [destruct (overflow_checks c); discriminate|]. intros F. apply field_some in F. lia. }
  destruct (field r off w); split; congruence.
Qed.

Lemma get_else c w off r : 0 < w <= 16 -> off < 2 ^ usize_bits c -> len (data r) < 2 ^ (usize_bits c - 1) ->
  ~ (4 <= off /\ off + w <= 4 + len (data r)) ->
  get c w off r =
  if overflow_checks c && ((off <? 4) || (2 ^ usize_bits c <=? off - 4 + w)) then Panic else Val (Err InvalidSlice).
Proof.
  intros Hw Ho Hd H. rewrite get_all by assumption.
  replace (field r off w) with (@None N) by (symmetry; apply field_none; lia).
  destruct ((off <? 4) || (2 ^ usize_bits c <=? off - 4 + w)), (overflow_checks c); reflexivity.
Qed.

Lemma get_string_ok_iff c off r t : off < 2 ^ usize_bits c -> len (data r) < 2 ^ (usize_bits c - 1) ->
  (get_string c off r = Val (Ok t) <-> exists k, field_is r off 1 k /\ text_number r k t).
Proof.
  intros Ho Hd. rewrite get_string_all by assumption. unfold field_is.
  destruct (N.ltb_spec off 4).
  { split; [destruct (overflow_checks c); discriminate|]. intros [k [F _]]. apply field_some in F. lia. }
  destruct (field r off 1) as [k|].
  - split.
    + intros H'. exists k. split; [reflexivity|]. apply find_string_ok. destruct (find_string r k); congruence.
    + intros [k' [[= <-] T]]. apply find_string_ok in T. rewrite T. reflexivity.
  - split; [discriminate|]. intros [k [F _]]. discriminate.
Qed.

Lemma drain_terminated_new ss tail : Forall good_string ss -> (tail = [] \/ exists tl, tail = 0 :: tl) ->
  exists s', drains (lift_next strings_next) (strings_new (terminated ss ++ tail)) ss s' /\
             strings_next s' = (None, s').
Proof.
  intros F HE. destruct (drain_terminated ss (strings_new (terminated ss ++ tail)) tail F HE) as [s' [D [N _]]].
  - apply rest_new.
  - eauto.
Qed.

Lemma find_string_sound r k t : find_string r k = Ok t -> k <> 0 ->
  t <> [] /\ ~ In 0 t /\ utf8 t /\ exists pre post, strings r = pre ++ t ++ post.
Proof. intros H. apply text_number_sound. apply find_string_ok, H. Qed.

Lemma drains_strings_total r : exists l s', drains (lift_next strings_next) (raw_strings r) l s'.
Proof. apply drain_total. Qed.

Lemma strings_nth_number r l s' k t : drains (lift_next strings_next) (raw_strings r) l s' -> k <> 0 ->
  (nth_error l (N.to_nat (k - 1)) = Some t <-> string_number (strings r) k t).
Proof.
  intros D Hk. rewrite <- (drain_find r l s' k t D Hk), find_string_ok. unfold text_number.
  split; [intros [[H _]|[_ H]]; [congruence|exact H]|auto].
Qed.
