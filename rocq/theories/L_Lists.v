(* Proofs for types 11 to 14. *)
From Coq Require Import String.
From Coq Require Import ZArith Lia ZifyBool ZifyNat ZifyN.
From Verif Require Import Base G_Enums M_Raw M_Strings M_GroupAssociations.
From Verif Require Import Spec S_Enums S_Decode S_Lists L_Base L_Strings L_Decode.
Local Open Scope N_scope.
Ltac Zify.zify_post_hook ::= Z.div_mod_to_equations.

Lemma nth_error_ext {A} (l1 l2 : list A) : (forall i, nth_error l1 i = nth_error l2 i) -> l1 = l2.
Proof.
  revert l2. induction l1 as [|a l1 IH]; intros [|b l2] H; try reflexivity; try (specialize (H O); discriminate).
  pose proof (H O) as H0. injection H0 as ->. f_equal. apply IH. intros i. apply (H (S i)).
Qed.

Lemma strings_of_unique area l1 l2 : strings_of area l1 -> strings_of area l2 -> l1 = l2.
Proof.
  intros H1 H2. apply nth_error_ext. intros i.
  specialize (H1 (N.of_nat i + 1)). specialize (H2 (N.of_nat i + 1)).
  replace (N.to_nat (N.of_nat i + 1 - 1)) with i in * by lia.
  destruct (nth_error l1 i) as [t|] eqn:E1.
  - symmetry. apply H2; [lia|]. apply H1; [lia|reflexivity].
  - destruct (nth_error l2 i) as [t|] eqn:E2; [|reflexivity].
    assert (None = Some t) as H; [|exact H]. apply H1; [lia|]. apply H2; [lia|reflexivity].
Qed.

Lemma drains_strings_of r l s' : drains (lift_next strings_next) (raw_strings r) l s' -> strings_of (strings r) l.
Proof. intros D k t HK. apply (strings_nth_number r l s' k t D). lia. Qed.

Lemma strings_of_drains r l : strings_of (strings r) l -> exists s', drains (lift_next strings_next) (raw_strings r) l s'.
Proof.
  intros H. destruct (drains_strings_total r) as [l' [s' D]].
  rewrite (strings_of_unique _ _ _ H (drains_strings_of r l' s' D)). eauto.
Qed.

Lemma strings_of_total r : exists l, strings_of (strings r) l.
Proof. destruct (drains_strings_total r) as [l' [s' D]]. exists l'. eapply drains_strings_of, D. Qed.

(* ---------------------------------------------------------------- type 11 *)

Lemma OemStrings_ok c r : exists s, OemStrings_try_from c r = Val (Ok s) /\ oem_handle s = handle r /\
  forall l, strings_of (strings r) l -> exists s', drains (lift_next strings_next) (oem_strings s) l s'.
Proof. eexists. split; [reflexivity|]. split; [reflexivity|]. apply strings_of_drains. Qed.

(* ---------------------------------------------------------------- type 12 *)

Lemma strings_count_of r l : strings_of (strings r) l -> strings_count r = Val (len l).
Proof.
  intros H. unfold strings_count.
  destruct (strings_collect_total (S (length (strings r))) (raw_strings r)) as [l' [s' [-> D]]].
  { unfold rest, raw_strings, strings_new. cbn [bytes start]. unfold drop. cbn [N.to_nat skipn]. lia. }
  rewrite (strings_of_unique _ _ _ H (drains_strings_of r l' s' D)). reflexivity.
Qed.

Lemma options_eq c r l : strings_of (strings r) l ->
  SystemConfigurationOptions_try_from c r =
  Val match field r 0x04 1 with
      | None => Err InvalidSlice
      | Some n => if n =? len l then Ok {| options_handle := handle r; options_strings := raw_strings r |}
                  else Err (InvalidStringIndex InfoType_SystemConfigurationOptions (handle r) n)
      end.
Proof.
  intros H. unfold SystemConfigurationOptions_try_from. gets. rewrite (strings_count_of r l H).
  destruct (field r 4 1) as [n|]; cbn [rbind obind]; [|reflexivity].
  destruct (n =? len l); reflexivity.
Qed.

Lemma options_succeeds c r :
  (exists s, SystemConfigurationOptions_try_from c r = Val (Ok s)) <->
  exists l, strings_of (strings r) l /\ field_is r 0x04 1 (len l).
Proof.
  destruct (strings_of_total r) as [l H]. rewrite (options_eq c r l H). unfold field_is. split.
  - intros [s E]. exists l. split; [exact H|]. destruct (field r 4 1) as [n|]; [|discriminate].
    destruct (N.eqb_spec n (len l)); [congruence|discriminate].
  - intros [l' [H' F]]. rewrite (strings_of_unique _ _ _ H' H) in F. rewrite F, N.eqb_refl. eauto.
Qed.

Lemma options_content c r s : SystemConfigurationOptions_try_from c r = Val (Ok s) ->
  options_handle s = handle r /\
  forall l, strings_of (strings r) l -> exists s', drains (lift_next strings_next) (options_strings s) l s'.
Proof.
  destruct (strings_of_total r) as [l H]. rewrite (options_eq c r l H).
  destruct (field r 4 1) as [n|]; [|discriminate]. destruct (n =? len l); [|discriminate]. intros [= <-].
  split; [reflexivity|]. apply strings_of_drains.
Qed.

Lemma options_errors c r e : SystemConfigurationOptions_try_from c r = Val (Err e) <->
  (field r 0x04 1 = None /\ e = InvalidSlice) \/
  exists n l, field_is r 0x04 1 n /\ strings_of (strings r) l /\ n <> len l /\
    e = InvalidStringIndex InfoType_SystemConfigurationOptions (handle r) n.
Proof.
  destruct (strings_of_total r) as [l H]. rewrite (options_eq c r l H). unfold field_is.
  destruct (field r 4 1) as [n|].
  - destruct (N.eqb_spec n (len l)) as [E|E].
    + split; [discriminate|]. intros [[? _]|[n' [l' [[= <-] [H' [E' _]]]]]]; [discriminate|].
      rewrite (strings_of_unique _ _ _ H' H) in E'. contradiction.
    + split.
      * intros [= <-]. right. exists n, l. auto.
      * intros [[? _]|[n' [l' [[= <-] [_ [_ ->]]]]]]; [discriminate|reflexivity].
  - split; [intros [= <-]; auto|]. intros [[_ ->]|[n' [l' [? _]]]]; [reflexivity|discriminate].
Qed.

Lemma options_returns c r : exists o, SystemConfigurationOptions_try_from c r = Val o.
Proof. destruct (strings_of_total r) as [l H]. rewrite (options_eq c r l H). eauto. Qed.

(* ---------------------------------------------------------------- type 13 *)

Lemma BiosLanguage_ok c r s : BiosLanguage_area (version r) <= len (data r) ->
  (BiosLanguage_try_from c r = Val (Ok s) <-> BiosLanguage_says r s).
Proof.
  intros HL. unfold BiosLanguage_try_from, BiosLanguage_area in *.
  sinces; versions; try vlia; rewrite read_packed_in by vlia; cbn [obind]; rewrite !at_take by vlia; split.
  - intros H. injection H as <-. constructor; prove_clause; intros; try vlia; apply field_is_iff; try vlia; reflexivity.
  - intros H. destruct s as [s1 s2 s3 s4]. destruct H as [H1 H2 H3 H4 H5]. cbn in *. specialize (H3 V). clauses. subs. subst. reflexivity.
  - intros H. injection H as <-. constructor; prove_clause; intros; try vlia; apply field_is_iff; try vlia; reflexivity.
  - intros H. destruct s as [s1 s2 s3 s4]. destruct H as [H1 H2 H3 H4 H5]. cbn in *. specialize (H4 V). clauses. subs. subst. reflexivity.
Qed.

Lemma BiosLanguage_returns c r : BiosLanguage_area (version r) <= len (data r) ->
  exists s, BiosLanguage_try_from c r = Val (Ok s).
Proof.
  intros HL. unfold BiosLanguage_try_from, BiosLanguage_area in *.
  sinces; versions; try vlia; rewrite read_packed_in by vlia; cbn [obind]; eauto.
Qed.

(* the languages *)

Lemma lang_text r l i : strings_of (strings r) l -> 0 < i -> ok (find_string r i) = nth_error l (N.to_nat (i - 1)).
Proof.
  intros H HI. destruct (find_string r i) as [t|e] eqn:F; cbn [ok].
  - symmetry. apply H; [exact HI|]. apply find_string_ok in F. destruct F as [[? _]|[_ F]]; [lia|exact F].
  - destruct (nth_error l (N.to_nat (i - 1))) as [t|] eqn:E; [|reflexivity]. exfalso.
    apply H in E; [|exact HI]. assert (find_string r i = Ok t); [|congruence].
    apply find_string_ok. right. split; [lia|exact E].
Qed.

Lemma lang_next c r l i : strings_of (strings r) l -> 0 < i < 255 ->
  InstallableLanguages_next c (langs r i) = Val (nth_error l (N.to_nat (i - 1)), langs r (i + 1)).
Proof.
  intros H HI. unfold InstallableLanguages_next, langs, u_add. cbn [il_index il_structure].
  destruct (N.ltb_spec (i + 1) (2 ^ 8)) as [L|L]; [|change (2 ^ 8) with 256 in L; lia]. cbn [obind].
  rewrite (lang_text r l i H) by lia. reflexivity.
Qed.
Lemma lang_next_checked c r : overflow_checks c = true -> InstallableLanguages_next c (langs r 255) = Panic.
Proof. intros H. unfold InstallableLanguages_next, langs, u_add. cbn [il_index]. rewrite H. reflexivity. Qed.
Lemma lang_next_wraps c r l : overflow_checks c = false -> strings_of (strings r) l ->
  InstallableLanguages_next c (langs r 255) = Val (nth_error l 254, langs r 0).
Proof.
  intros H HS. unfold InstallableLanguages_next, langs, u_add. cbn [il_index il_structure]. rewrite H.
  rewrite (lang_text r l 255 HS) by lia. reflexivity.
Qed.
Lemma lang_next_zero c r : InstallableLanguages_next c (langs r 0) = Val (Some [], langs r 1).
Proof. unfold InstallableLanguages_next, langs, u_add. cbn [il_index il_structure]. reflexivity. Qed.

Lemma steps_app {S A} (next : S -> out (option A * S)) s l1 s1 l2 s2 :
  steps next s l1 s1 -> steps next s1 l2 s2 -> steps next s (l1 ++ l2) s2.
Proof. induction 1; cbn; [auto|]. intros. econstructor; eauto. Qed.

(* the answers of the calls with index i, i+1, ..., n of them *)
Lemma lang_steps c r l : strings_of (strings r) l -> forall n i, 0 < i -> i + N.of_nat n <= 255 ->
  steps (InstallableLanguages_next c) (langs r i) (map (fun j => nth_error l (N.to_nat (i - 1) + j)%nat) (seq 0 n)) (langs r (i + N.of_nat n)).
Proof.
  intros H. induction n as [|n IH]; intros i HI HN.
  - cbn [seq map]. rewrite N.add_0_r. constructor.
  - replace (i + N.of_nat (S n)) with (i + 1 + N.of_nat n) by lia. cbn [seq map]. rewrite Nat.add_0_r.
    econstructor; [apply lang_next; [exact H|lia]|].
    rewrite <- seq_shift, map_map. replace (map (fun j => nth_error l (N.to_nat (i - 1) + S j)) (seq 0 n))
      with (map (fun j => nth_error l (N.to_nat (i + 1 - 1) + j)) (seq 0 n)).
    + apply IH; lia.
    + apply map_ext. intros j. f_equal. lia.
Qed.

Lemma map_nth_firstn {A} (l : list A) n : (n <= length l)%nat -> map (nth_error l) (seq 0 n) = map Some (firstn n l).
Proof.
  revert l. induction n as [|n IH]; intros l H; [reflexivity|]. destruct l as [|a l]; [cbn in H; lia|].
  cbn [seq map nth_error firstn]. f_equal. rewrite <- seq_shift, map_map. apply IH. cbn in H. lia.
Qed.
Lemma map_nth_none {A} (l : list A) k n : (length l <= k)%nat ->
  map (fun j => nth_error l (k + j)) (seq 0 n) = repeat None n.
Proof.
  intros H. assert (E : forall j0, map (fun j => nth_error l (k + j)) (seq j0 n) = repeat None n); [|apply E].
  induction n as [|n IH]; intros j0; [reflexivity|]. cbn [seq map repeat]. rewrite IH. f_equal.
  apply nth_error_None. lia.
Qed.

Lemma steps_drains {S A} (next : S -> out (option A * S)) l : forall s s1 s2,
  steps next s (map Some l) s1 -> next s1 = Val (None, s2) -> drains next s l s2.
Proof.
  induction l as [|a l IH]; intros s s1 s2 H N; inversion H; subst; [constructor; exact N|].
  econstructor; [eassumption|]. eapply IH; eassumption.
Qed.
Lemma steps_runs_panic {S A} (next : S -> out (option A * S)) l : forall s s1,
  steps next s (map Some l) s1 -> next s1 = Panic -> runs next s l Panicked.
Proof.
  induction l as [|a l IH]; intros s s1 H N; inversion H; subst; [constructor; exact N|].
  econstructor; [eassumption|]. eapply IH; eassumption.
Qed.

Lemma lang_first c r l n : strings_of (strings r) l -> (n <= length l)%nat -> (n <= 254)%nat ->
  steps (InstallableLanguages_next c) (langs r 1) (map Some (firstn n l)) (langs r (1 + N.of_nat n)).
Proof.
  intros H H1 H2. rewrite <- map_nth_firstn by exact H1.
  apply (lang_steps c r l H n 1); lia.
Qed.

(* fewer than 254 strings: all are yielded, then None *)
Lemma langs_drain c r l : strings_of (strings r) l -> len l < 254 ->
  drains (InstallableLanguages_next c) (langs r 1) l (langs r (len l + 2)).
Proof.
  intros H HL. unfold len in HL. eapply steps_drains.
  - pose proof (lang_first c r l (length l) H) as F. rewrite firstn_all in F. apply F; lia.
  - rewrite (lang_next c r l) by (try exact H; lia).
    replace (nth_error l _) with (@None text) by (symmetry; apply nth_error_None; lia).
    f_equal. f_equal. f_equal. unfold len. lia.
Qed.
(* the same with 254 strings if overflow is not checked *)
Lemma langs_drain_254 c r l : strings_of (strings r) l -> len l = 254 -> overflow_checks c = false ->
  drains (InstallableLanguages_next c) (langs r 1) l (langs r 0).
Proof.
  intros H HL HC. unfold len in HL. eapply steps_drains.
  - pose proof (lang_first c r l (length l) H) as F. rewrite firstn_all in F. apply F; lia.
  - replace (1 + N.of_nat (length l)) with 255 by lia. rewrite (lang_next_wraps c r l HC H).
    replace (nth_error l 254) with (@None text) by (symmetry; apply nth_error_None; lia). reflexivity.
Qed.
(* 254 strings or more: with overflow checks, a panic after the 254th *)
Lemma langs_panic c r l : strings_of (strings r) l -> 254 <= len l -> overflow_checks c = true ->
  runs (InstallableLanguages_next c) (langs r 1) (take 254 l) Panicked.
Proof.
  intros H HL HC. unfold len in HL. eapply steps_runs_panic.
  - unfold take. apply (lang_first c r l (N.to_nat 254) H); lia.
  - change (1 + N.of_nat (N.to_nat 254)) with 255. apply lang_next_checked, HC.
Qed.
Lemma firstn_snoc {A} n : forall l : list A,
  firstn (S n) l = firstn n l ++ match nth_error l n with Some t => [t] | None => [] end.
Proof.
  induction n as [|n IH]; intros [|a l]; try reflexivity. cbn [firstn nth_error app]. f_equal. apply IH.
Qed.
(* 255 strings or more: without, the iterator comes back to where it was *)
Lemma langs_cycle c r l : strings_of (strings r) l -> 255 <= len l -> overflow_checks c = false ->
  steps (InstallableLanguages_next c) (langs r 1) (map Some (take 255 l ++ [[]])) (langs r 1).
Proof.
  intros H HL HC. unfold len in HL.
  assert (E : take 255 l = take 254 l ++ match nth_error l 254 with Some t => [t] | None => [] end).
  { unfold take. change (N.to_nat 255) with (S 254). change (N.to_nat 254) with 254%nat. apply firstn_snoc. }
  destruct (nth_error l 254) as [t|] eqn:NT; [|apply nth_error_None in NT; lia].
  rewrite E, <- app_assoc, map_app. eapply steps_app.
  - unfold take. apply (lang_first c r l (N.to_nat 254) H); lia.
  - change (1 + N.of_nat (N.to_nat 254)) with 255. cbn [app map].
    econstructor; [rewrite (lang_next_wraps c r l HC H), NT; reflexivity|].
    econstructor; [apply lang_next_zero|]. constructor.
Qed.
(* after the end: more calls answer None until the index reaches 255 *)
Lemma langs_after c r l : strings_of (strings r) l -> len l < 254 ->
  steps (InstallableLanguages_next c) (langs r (len l + 2)) (repeat None (N.to_nat (253 - len l))) (langs r 255).
Proof.
  intros H HL. unfold len in *.
  pose proof (lang_steps c r l H (N.to_nat (253 - N.of_nat (length l))) (N.of_nat (length l) + 2)) as P.
  rewrite map_nth_none in P by lia.
  replace (N.of_nat (length l) + 2 + N.of_nat (N.to_nat (253 - N.of_nat (length l)))) with 255 in P by lia.
  apply P; lia.
Qed.
Lemma langs_after_wraps c r l : strings_of (strings r) l -> len l < 254 -> overflow_checks c = false ->
  steps (InstallableLanguages_next c) (langs r (len l + 2)) (repeat None (N.to_nat (254 - len l)) ++ [Some []]) (langs r 1).
Proof.
  intros H HL HC. replace (N.to_nat (254 - len l)) with (N.to_nat (253 - len l) + 1)%nat by lia.
  rewrite repeat_app, <- app_assoc. eapply steps_app; [apply langs_after; assumption|].
  cbn [repeat app]. econstructor.
  - rewrite (lang_next_wraps c r l HC H).
    replace (nth_error l 254) with (@None text) by (symmetry; apply nth_error_None; unfold len in HL; lia). reflexivity.
  - econstructor; [apply lang_next_zero|]. constructor.
Qed.

(* ---------------------------------------------------------------- type 14 *)

Lemma group_eq c r : 5 <= length_ r -> length_ r <= 4 + len (data r) -> length_ r < 256 ->
  GroupAssociations_try_from c r =
  Val match find_string r (at_ 0 1 (data r)) with
      | Ok t => Ok {| group_handle := handle r; group_group_name := t;
                      group_items := {| gi_data := take (length_ r - 5) (drop 1 (data r)); gi_index := 0 |} |}
      | Err e => Err e
      end.
Proof.
  intros H1 H2 H3. unfold GroupAssociations_try_from, u_sub.
  destruct (N.leb_spec 5 (length_ r)); [|lia]. rewrite obind_val.
  rewrite get_slice_field by get_side. rewrite obind_val.
  destruct (N.leb_spec (5 + (length_ r - 5)) (4 + len (data r))); [|lia].
  rewrite get_string_field by get_side. rewrite field_in by (unfold reaches; lia).
  change (4 - 4) with 0. change (5 - 4) with 1. destruct (find_string r _); reflexivity.
Qed.

Lemma group_ok c r s : length_ r = 4 + len (data r) -> 5 <= length_ r < 256 ->
  (GroupAssociations_try_from c r = Val (Ok s) <->
   group_handle s = handle r /\ text_field r 0x04 (group_group_name s) /\
   group_items s = {| gi_data := drop 1 (data r); gi_index := 0 |}).
Proof.
  intros H1 H2. rewrite group_eq by lia. rewrite text_field_iff by (unfold reaches; lia). change (4 - 4) with 0.
  rewrite take_all by (lens; lia).
  destruct s as [s1 s2 s3]. cbn [group_handle group_group_name group_items].
  destruct (find_string r (at_ 0 1 (data r))) as [t|e]; split.
  - intros [= <- <- <-]. auto.
  - intros [-> [[= ->] ->]]. reflexivity.
  - discriminate.
  - intros [_ [? _]]. discriminate.
Qed.
Lemma group_err c r e : length_ r = 4 + len (data r) -> 5 <= length_ r < 256 ->
  (GroupAssociations_try_from c r = Val (Err e) <-> bad_text_field r 0x04 e).
Proof.
  intros H1 H2. rewrite group_eq by lia. rewrite bad_text_field_iff by (unfold reaches; lia). change (4 - 4) with 0.
  destruct (find_string r (at_ 0 1 (data r))) as [t|e']; split; congruence.
Qed.
Lemma group_returns c r : length_ r = 4 + len (data r) -> 5 <= length_ r < 256 ->
  exists o, GroupAssociations_try_from c r = Val o.
Proof. intros H1 H2. rewrite group_eq by lia. eauto. Qed.
Lemma group_short c r : length_ r = 4 + len (data r) -> length_ r < 5 ->
  GroupAssociations_try_from c r =
  if overflow_checks c then Panic
  else Val (Err (InvalidFormattedSectionLength InfoType_GroupAssociations (handle r) EmptyString (length_ r))).
Proof.
  intros H1 H2. assert (E : length_ r = 4) by lia. unfold GroupAssociations_try_from. rewrite E.
  unfold u_sub. change (5 <=? 4) with false. cbv iota. destruct (overflow_checks c) eqn:O; [reflexivity|].
  rewrite obind_val. unfold get_slice, u_sub, u_add. rewrite O.
  change (4 <=? 5) with true. cbv iota. rewrite obind_val.
  unfold usize_bits. destruct (pointer_width c).
  - change (5 - 4 + (2 ^ 32 + 4 - 5) <? 2 ^ 32) with false. cbv iota. rewrite obind_val.
    change ((5 - 4 + (2 ^ 32 + 4 - 5)) mod 2 ^ 32) with 0. reflexivity.
  - change (5 - 4 + (2 ^ 64 + 4 - 5) <? 2 ^ 64) with false. cbv iota. rewrite obind_val.
    change ((5 - 4 + (2 ^ 64 + 4 - 5)) mod 2 ^ 64) with 0. reflexivity.
Qed.

Lemma items_drain n : forall pre l, (length l / 3 = n)%nat ->
  exists recs rest is_ s', l = concat recs ++ rest /\ len rest < 3 /\
    drains (lift_next GroupItems_next) {| gi_data := pre ++ l; gi_index := len pre |} is_ s' /\ Forall2 item_means recs is_.
Proof.
  induction n as [|n IH]; intros pre l HL.
  - exists [], l, []. eexists. split; [reflexivity|]. split; [unfold len; lia|]. split; [|constructor].
    apply drains_nil. unfold lift_next, GroupItems_next. cbn [gi_data gi_index].
    replace (slice_get (pre ++ l) (len pre) (len pre + 3)) with (@None (list N)); [reflexivity|].
    symmetry. apply slice_get_none. rewrite len_app. unfold len. lia.
  - destruct l as [|t l]; [cbn in HL; lia|]. destruct l as [|h0 l]; [cbn in HL; lia|]. destruct l as [|h1 l]; [cbn in HL; lia|].
    destruct (IH (pre ++ [t; h0; h1]) l) as [recs [rest [is_ [s' [E [R [D F]]]]]]].
    { change (length (t :: h0 :: h1 :: l)) with (3 + length l)%nat in HL.
      replace (3 + length l)%nat with (1 * 3 + length l)%nat in HL by lia. rewrite Nat.div_add_l in HL by lia. lia. }
    exists ([t; h0; h1] :: recs), rest. eexists (_ :: is_), s'. split; [cbn; congruence|]. split; [exact R|]. split.
    + eapply drains_cons; [|rewrite <- app_assoc in D; exact D].
      unfold lift_next, GroupItems_next. cbn [gi_data gi_index].
      assert (G : slice_get (pre ++ t :: h0 :: h1 :: l) (len pre) (len pre + 3) = Some [t; h0; h1]).
      { apply slice_get_some. split; [lia|]. split; [rewrite len_app; unfold len; cbn [length]; lia|].
        rewrite drop_app_exact by reflexivity. replace (len pre + 3 - len pre) with 3 by lia. reflexivity. }
      rewrite G. rewrite len_app. reflexivity.
    + constructor; [|exact F]. exists t, h0, h1. split; [reflexivity|].
      change (at_ 0 1 [t; h0; h1]) with (t + 256 * 0). change (at_ 1 2 [t; h0; h1]) with (h0 + 256 * (h1 + 256 * 0)).
      rewrite !N.mul_0_r, !N.add_0_r. reflexivity.
Qed.

Lemma group_items_drain c r s : length_ r = 4 + len (data r) -> 5 <= length_ r < 256 ->
  GroupAssociations_try_from c r = Val (Ok s) ->
  exists name recs rest items s', data r = [name] ++ concat recs ++ rest /\ len rest < 3 /\
    drains (lift_next GroupItems_next) (group_items s) items s' /\ Forall2 item_means recs items.
Proof.
  intros H1 H2 H. apply group_ok in H; try assumption. destruct H as [_ [_ ->]].
  destruct (data r) as [|name d] eqn:E; [unfold len in H1; cbn [length] in H1; lia|].
  destruct (items_drain _ [] d eq_refl) as [recs [rest [items [s' [E2 [R [D F]]]]]]].
  exists name, recs, rest, items, s'. cbn [app] in *. rewrite <- E2. auto.
Qed.
