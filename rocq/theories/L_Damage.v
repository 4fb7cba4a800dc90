(* Lemmas for C88: damaged entry points. *)
From Coq Require Import ZArith Lia ZifyBool ZifyNat ZifyN Permutation.
From Verif Require Import Base G_Enums M_Raw M_Entry Spec S_Entry S_Damage L_Base L_Entry.
Local Open Scope N_scope.
Ltac Zify.zify_post_hook ::= Z.div_mod_to_equations.

Lemma option_N_dec (x y : option N) : {x = y} + {x <> y}.
Proof. decide equality. apply N.eq_dec. Qed.

Lemma untouched k n o b b' i : damaged_inside k n o b b' ->
  (forall j, i = o + j -> j < n -> anchor_or_length k j) -> byte_at b' i = byte_at b i.
Proof.
  intros [_ D] H. destruct (option_N_dec (byte_at b' i) (byte_at b i)) as [E|E]; [exact E|].
  destruct (D i E) as [j [E1 [E2 E3]]]. destruct (E3 (H j E1 E2)).
Qed.

Lemma damaged_anchor k n o b b' : damaged_inside k n o b b' -> first_anchor b o k -> first_anchor b' o k.
Proof.
  intros D. apply first_anchor_ext. intros i H. symmetry. apply (untouched k n o b b' i D).
  intros j -> _. destruct k; cbn in *; lia.
Qed.

Lemma damaged_length k n o b b' : damaged_inside k n o b b' -> declared_length k (drop o b') = declared_length k (drop o b).
Proof.
  intros D. destruct k; cbn [declared_length]; unfold value_at; f_equal; apply take_ext; intros j Hj;
    rewrite (byte_at_drop (drop o b)), (byte_at_drop (drop o b')), !byte_at_drop; apply (untouched _ _ _ _ _ _ D);
    intros i E _; cbn; lia.
Qed.

Lemma damaged_verdict b b' e o : let k := kind_of e in let n := declared_length k (drop o b) in
  search b = Val (Ok e) -> first_anchor b o k -> damaged_inside k n o b b' ->
  (2 <= declared_major k (drop o b') -> total (covered n o b') mod 256 = 0 ->
     exists e', search b' = Val (Ok e') /\ kind_of e' = k /\ describes (drop o b') e') /\
  (2 <= declared_major k (drop o b') -> total (covered n o b') mod 256 <> 0 ->
     search b' = Val (Err (BadChecksum (total (covered n o b') mod 256)))) /\
  (declared_major k (drop o b') < 2 -> search b' = Val (Err (TooOldVersion (declared_major k (drop o b'))))).
Proof.
  intros k n HS F D. apply (search_verdict b o k _ F) in HS. inversion HS as [| | | | |? H1 H2 H3 H4 H5 H6 H7]; subst.
  pose proof (damaged_anchor _ _ _ _ _ D F) as F'. pose proof (damaged_length _ _ _ _ _ D) as EL. fold n in EL.
  assert (LE : len (drop o b') = len (drop o b)) by (rewrite !len_drop; destruct D as [-> _]; reflexivity).
  unfold covered. rewrite <- EL.
  split; [|split].
  - intros M T. exists (parse_of k (drop o b')). split; [|split; [apply parse_kind|apply parse_describes]].
    apply (search_verdict b' o k _ F'). apply accepted; try assumption; try (rewrite ?LE, ?EL; assumption).
    + apply parse_kind.
    + apply parse_describes.
  - intros M T. apply (search_verdict b' o k _ F'). apply bad_sum; try assumption; rewrite ?LE, ?EL; assumption.
  - intros M. apply (search_verdict b' o k _ F'). apply too_old; try assumption; rewrite ?LE, ?EL; assumption.
Qed.

Lemma total_permutation a b : Permutation a b -> total a = total b.
Proof. unfold total. induction 1; cbn [fold_right]; lia. Qed.

Lemma rearranged b b' e o : let k := kind_of e in let n := declared_length k (drop o b) in
  search b = Val (Ok e) -> first_anchor b o k -> damaged_inside k n o b b' ->
  Permutation (covered n o b') (covered n o b) -> declared_major k (drop o b') = declared_major k (drop o b) ->
  exists e', search b' = Val (Ok e') /\ kind_of e' = k /\ describes (drop o b') e'.
Proof.
  intros k n HS F D P M. destruct (damaged_verdict b b' e o HS F D) as [K _]. fold k n in K.
  pose proof HS as HV. apply (search_verdict b o k _ F) in HV. inversion HV as [| | | | |? H1 H2 H3 H4 H5 H6 H7]; subst.
  apply K; [fold k; rewrite M; assumption|]. rewrite (total_permutation _ _ P). assumption.
Qed.

Lemma value_at_take m o w b : o + w <= m -> value_at (take m b) o w = value_at b o w.
Proof. intros H. unfold value_at. rewrite take_drop_take by lia. reflexivity. Qed.
Lemma field_at_take m o w (b : list N) : o + w <= m -> take w (drop o (take m b)) = take w (drop o b).
Proof. intros H. rewrite take_drop_take by lia. reflexivity. Qed.

Lemma describes_take m b e : layout_size (kind_of e) <= m -> describes (take m b) e <-> describes b e.
Proof.
  intros H. destruct e; cbn [kind_of layout_size] in H; cbn [describes]; rewrite ?value_at_take by lia.
  - rewrite !field_at_take by lia. reflexivity.
  - rewrite take_take. replace (N.min 5 m) with 5 by lia. reflexivity.
Qed.
Lemma declared_length_take m k b : layout_size k <= m -> declared_length k (take m b) = declared_length k b.
Proof. intros H. destruct k; cbn [layout_size] in H; cbn [declared_length]; apply value_at_take; lia. Qed.
Lemma declared_major_take m k b : layout_size k <= m -> declared_major k (take m b) = declared_major k b.
Proof. intros H. destruct k; cbn [layout_size] in H; cbn [declared_major]; apply value_at_take; lia. Qed.

Lemma same_covered b b' e o : let k := kind_of e in let n := declared_length k (drop o b) in
  search b = Val (Ok e) -> first_anchor b o k -> first_anchor b' o k ->
  n <= len (drop o b') mod 256 -> covered n o b' = covered n o b -> search b' = Val (Ok e).
Proof.
  intros k n HS F F' HL E. apply (search_verdict b o k _ F) in HS. inversion HS as [| | | | |? H1 H2 H3 H4 H5 H6 H7]; subst.
  fold n in H2, H4, H5. unfold covered in E.
  assert (EL : declared_length k (drop o b') = n) by (rewrite <- (declared_length_take n), E, declared_length_take; auto).
  assert (EM : declared_major k (drop o b') = declared_major k (drop o b))
    by (rewrite <- (declared_major_take n), E, declared_major_take; auto).
  apply (search_verdict b' o k _ F'). apply accepted; rewrite ?EL, ?EM; try assumption.
  - lia.
  - rewrite E. assumption.
  - apply (describes_take n); [assumption|]. rewrite E. apply describes_take; assumption.
Qed.

Lemma anchor_len k : len (anchor_string k) <= layout_size k.
Proof. destruct k; cbn; lia. Qed.

Lemma anchor_small k : len (anchor_string k) <= 5.
Proof. destruct k; cbn; lia. Qed.

Lemma first_anchor_take b o k m : first_anchor b o k -> o + len (anchor_string k) <= m -> m <= len b -> first_anchor (take m b) o k.
Proof.
  intros F H HM. revert F. apply first_anchor_ext. intros i Hi. rewrite byte_at_take. destruct (N.ltb_spec i m); [reflexivity|lia].
Qed.
Lemma anchor_of_take b o k m : anchor_at (take m b) o k -> anchor_at b o k /\ o + len (anchor_string k) <= m.
Proof.
  intros [H [r E]]. rewrite drop_take in E. split; [split; [exact H|]|].
  - exists (r ++ drop (m - o) (drop o b)). rewrite app_assoc, <- E. symmetry. apply take_drop.
  - apply (f_equal len) in E. rewrite len_take, len_app in E. destruct k; cbn [anchor_string] in *; change (len [95; 83; 77; 95]) with 4 in *;
      change (len [95; 83; 77; 51; 95]) with 5 in *; lia.
Qed.

Lemma cut_off b e o m : let k := kind_of e in let n := declared_length k (drop o b) in
  search b = Val (Ok e) -> first_anchor b o k -> m <= len b ->
  (m < o + n -> exists er, search (take m b) = Val (Err er)) /\
  (o + n <= m -> n <= (m - o) mod 256 -> search (take m b) = Val (Ok e)) /\
  (o + n <= m -> (m - o) mod 256 < n -> search (take m b) = Val (Err (EpBadSize ((m - o) mod 256)))).
Proof.
  intros k n HS F HM. pose proof HS as HV. apply (search_verdict b o k _ F) in HV. inversion HV as [| | | | |? H1 H2 H3 H4 H5 H6 H7]; subst.
  fold n in H2, H4, H5. pose proof (anchor_len k) as HA. pose proof (layout_le_31 k) as H31.
  assert (LB : len (drop o b) = len b - o) by apply len_drop.
  assert (LT : len (drop o (take m b)) = m - o) by (rewrite len_drop, len_take; lia).
  split; [|split].
  - intros H. destruct (search_total (take m b)) as [[e'|er] S]; [|exists er; exact S]. exfalso.
    destruct (search_genuine _ _ S) as [o' [[A' N'] [V' D']]]. pose proof V' as [_ [VL _]].
    apply anchor_of_take in A'. destruct A' as [A' L'].
    assert (o' = o).
    { destruct F as [A N]. destruct (N.lt_trichotomy o' o) as [Q|[Q|Q]]; [destruct (N _ _ Q A')|exact Q|].
      assert (o + len (anchor_string k) <= m).
      { pose proof (proj1 A). pose proof (proj1 A'). pose proof (anchor_small k). lia. }
      destruct (N' o k Q). apply (first_anchor_take b o k m (conj A N)); assumption. }
    subst o'. pose proof (anchor_kind b o _ _ A' (proj1 F)) as EK. fold k in EK. rewrite EK in *.
    rewrite drop_take in VL. rewrite declared_length_take in VL.
    + fold n in VL. rewrite len_take in VL. lia.
    + destruct VL as [VL1 VL2]. rewrite len_take in VL2. lia.
  - intros H HL. apply (same_covered b (take m b) e o HS F).
    + apply first_anchor_take; [exact F| |exact HM]. fold k. lia.
    + fold k n. rewrite LT. exact HL.
    + fold k n. unfold covered. rewrite drop_take, take_take. f_equal. lia.
  - intros H HL. assert (F' : first_anchor (take m b) o k) by (apply first_anchor_take; [exact F|lia|exact HM]).
    apply (search_verdict _ o k _ F'). rewrite <- LT.
    assert (EL : declared_length k (drop o (take m b)) = n) by (rewrite drop_take, declared_length_take; [reflexivity|lia]).
    assert (EM : declared_major k (drop o (take m b)) = declared_major k (drop o b)) by (rewrite drop_take, declared_major_take; [reflexivity|lia]).
    apply remaining_too_small; rewrite ?EL, ?EM; try assumption; rewrite LT; [lia|assumption].
Qed.

(* a check, for the examples *)
Definition same_byte (x y : option N) : bool :=
  match x, y with Some a, Some b => a =? b | None, None => true | _, _ => false end.
Definition frozen (k : EntryPointFormat) (i : N) : bool :=
  match k with FmtV2 => (i <? 4) || (i =? 5) | FmtV3 => (i <? 5) || (i =? 6) end.
Definition damage_check (k : EntryPointFormat) (n o : N) (b b' : list N) : bool :=
  (len b' =? len b) &&
  forallb (fun i => let i := N.of_nat i in
             same_byte (byte_at b' i) (byte_at b i) || ((o <=? i) && (i - o <? n) && negb (frozen k (i - o))))
          (seq 0 (length b)).
Lemma damage_checked k n o b b' : damage_check k n o b b' = true -> damaged_inside k n o b b'.
Proof.
  unfold damage_check. intros H. apply andb_true_iff in H. destruct H as [HL H]. apply N.eqb_eq in HL. split; [exact HL|].
  intros i D. rewrite forallb_forall in H.
  destruct (N.le_gt_cases (len b) i) as [Q|Q].
  - destruct D. rewrite (proj2 (byte_at_none b i) Q). apply byte_at_none. lia.
  - specialize (H (N.to_nat i)). rewrite N2Nat.id in H. cbv zeta in H.
    assert (E : In (N.to_nat i) (seq 0 (length b))) by (apply in_seq; unfold len in Q; lia). specialize (H E).
    apply orb_true_iff in H. destruct H as [H|H].
    + destruct D. unfold same_byte in H. destruct (byte_at b' i), (byte_at b i); try discriminate; [|reflexivity].
      apply N.eqb_eq in H. congruence.
    + exists (i - o). destruct k; cbn [frozen anchor_or_length] in *; lia.
Qed.
Definition one_change (i : N) (b b' : list N) : bool :=
  (len b' =? len b) && negb (same_byte (byte_at b' i) (byte_at b i)) &&
  forallb (fun j => let j := N.of_nat j in (j =? i) || same_byte (byte_at b' j) (byte_at b j)) (seq 0 (length b)).
Lemma one_changed i b b' : one_change i b b' = true -> differ_only_at i b b'.
Proof.
  unfold one_change. intros H. apply andb_true_iff in H. destruct H as [H H3]. apply andb_true_iff in H. destruct H as [H1 H2].
  apply N.eqb_eq in H1. split; [exact H1|]. split.
  - intros E. rewrite E in H2. destruct (byte_at b i); cbn [same_byte] in H2; [rewrite N.eqb_refl in H2|]; discriminate.
  - intros j N. rewrite forallb_forall in H3. destruct (N.le_gt_cases (len b) j) as [Q|Q].
    + rewrite (proj2 (byte_at_none b j) Q). apply byte_at_none. lia.
    + specialize (H3 (N.to_nat j)). rewrite N2Nat.id in H3. cbv zeta in H3.
      assert (E : In (N.to_nat j) (seq 0 (length b))) by (apply in_seq; unfold len in Q; lia). specialize (H3 E).
      apply orb_true_iff in H3. destruct H3 as [H|H]; [lia|].
      unfold same_byte in H. destruct (byte_at b' j), (byte_at b j); try discriminate; [|reflexivity].
      apply N.eqb_eq in H. congruence.
Qed.
