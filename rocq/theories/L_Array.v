(* Proofs for type 16. *)
From Coq Require Import String.
From Coq Require Import ZArith Lia ZifyBool ZifyNat ZifyN.
From Verif Require Import Base G_Enums M_Raw M_PhysicalMemoryArray.
From Verif Require Import Spec S_Enums S_Decode S_Memory L_Base L_Strings L_Enums L_Decode L_Memory.
Local Open Scope N_scope.
Ltac Zify.zify_post_hook ::= Z.div_mod_to_equations.

Lemma index_field r i : index (data r) i = match field r (4 + i) 1 with Some k => Val k | None => Panic end.
Proof.
  unfold index. destruct (N.le_gt_cases (5 + i) (4 + len (data r))) as [H|H].
  - rewrite field_in by (unfold reaches; lia). replace (4 + i - 4) with i by lia.
    destruct (nth_error (data r) (N.to_nat i)) as [b|] eqn:E.
    + unfold at_. replace (take 1 (drop i (data r))) with [b]; [cbn; f_equal; lia|].
      unfold take, drop. change (N.to_nat 1) with 1%nat. revert E. generalize (N.to_nat i) (data r). clear.
      induction n as [|n IH]; intros [|x l] E; try discriminate; cbn in *; [injection E as ->; reflexivity|apply IH, E].
    + apply nth_error_None in E. unfold len in H. lia.
  - rewrite field_out by (unfold reaches; lia).
    destruct (nth_error (data r) (N.to_nat i)) eqn:E; [|reflexivity].
    assert (nth_error (data r) (N.to_nat i) <> None) by congruence. rewrite nth_error_Some in *. unfold len in H. lia.
Qed.
Lemma uint_field w p r : get_uint w p (data r) = match field r (4 + p) w with Some k => Val (Ok (k, p + w)) | None => Panic end.
Proof.
  unfold get_uint, slice_index, slice_get. replace (p <=? p + w) with true by lia. cbn [andb].
  destruct (N.leb_spec (p + w) (len (data r))).
  - rewrite field_in by (unfold reaches; lia). rewrite obind_val. unfold at_. replace (4 + p - 4) with p by lia.
    replace (p + w - p) with w by lia. reflexivity.
  - rewrite field_out by (unfold reaches; lia). reflexivity.
Qed.
Lemma opt_uint_field w p r u : get_optional_uint w p (data r) u =
  match field r (4 + p) w with Some k => Val (Ok (if k =? u then None else Some k, p + w)) | None => Panic end.
Proof.
  unfold get_optional_uint. rewrite uint_field. destruct (field r (4 + p) w) as [k|]; [|reflexivity].
  rewrite rbind_ok. destruct (k =? u); reflexivity.
Qed.

Lemma array_default c r : before_version (version r) 2 2 -> PhysicalMemoryArray_try_from c r = Val (Ok PhysicalMemoryArray_default).
Proof.
  intros H. unfold PhysicalMemoryArray_try_from. versions; try vlia; reflexivity.
Qed.

Lemma reaches_field r off w : 4 <= off -> (reaches r off w <-> exists k, field r off w = Some k).
Proof.
  intros H. split.
  - intros R. eexists. apply field_in; assumption.
  - intros [k F]. apply field_some in F. unfold reaches. lia.
Qed.
Lemma but_none r off w u o : field r off w = Some u -> (if_there_but r off w u o <-> o = None).
Proof. intros F. rewrite if_there_but_iff, F. cbn. rewrite N.eqb_refl. reflexivity. Qed.

Definition found_array (r : RawStructure) (ext : option N) : PhysicalMemoryArray := {|
  array_handle := handle r;
  array_location := meaning MemoryArrayLocation_codes_here MemoryArrayLocation_Undefined (at_ 0 1 (data r));
  array_use := meaning MemoryArrayUse_codes MemoryArrayUse_Undefined (at_ 1 1 (data r));
  array_memory_error_correction :=
    meaning MemoryArrayErrorCorrectionTypes_codes MemoryArrayErrorCorrectionTypes_Undefined (at_ 2 1 (data r));
  array_maximum_capacity := (if at_ 3 4 (data r) =? 0x80000000 then None else Some (at_ 3 4 (data r)));
  array_memory_error_information_handle := (if at_ 7 2 (data r) =? 0xFFFE then None else Some (at_ 7 2 (data r)));
  array_number_of_memory_devices := at_ 9 2 (data r);
  array_extended_maximum_capacity := ext |}.

Lemma array_eq c r : from_version (version r) 2 2 ->
  PhysicalMemoryArray_try_from c r =
  if 15 <=? 4 + len (data r) then
    if since (version r) 2 8 && (at_ 3 4 (data r) =? 0x80000000) then
      if 23 <=? 4 + len (data r) then
        Val (Ok (found_array r (if at_ 11 8 (data r) =? 0 then None else Some (at_ 11 8 (data r)))))
      else Panic
    else Val (Ok (found_array r None))
  else Panic.
Proof.
  intros V. unfold PhysicalMemoryArray_try_from. rewrite !index_field.
  assert (VG : version_gt (version r) (version_of 2 1) = true) by (apply version_gt_iff; [reflexivity|reflexivity|exact V]).
  rewrite VG. rewrite opt_uint_field. change (4 + 0) with 4. change (4 + 1) with 5. change (4 + 2) with 6. change (4 + 3) with 7.
  destruct (N.leb_spec 15 (4 + len (data r))) as [H|H].
  - rewrite (field_in r 4 1), (field_in r 5 1), (field_in r 6 1), (field_in r 7 4) by (unfold reaches; lia).
    rewrite !obind_val, rbind_ok. change (3 + 4) with 7.
    rewrite opt_uint_field. change (4 + 7) with 11. rewrite (field_in r 11 2) by (unfold reaches; lia). rewrite rbind_ok.
    change (7 + 2) with 9. rewrite uint_field. change (4 + 9) with 13. rewrite (field_in r 13 2) by (unfold reaches; lia).
    rewrite !rbind_ok. change (9 + 2) with 11.
    change (4 - 4) with 0. change (5 - 4) with 1. change (6 - 4) with 2. change (7 - 4) with 3. change (11 - 4) with 7. change (13 - 4) with 9.
    cbv beta iota. cbn [array_handle array_location array_use array_memory_error_correction array_maximum_capacity
      array_memory_error_information_handle array_number_of_memory_devices array_extended_maximum_capacity].
    rewrite MemoryArrayLocation_from_meaning, MemoryArrayUse_from_meaning, MemoryArrayErrorCorrectionTypes_from_meaning.
    destruct (version_gt (version r) (version_of 2 7)) eqn:VE.
    + replace (since (version r) 2 8) with true by (symmetry; apply since_iff; apply version_gt_iff in VE; [exact VE|reflexivity|reflexivity]).
      cbn [andb]. unfold found_array. destruct (at_ 3 4 (data r) =? 0x80000000).
      * rewrite opt_uint_field. change (4 + 11) with 15. destruct (N.leb_spec 23 (4 + len (data r))).
        -- rewrite field_in by (unfold reaches; lia). rewrite !rbind_ok. reflexivity.
        -- rewrite field_out by (unfold reaches; lia). reflexivity.
      * rewrite rbind_ok. reflexivity.
    + replace (since (version r) 2 8) with false by (symmetry; apply since_not; apply version_gt_not in VE; [exact VE|reflexivity|reflexivity]).
      reflexivity.
  - destruct (field r 4 1) eqn:F4; [|reflexivity]. rewrite obind_val.
    destruct (field r 5 1) eqn:F5; [|reflexivity]. rewrite obind_val.
    destruct (field r 6 1) eqn:F6; [|reflexivity]. rewrite obind_val.
    destruct (field r 7 4) eqn:F7; [|reflexivity]. rewrite rbind_ok. change (3 + 4) with 7.
    rewrite opt_uint_field. change (4 + 7) with 11. destruct (field r 11 2) eqn:F11; [|reflexivity]. rewrite rbind_ok.
    change (7 + 2) with 9. rewrite uint_field. change (4 + 9) with 13. rewrite (field_out r 13 2) by (unfold reaches; lia). reflexivity.
Qed.

Lemma but_at r off w u o : 4 <= off -> reaches r off w ->
  (if_there_but r off w u o <-> o = if at_ (off - 4) w (data r) =? u then None else Some (at_ (off - 4) w (data r))).
Proof. intros H R. rewrite if_there_but_iff, field_in by assumption. cbn [ofilter]. destruct (_ =? _); reflexivity. Qed.

Lemma found_array_says r s : reaches r 0x0D 2 ->
  (PhysicalMemoryArray_says r s <->
   s = found_array r (array_extended_maximum_capacity s) /\
   ((from_version (version r) 2 8 /\ field_is r 0x07 4 0x80000000 /\ if_there_but r 0x0F 8 0 (array_extended_maximum_capacity s)) \/
      (~ (from_version (version r) 2 8 /\ field_is r 0x07 4 0x80000000) /\ array_extended_maximum_capacity s = None))).
Proof.
  intros R. unfold reaches in R. split.
  - intros H. destruct s as [s1 s2 s3 s4 s5 s6 s7 s8]. destruct H as [H1 H2 H3 H4 H5 H6 H7 H8].
    cbn [array_handle array_location array_use array_memory_error_correction array_maximum_capacity
      array_memory_error_information_handle array_number_of_memory_devices array_extended_maximum_capacity] in *.
    split; [|exact H8].
    apply code_field_iff in H2, H3, H4; try (unfold reaches; lia). apply but_at in H5, H6; try (unfold reaches; lia).
    apply field_is_iff in H7; try (unfold reaches; lia). subst. reflexivity.
  - intros [E H8]. destruct s as [s1 s2 s3 s4 s5 s6 s7 s8]. unfold found_array in E. injection E as E1 E2 E3 E4 E5 E6 E7.
    constructor; cbn [array_handle array_location array_use array_memory_error_correction array_maximum_capacity
      array_memory_error_information_handle array_number_of_memory_devices array_extended_maximum_capacity];
    [exact E1| | | | | | |exact H8].
    1-3: apply code_field_iff; try (unfold reaches; lia); assumption.
    1-2: apply but_at; try (unfold reaches; lia); assumption.
    apply field_is_iff; try (unfold reaches; lia); assumption.
Qed.

Lemma array_ok c r s : from_version (version r) 2 2 ->
  (PhysicalMemoryArray_try_from c r = Val (Ok s) <-> array_reached r /\ PhysicalMemoryArray_says r s).
Proof.
  intros V. rewrite array_eq by exact V. unfold array_reached.
  destruct (N.leb_spec 15 (4 + len (data r))) as [H|H].
  2: { split; [discriminate|]. intros [A _]. destruct (A V) as [A1 _]. unfold reaches in A1. lia. }
  assert (R : reaches r 0x0D 2) by (unfold reaches; lia).
  rewrite found_array_says by exact R. rewrite field_is_iff by (unfold reaches; lia). change (7 - 4) with 3.
  destruct (since (version r) 2 8) eqn:S; cbn [andb]; [apply since_iff in S|apply since_not in S].
  - destruct (N.eqb_spec (at_ 3 4 (data r)) 0x80000000) as [E|E].
    + destruct (N.leb_spec 23 (4 + len (data r))).
      * rewrite but_at by (unfold reaches; lia). change (15 - 4) with 11. split.
        -- intros X. injection X as <-. split; [intros _; split; [exact R|intros _ _; unfold reaches; lia]|].
           split; [reflexivity|]. left. auto.
        -- intros [_ [E1 [[_ [_ E2]]|[N _]]]]; [|exfalso; apply N; auto]. rewrite E2 in E1. rewrite <- E1. reflexivity.
      * split; [discriminate|]. intros [A _]. destruct (A V) as [_ A1]. specialize (A1 S (eq_sym E)). unfold reaches in A1. lia.
    + split.
      * intros X. injection X as <-. split; [intros _; split; [exact R|intros _ X; symmetry in X; contradiction]|].
        split; [reflexivity|]. right. split; [|reflexivity]. intros [_ X]. symmetry in X. contradiction.
      * intros [_ [E1 [[_ [X _]]|[_ E2]]]]; [symmetry in X; contradiction|]. rewrite E2 in E1. rewrite <- E1. reflexivity.
  - split.
    + intros X. injection X as <-. split; [intros _; split; [exact R|intros; vlia]|].
      split; [reflexivity|]. right. split; [|reflexivity]. intros [X _]. vlia.
    + intros [_ [E1 [[X _]|[_ E2]]]]; [vlia|]. rewrite E2 in E1. rewrite <- E1. reflexivity.
Qed.

Lemma array_panic c r : PhysicalMemoryArray_try_from c r = Panic <-> ~ array_reached r.
Proof.
  unfold array_reached. destruct (since (version r) 2 2) eqn:V; [apply since_iff in V|apply since_not in V].
  2: { rewrite array_default by exact V. split; [discriminate|]. intros H. exfalso. apply H. intros; vlia. }
  rewrite array_eq by exact V. destruct (N.leb_spec 15 (4 + len (data r))) as [H|H].
  2: { split; [|reflexivity]. intros _ A. destruct (A V) as [A1 _]. unfold reaches in A1. lia. }
  assert (R : reaches r 0x0D 2) by (unfold reaches; lia).
  rewrite field_is_iff by (unfold reaches; lia). change (7 - 4) with 3.
  destruct (since (version r) 2 8) eqn:S; cbn [andb]; [apply since_iff in S|apply since_not in S].
  - destruct (N.eqb_spec (at_ 3 4 (data r)) 0x80000000) as [E|E].
    + destruct (N.leb_spec 23 (4 + len (data r))).
      * split; [discriminate|]. intros X. exfalso. apply X. intros _. split; [exact R|]. intros _ _. unfold reaches. lia.
      * split; [|reflexivity]. intros _ A. destruct (A V) as [_ A1]. specialize (A1 S (eq_sym E)). unfold reaches in A1. lia.
    + split; [discriminate|]. intros X. exfalso. apply X. intros _. split; [exact R|]. intros _ Y. symmetry in Y. contradiction.
  - split; [discriminate|]. intros X. exfalso. apply X. intros _. split; [exact R|]. intros; vlia.
Qed.

Lemma array_total c r : PhysicalMemoryArray_try_from c r = Panic \/ exists s, PhysicalMemoryArray_try_from c r = Val (Ok s).
Proof.
  destruct (since (version r) 2 2) eqn:V; [apply since_iff in V|apply since_not in V].
  - rewrite array_eq by exact V.
    destruct (15 <=? 4 + len (data r)); [|auto]. destruct (_ && _); [destruct (23 <=? 4 + len (data r)); [|auto]|]; eauto.
  - rewrite array_default by exact V. eauto.
Qed.

Lemma array_extended_missed c r s : version_is (version r) 2 7 -> PhysicalMemoryArray_try_from c r = Val (Ok s) ->
  array_extended_maximum_capacity s = None.
Proof.
  intros V H. apply array_ok in H; [|vlia]. destruct H as [_ [_ _ _ _ _ _ _ [[X _]|[_ X]]]]; [vlia|exact X].
Qed.
