(* Proofs for type 3. *)
From Coq Require Import String.
From Coq Require Import ZArith Lia ZifyBool ZifyNat ZifyN.
From Verif Require Import Base G_Enums M_Raw M_Enclosure.
From Verif Require Import Spec S_Enums S_Iter S_Decode S_System L_Base L_Strings L_Enums L_Frame L_Decode.
Local Open Scope N_scope.
Ltac Zify.zify_post_hook ::= Z.div_mod_to_equations.

(* the field of w bytes at position k, and what follows it *)
Definition opt (k w : N) (d : list N) : option (N * list N) :=
  if k + w <=? len d then Some (at_ k w d, drop (k + w) d) else None.

Lemma read_bytes_drop w k d : 0 < w -> read_bytes w (drop k d) = opt k w d.
Proof.
  intros Hw. unfold read_bytes, opt. rewrite len_drop.
  destruct (N.ltb_spec (len d - k) w); destruct (N.leb_spec (k + w) (len d)); try lia; [reflexivity|].
  rewrite drop_drop. f_equal. f_equal. f_equal. lia.
Qed.

Lemma opt_then k w w' d : 0 < w' -> oand_then (opt k w d) (fun '(_, x) => read_bytes w' x) = opt (k + w) w' d.
Proof.
  intros Hw. unfold opt at 1. destruct (N.leb_spec (k + w) (len d)); cbn [oand_then].
  - apply read_bytes_drop, Hw.
  - unfold opt. destruct (N.leb_spec (k + w + w') (len d)); [lia|reflexivity].
Qed.

Lemma opt_in k w r : reaches r (k + 4) w -> opt k w (data r) = Some (at_ k w (data r), drop (k + w) (data r)).
Proof. unfold reaches, opt. intros H. destruct (N.leb_spec (k + w) (len (data r))); [reflexivity|lia]. Qed.

Lemma opt_field k w r : option_map fst (opt k w (data r)) = field r (k + 4) w.
Proof.
  unfold opt. destruct (N.leb_spec (k + w) (len (data r))); cbn [option_map fst].
  - rewrite field_in by (unfold reaches; lia). replace (k + 4 - 4) with k by lia. reflexivity.
  - symmetry. apply field_out. unfold reaches. lia.
Qed.

Lemma opt_when {A} k w r (f : N -> A) (P : A -> Prop) :
  (reaches r (k + 4) w -> P (f (at_ k w (data r)))) ->
  when (reaches r (k + 4) w) P (option_map (fun x => f (fst x)) (opt k w (data r))).
Proof.
  unfold opt. intros H. destruct (N.leb_spec (k + w) (len (data r))) as [L|L]; cbn [option_map fst].
  - apply when_true; [unfold reaches; lia|]. eexists. split; [reflexivity|]. apply H. unfold reaches. lia.
  - apply when_false; [unfold reaches; lia|reflexivity].
Qed.

(* ---------------------------------------------------------------- elements *)

Lemma elements_new c r : (overflow_checks c = true -> ~ records_overflow r) ->
  match opt 14 1 (data r) with
  | Some (_, d) => ContainedElements_new c d (after r)
  | None => Val None
  end =
  Val (if 0x15 + record_bytes r <=? 4 + len (data r) then
         Some ({| ce_chunks := take (record_bytes r) (drop 17 (data r));
                  ce_after := if (at_ 15 1 (data r) =? 0) || (at_ 16 1 (data r) =? 0) then []
                              else drop (record_bytes r) (drop 17 (data r)) ++ after r;
                  ce_count := at_ 15 1 (data r); ce_record_length := at_ 16 1 (data r) |},
               drop (17 + record_bytes r) (data r))
       else None).
Proof.
  intros HO. unfold record_bytes, opt, ContainedElements_new.
  destruct (N.leb_spec (14 + 1) (len (data r))) as [L1|L1].
  2:{ rewrite field_out by (unfold reaches; lia). destruct (N.leb_spec (21 + 0) (4 + len (data r))); [lia|reflexivity]. }
  change (14 + 1) with 15. rewrite read_bytes_drop by lia. unfold opt.
  destruct (N.leb_spec (15 + 1) (len (data r))) as [L2|L2].
  2:{ rewrite field_out by (unfold reaches; lia). destruct (N.leb_spec (21 + 0) (4 + len (data r))); [lia|reflexivity]. }
  change (15 + 1) with 16. rewrite read_bytes_drop by lia. unfold opt. rewrite (field_in r 0x13) by (unfold reaches; lia).
  destruct (N.leb_spec (16 + 1) (len (data r))) as [L3|L3].
  2:{ rewrite field_out by (unfold reaches; lia). destruct (N.leb_spec (21 + 0) (4 + len (data r))); [lia|reflexivity]. }
  change (16 + 1) with 17. rewrite (field_in r 0x14) by (unfold reaches; lia).
  change (0x13 - 4) with 15. change (0x14 - 4) with 16.
  assert (HN : overflow_checks c = true -> at_ 15 1 (data r) * at_ 16 1 (data r) < 256).
  { intros HC. apply N.lt_nge. intros HX. apply (HO HC). exists (at_ 15 1 (data r)), (at_ 16 1 (data r)).
    repeat split; [apply field_is_iff; [lia|unfold reaches; lia|reflexivity]|apply field_is_iff; [lia|unfold reaches; lia|reflexivity]|exact HX]. }
  set (n := at_ 15 1 (data r)) in *. set (m := at_ 16 1 (data r)) in *.
  destruct (N.eqb_spec n 0) as [N0|N0]; cbn [orb].
  - rewrite N0. cbn [N.mul]. rewrite N.mod_0_l by discriminate.
    destruct (N.leb_spec (21 + 0) (4 + len (data r))); [|lia]. rewrite N.add_0_r. reflexivity.
  - destruct (N.eqb_spec m 0) as [M0|M0].
    + rewrite M0, N.mul_0_r. rewrite N.mod_0_l by discriminate.
      destruct (N.leb_spec (21 + 0) (4 + len (data r))); [|lia]. rewrite N.add_0_r. reflexivity.
    + assert (U : u_mul c 8 n m = Val ((n * m) mod 256)).
      { unfold u_mul. change (2 ^ 8) with 256. destruct (N.ltb_spec (n * m) 256) as [LT|GE].
        - rewrite N.mod_small by exact LT. reflexivity.
        - destruct (overflow_checks c); [specialize (HN eq_refl); lia|reflexivity]. }
      rewrite U. cbn [obind]. unfold slice_get. destruct (N.leb_spec 0 ((n * m) mod 256)); [|lia]. cbn [andb]. rewrite len_drop.
      destruct (N.leb_spec ((n * m) mod 256) (len (data r) - 17));
      destruct (N.leb_spec (21 + (n * m) mod 256) (4 + len (data r))); try lia; [|reflexivity].
      rewrite N.sub_0_r, drop_0, drop_drop. do 3 f_equal. f_equal. apply N.add_comm.
Qed.

Lemma land_128 b : b < 256 -> negb (N.land b 0x80 =? 0) = (128 <=? b).
Proof.
  intros H.
  assert (F : forallb (fun b => eqb (negb (N.land b 0x80 =? 0)) (128 <=? b)) (map N.of_nat (seq 0 256)) = true) by (vm_compute; reflexivity).
  apply eqb_prop. rewrite forallb_forall in F. apply F.
  apply in_map_iff. exists (N.to_nat b). split; [lia|]. apply in_seq. lia.
Qed.
Lemma land_127 b : N.land b 0x7F = b mod 128.
Proof. change 0x7F with (N.ones 7). apply N.land_ones. Qed.

(* the decoder with all its reads resolved *)
Lemma Enclosure_resolved c r : 5 <= len (data r) -> Enclosure_fits c r ->
  Enclosure_try_from c r =
  let d := data r in
  let? manufacturer := Val (find_string r (at_ 0 1 d)) in
  let? version_ := Val (find_string r (at_ 2 1 d)) in
  let? serial_number := Val (find_string r (at_ 3 1 d)) in
  let? asset_tag_number := Val (find_string r (at_ 4 1 d)) in
  let? sku_number := match opt (17 + record_bytes r) 1 d with
                     | Some (n, _) => Val (rmap Some (find_string r n))
                     | None => Val (Ok None)
                     end in
  Val (Ok {|
    enclosure_handle := handle r;
    enclosure_manufacturer := manufacturer;
    enclosure_chassis_lock := negb (N.land (at_ 1 1 d) 0x80 =? 0);
    enclosure_enclosure_type := EnclosureType_from (N.land (at_ 1 1 d) 0x7F);
    enclosure_version := version_;
    enclosure_serial_number := serial_number;
    enclosure_asset_tag_number := asset_tag_number;
    enclosure_boot_up_state := option_map (fun x => State_from (fst x)) (opt 5 1 d);
    enclosure_power_supply_state := option_map (fun x => State_from (fst x)) (opt 6 1 d);
    enclosure_thermal_state := option_map (fun x => State_from (fst x)) (opt 7 1 d);
    enclosure_security_status := option_map (fun x => SecurityStatus_from (fst x)) (opt 8 1 d);
    enclosure_oem_defined := option_map fst (opt 9 4 d);
    enclosure_height := option_map fst (opt 13 1 d);
    enclosure_power_cords_number := option_map fst (opt 14 1 d);
    enclosure_contained_elements :=
      if 0x15 + record_bytes r <=? 4 + len d then
         Some {| ce_chunks := take (record_bytes r) (drop 17 d);
                 ce_after := if (at_ 15 1 d =? 0) || (at_ 16 1 d =? 0) then []
                             else drop (record_bytes r) (drop 17 d) ++ after r;
                 ce_count := at_ 15 1 d; ce_record_length := at_ 16 1 d |}
       else None;
    enclosure_sku_number := sku_number
  |}).
Proof.
  intros HL HF. unfold Enclosure_try_from. destruct (N.ltb_spec (len (data r)) 5); [lia|].
  cbv zeta. rewrite !at_take by lia. rewrite (read_bytes_drop 1 5) by lia.
  rewrite !opt_then by lia.
  change (5 + 1) with 6. change (6 + 1) with 7. change (7 + 1) with 8. change (8 + 1) with 9. change (9 + 4) with 13. change (13 + 1) with 14.
  rewrite (elements_new c r HF). cbn [obind].
  assert (S : oand_then
      (if 21 + record_bytes r <=? 4 + len (data r) then
         Some ({| ce_chunks := take (record_bytes r) (drop 17 (data r));
                  ce_after := if (at_ 15 1 (data r) =? 0) || (at_ 16 1 (data r) =? 0) then []
                              else drop (record_bytes r) (drop 17 (data r)) ++ after r;
                  ce_count := at_ 15 1 (data r); ce_record_length := at_ 16 1 (data r) |},
               drop (17 + record_bytes r) (data r))
       else None) (fun '(_, d) => read_bytes 1 d) = opt (17 + record_bytes r) 1 (data r)).
  { destruct (N.leb_spec (21 + record_bytes r) (4 + len (data r))); cbn [oand_then].
    - apply read_bytes_drop. lia.
    - unfold opt. destruct (N.leb_spec (17 + record_bytes r + 1) (len (data r))); [lia|reflexivity]. }
  rewrite S. destruct (21 + record_bytes r <=? 4 + len (data r)); reflexivity.
Qed.

Lemma opt_when_iff {A} k w r (f : N -> A) (P : A -> Prop) o :
  (forall x, reaches r (k + 4) w -> (P x <-> x = f (at_ k w (data r)))) ->
  (when (reaches r (k + 4) w) P o <-> o = option_map (fun x => f (fst x)) (opt k w (data r))).
Proof.
  unfold opt. intros H. destruct (N.leb_spec (k + w) (len (data r))) as [L|L]; cbn [option_map fst].
  - assert (R : reaches r (k + 4) w) by (unfold reaches; lia). rewrite when_true by exact R. split.
    + intros [x [-> HP]]. apply H in HP; [|exact R]. congruence.
    + intros ->. eexists. split; [reflexivity|]. apply H; [exact R|reflexivity].
  - rewrite when_false by (unfold reaches; lia). reflexivity.
Qed.

Lemma elements_iff r o :
  (when (reaches r 0x15 (record_bytes r)) (elements_field r) o <->
   o = if 0x15 + record_bytes r <=? 4 + len (data r) then
         Some {| ce_chunks := take (record_bytes r) (drop 17 (data r));
                 ce_after := if (at_ 15 1 (data r) =? 0) || (at_ 16 1 (data r) =? 0) then []
                             else drop (record_bytes r) (drop 17 (data r)) ++ after r;
                 ce_count := at_ 15 1 (data r); ce_record_length := at_ 16 1 (data r) |}
       else None).
Proof.
  destruct (N.leb_spec (0x15 + record_bytes r) (4 + len (data r))) as [L|L].
  - rewrite when_true by exact L. split.
    + intros [x [-> [H1 [H2 [H3 H4]]]]]. destruct x as [x1 x2 x3 x4]; cbn [ce_chunks ce_after ce_count ce_record_length] in *.
      clause_in H1. clause_in H2. subs. subst. reflexivity.
    + intros ->. eexists. split; [reflexivity|]. split; [|split; [|split; reflexivity]];
        (apply field_is_iff; [lia|unfold reaches; lia|reflexivity]).
  - rewrite when_false by (unfold reaches; lia). reflexivity.
Qed.

Lemma Enclosure_ok c r s : all_bytes (data r) -> 5 <= len (data r) -> Enclosure_fits c r ->
  (Enclosure_try_from c r = Val (Ok s) <-> Enclosure_says r s).
Proof.
  intros HB HL HF. rewrite Enclosure_resolved by assumption. cbv zeta.
  assert (HT : at_ 1 1 (data r) < 256) by (apply (at_lt 1 1); exact HB).
  rewrite land_128, land_127 by exact HT.
  assert (S1 : forall k o, when (reaches r (k + 4) 1) (code_field r (k + 4) 1 State_codes State_Undefined) o <->
                      o = option_map (fun x => State_from (fst x)) (opt k 1 (data r))).
  { intros k o. apply (opt_when_iff k 1 r State_from). intros x R. rewrite code_field_iff by (try exact R; lia).
    replace (k + 4 - 4) with k by lia. rewrite State_from_meaning. reflexivity. }
  assert (S2 : forall k o, when (reaches r (k + 4) 1) (code_field r (k + 4) 1 SecurityStatus_codes SecurityStatus_Undefined) o <->
                      o = option_map (fun x => SecurityStatus_from (fst x)) (opt k 1 (data r))).
  { intros k o. apply (opt_when_iff k 1 r SecurityStatus_from). intros x R. rewrite code_field_iff by (try exact R; lia).
    replace (k + 4 - 4) with k by lia. rewrite SecurityStatus_from_meaning. reflexivity. }
  assert (SK : forall o, when (reaches r (0x15 + record_bytes r) 1) (text_field r (0x15 + record_bytes r)) o <->
     match opt (17 + record_bytes r) 1 (data r) with
     | Some (n, _) => exists t, find_string r n = Ok t /\ o = Some t
     | None => o = None end).
  { intros o. unfold opt. destruct (N.leb_spec (17 + record_bytes r + 1) (len (data r))) as [L|L].
    - assert (R : reaches r (0x15 + record_bytes r) 1) by (unfold reaches; lia). rewrite when_true by exact R.
      replace (17 + record_bytes r) with (0x15 + record_bytes r - 4) by lia.
      split; intros [x [H1 H2]]; exists x; rewrite text_field_iff in * by (try exact R; lia); auto.
    - rewrite when_false by (unfold reaches; lia). reflexivity. }
  split.
  - intros H.
    destruct (find_string r (at_ 0 1 (data r))) eqn:F0; [|discriminate]. cbn [rbind] in H.
    destruct (find_string r (at_ 2 1 (data r))) eqn:F1; [|discriminate]. cbn [rbind] in H.
    destruct (find_string r (at_ 3 1 (data r))) eqn:F2; [|discriminate]. cbn [rbind] in H.
    destruct (find_string r (at_ 4 1 (data r))) eqn:F3; [|discriminate]. cbn [rbind] in H.
    assert (K : exists sk, when (reaches r (0x15 + record_bytes r) 1) (text_field r (0x15 + record_bytes r)) sk /\
       match opt (17 + record_bytes r) 1 (data r) with
                     | Some (n, _) => Val (rmap Some (find_string r n))
                     | None => Val (Ok None)
                     end = Val (Ok sk)).
    { destruct (opt (17 + record_bytes r) 1 (data r)) as [[n dd]|] eqn:EO.
      - destruct (find_string r n) as [t|] eqn:FN; [|discriminate].
        exists (Some t). split; [apply SK; eauto|reflexivity].
      - exists None. split; [apply SK; reflexivity|reflexivity]. }
    destruct K as [sk [K1 K2]]. rewrite K2 in H. cbn [rbind] in H. injection H as <-.
    constructor; cbn [enclosure_handle enclosure_manufacturer enclosure_chassis_lock enclosure_enclosure_type
      enclosure_version enclosure_serial_number enclosure_asset_tag_number enclosure_boot_up_state
      enclosure_power_supply_state enclosure_thermal_state enclosure_security_status enclosure_oem_defined
      enclosure_height enclosure_power_cords_number enclosure_contained_elements enclosure_sku_number].
    all: try (apply text_field_iff; [lia|unfold reaches; lia|assumption]).
    + reflexivity.
    + apply mapped_field_iff; [lia|unfold reaches; lia|reflexivity].
    + apply mapped_field_iff; [lia|unfold reaches; lia|apply EnclosureType_from_meaning].
    + apply (S1 5). reflexivity.
    + apply (S1 6). reflexivity.
    + apply (S1 7). reflexivity.
    + apply (S2 8). reflexivity.
    + apply (opt_field 9 4).
    + apply (opt_field 13 1).
    + apply (opt_field 14 1).
    + apply elements_iff. reflexivity.
    + exact K1.
  - intros [H1 H2 H3 H4 H5 H6 H7 H8 H9 H10 H11 H12 H13 H14 H15 H16].
    destruct s as [s1 s2 s3 s4 s5 s6 s7 s8 s9 s10 s11 s12 s13 s14 s15 s16]; cbn [enclosure_handle enclosure_manufacturer enclosure_chassis_lock enclosure_enclosure_type
      enclosure_version enclosure_serial_number enclosure_asset_tag_number enclosure_boot_up_state
      enclosure_power_supply_state enclosure_thermal_state enclosure_security_status enclosure_oem_defined
      enclosure_height enclosure_power_cords_number enclosure_contained_elements enclosure_sku_number] in *.
    clause_in H2; clause_in H3; clause_in H4; clause_in H5; clause_in H6; clause_in H7. subs.
    rewrite H2, H5, H6, H7. cbn [rbind].
    apply (S1 5) in H8. apply (S1 6) in H9. apply (S1 7) in H10. apply (S2 8) in H11.
    unfold if_there in *. rewrite <- (opt_field 9 4) in H12. rewrite <- (opt_field 13 1) in H13. rewrite <- (opt_field 14 1) in H14.
    apply elements_iff in H15. apply SK in H16.
    rewrite EnclosureType_from_meaning.
    destruct (opt (17 + record_bytes r) 1 (data r)) as [[n dd]|].
    + destruct H16 as [t [H16 ->]]. rewrite H16. cbn [rmap rbind]. subst. reflexivity.
    + subst. reflexivity.
Qed.

Lemma Enclosure_short c r : len (data r) < 5 ->
  Enclosure_try_from c r = Val (Err (InvalidFormattedSectionLength (info r) (handle r) "minimum of " 5)).
Proof. intros H. unfold Enclosure_try_from. destruct (N.ltb_spec (len (data r)) 5); [reflexivity|lia]. Qed.

Lemma Enclosure_err c r e : 5 <= len (data r) -> Enclosure_fits c r ->
  (Enclosure_try_from c r = Val (Err e) <-> first_bad_text r (Enclosure_texts r) e).
Proof.
  intros HL HF. rewrite Enclosure_resolved by assumption. cbv zeta. unfold Enclosure_texts. unfold opt at 1.
  destruct (N.leb_spec (17 + record_bytes r + 1) (len (data r))) as [L|L];
  destruct (N.leb_spec (0x15 + record_bytes r + 1) (4 + len (data r))) as [L'|L']; try lia.
  - replace (17 + record_bytes r) with (0x15 + record_bytes r - 4) by lia. cbn [app]. fails.
  - cbn [app]. fails.
Qed.

Lemma Enclosure_returns c r : Enclosure_fits c r -> exists o, Enclosure_try_from c r = Val o.
Proof.
  intros HF. destruct (N.ltb_spec (len (data r)) 5) as [L|L]; [rewrite Enclosure_short by exact L; eauto|].
  rewrite Enclosure_resolved by assumption. cbv zeta.
  destruct (opt (17 + record_bytes r) 1 (data r)) as [[n dd]|]; finds; eexists; reflexivity.
Qed.

Lemma elements_panic c r : overflow_checks c = true -> records_overflow r ->
  match opt 14 1 (data r) with
  | Some (_, d) => ContainedElements_new c d (after r)
  | None => Val None
  end = Panic.
Proof.
  intros HC [n [m [H1 [H2 H3]]]].
  pose proof H1 as R1. pose proof H2 as R2. apply field_some in R1, R2.
  clause_in H1. clause_in H2. subs. unfold opt, ContainedElements_new.
  destruct (N.leb_spec (14 + 1) (len (data r))); [|lia].
  change (14 + 1) with 15. rewrite read_bytes_drop by lia. unfold opt.
  destruct (N.leb_spec (15 + 1) (len (data r))); [|lia].
  change (15 + 1) with 16. rewrite read_bytes_drop by lia. unfold opt.
  destruct (N.leb_spec (16 + 1) (len (data r))); [|lia].
  rewrite <- H1, <- H2.
  destruct (N.eqb_spec n 0); [subst n; lia|]. destruct (N.eqb_spec m 0); [subst m; lia|]. cbn [orb].
  unfold u_mul. destruct (N.ltb_spec (n * m) (2 ^ 8)) as [L|L]; [change (2 ^ 8) with 256 in L; lia|].
  rewrite HC. reflexivity.
Qed.

Lemma Enclosure_panic c r : Enclosure_try_from c r = Panic <->
  overflow_checks c = true /\ records_overflow r /\
  (forall o, In o [0x04; 0x06; 0x07; 0x08] -> exists t, text_field r o t).
Proof.
  split.
  - intros H.
    assert (L : 5 <= len (data r)).
    { apply N.le_ngt. intros L. rewrite Enclosure_short in H by exact L. discriminate. }
    assert (B : overflow_checks c = true /\ records_overflow r).
    { destruct (overflow_checks c) eqn:E.
      - split; [reflexivity|]. unfold records_overflow, field_is.
        destruct (field r 0x13 1) as [n|] eqn:F1; [destruct (field r 0x14 1) as [m|] eqn:F2|].
        + exists n, m. split; [reflexivity|]. split; [reflexivity|]. apply N.le_ngt. intros LT.
          destruct (Enclosure_returns c r) as [o HO]; [|congruence].
          intros _ [n' [m' [G1 [G2 G3]]]]. unfold field_is in *. assert (n' = n) by congruence. assert (m' = m) by congruence. subst. lia.
        + destruct (Enclosure_returns c r) as [o HO]; [|congruence].
          intros _ [n' [m' [G1 [G2 G3]]]]. unfold field_is in *. congruence.
        + destruct (Enclosure_returns c r) as [o HO]; [|congruence].
          intros _ [n' [m' [G1 [G2 G3]]]]. unfold field_is in *. congruence.
      - destruct (Enclosure_returns c r) as [o HO]; [|congruence]. intros HC; congruence. }
    destruct B as [B1 B2]. split; [exact B1|]. split; [exact B2|].
    unfold Enclosure_try_from in H. destruct (N.ltb_spec (len (data r)) 5); [lia|].
    cbv zeta in H. rewrite !at_take in H by lia.
    destruct (find_string r (at_ 0 1 (data r))) as [t1|] eqn:F0; [|discriminate]. cbn [rbind] in H.
    destruct (find_string r (at_ 2 1 (data r))) as [t2|] eqn:F1; [|discriminate]. cbn [rbind] in H.
    destruct (find_string r (at_ 3 1 (data r))) as [t3|] eqn:F2; [|discriminate]. cbn [rbind] in H.
    destruct (find_string r (at_ 4 1 (data r))) as [t4|] eqn:F3; [|discriminate].
    intros o [<-|[<-|[<-|[<-|[]]]]]; eexists; (apply text_field_iff; [lia|unfold reaches; lia|eassumption]).
  - intros [HC [HO HT]].
    assert (L : 5 <= len (data r)).
    { destruct HO as [n [m [F1 _]]]. apply field_some in F1. lia. }
    destruct (HT 0x04 ltac:(cbn; auto)) as [t1 T1]. destruct (HT 0x06 ltac:(cbn; auto)) as [t2 T2].
    destruct (HT 0x07 ltac:(cbn; auto)) as [t3 T3]. destruct (HT 0x08 ltac:(cbn; auto)) as [t4 T4].
    clause_in T1. clause_in T2. clause_in T3. clause_in T4. subs.
    unfold Enclosure_try_from. destruct (N.ltb_spec (len (data r)) 5); [lia|].
    cbv zeta. rewrite !at_take by lia. rewrite T1, T2, T3, T4. cbn [rbind].
    rewrite (read_bytes_drop 1 5) by lia. rewrite !opt_then by lia.
    change (5 + 1) with 6. change (6 + 1) with 7. change (7 + 1) with 8. change (8 + 1) with 9. change (9 + 4) with 13. change (13 + 1) with 14.
    rewrite elements_panic by assumption. reflexivity.
Qed.

Lemma Enclosure_no_ub c r : Enclosure_try_from c r <> UB.
Proof.
  intros H. destruct (overflow_checks c) eqn:E.
  2:{ destruct (Enclosure_returns c r) as [o HO]; [intros HC; congruence|congruence]. }
  unfold Enclosure_try_from in H. destruct (N.ltb_spec (len (data r)) 5); [discriminate|].
  cbv zeta in H. rewrite !at_take in H by lia.
  destruct (find_string r (at_ 0 1 (data r))) as [t1|] eqn:F0; [|discriminate]. cbn [rbind] in H.
  destruct (find_string r (at_ 2 1 (data r))) as [t2|] eqn:F1; [|discriminate]. cbn [rbind] in H.
  destruct (find_string r (at_ 3 1 (data r))) as [t3|] eqn:F2; [|discriminate]. cbn [rbind] in H.
  destruct (find_string r (at_ 4 1 (data r))) as [t4|] eqn:F3; [|discriminate]. cbn [rbind] in H.
  match type of H with obind ?m _ = _ => destruct m as [o| |] eqn:EM end; cbn [obind] in H; try discriminate.
  - destruct (oand_then o _) as [[n d]|]; [destruct (find_string r n)|]; discriminate.
  - clear H. match type of EM with match ?m with _ => _ end = _ => destruct m as [[x d]|]; [|discriminate] end.
    unfold ContainedElements_new in EM.
    destruct (read_bytes 1 d) as [[n d1]|]; [|discriminate].
    destruct (read_bytes 1 d1) as [[m d2]|]; [|discriminate].
    destruct ((n =? 0) || (m =? 0)); [discriminate|].
    unfold u_mul in EM. rewrite E in EM. destruct (n * m <? 2 ^ 8); cbn [obind] in EM; [|discriminate].
    destruct (slice_get d2 0 (n * m)); discriminate.
Qed.

(* -------------------------------------------------------- element records *)

Lemma InfoType_from_number t : t < 256 -> type_number (InfoType_from t) = t.
Proof. intros H. rewrite InfoType_number. reflexivity. Qed.

Lemma element_from c t lo hi more aft : t < 256 ->
  exists x, ContainedElement_from c (t :: lo :: hi :: more) aft = Val x /\ element_means (t :: lo :: hi :: more) x.
Proof.
  intros HT. unfold ContainedElement_from.
  destruct (N.leb_spec 3 (len (t :: lo :: hi :: more))) as [L|L]; [|unfold len in L; cbn [length] in L; lia].
  cbn [obind]. eexists. split; [reflexivity|].
  exists t, lo, hi, more. split; [reflexivity|]. cbn [cel_type cel_minimum cel_maximum].
  change (at_ 0 1 (take 3 (t :: lo :: hi :: more))) with (t + 256 * 0).
  change (at_ 1 1 (take 3 (t :: lo :: hi :: more))) with (lo + 256 * 0).
  change (at_ 2 1 (take 3 (t :: lo :: hi :: more))) with (hi + 256 * 0).
  rewrite N.mul_0_r, !N.add_0_r. unfold ContainedElementType_from.
  pose proof (land_128 t HT) as L128. rewrite land_127.
  split; [|split; [|auto]].
  - intros H. destruct (N.leb_spec 128 t); [lia|]. apply negb_false_iff in L128. rewrite L128.
    rewrite N.mod_small by exact H. rewrite BoardType_from_meaning. reflexivity.
  - intros H. destruct (N.leb_spec 128 t); [|lia]. apply negb_true_iff in L128. rewrite L128.
    eexists. split; [reflexivity|]. rewrite InfoType_from_number; [|lia].
    replace t with (t - 128 + 1 * 128) at 1 by lia. rewrite N.mod_add by discriminate. rewrite N.mod_small; lia.
Qed.

Lemma elements_drain c recs : forall e, 3 <= ce_record_length e -> ce_chunks e = concat recs ->
  Forall (fun rec => len rec = ce_record_length e /\ all_bytes rec) recs ->
  exists l e', drains (ContainedElements_next c) e l e' /\ Forall2 element_means recs l /\
               ContainedElements_next c e' = Val (None, e').
Proof.
  induction recs as [|rec recs IH]; intros e H3 HE HF.
  - exists [], e. cbn [concat] in HE.
    assert (E : ContainedElements_next c e = Val (None, e)) by (unfold ContainedElements_next; rewrite HE; reflexivity).
    repeat split; [constructor; exact E|constructor|exact E].
  - inversion HF as [|? ? [HR HB] HF']; subst. cbn [concat] in HE.
    destruct rec as [|t [|lo [|hi more]]]; try (unfold len in HR; cbn [length] in HR; lia).
    inversion HB as [|? ? HT _]; subst. unfold is_byte in HT.
    set (e1 := {| ce_chunks := concat recs; ce_after := ce_after e; ce_count := ce_count e; ce_record_length := ce_record_length e |}).
    destruct (element_from c t lo hi more (concat recs ++ ce_after e) HT) as [x [HX HM]].
    assert (E : ContainedElements_next c e = Val (Some x, e1)).
    { unfold ContainedElements_next. rewrite HE.
      change (match (t :: lo :: hi :: more) ++ concat recs with [] => Val (None, e) | _ :: _ =>
        let! x := ContainedElement_from c (take (ce_record_length e) ((t :: lo :: hi :: more) ++ concat recs))
                    (drop (ce_record_length e) ((t :: lo :: hi :: more) ++ concat recs) ++ ce_after e) in
        Val (Some x, {| ce_chunks := drop (ce_record_length e) ((t :: lo :: hi :: more) ++ concat recs);
                        ce_after := ce_after e; ce_count := ce_count e; ce_record_length := ce_record_length e |}) end = Val (Some x, e1)).
      rewrite take_app_exact, drop_app_exact by (symmetry; exact HR). cbn [app].
      rewrite HX. reflexivity. }
    destruct (IH e1) as [l [e' [D [F2 N]]]].
    + exact H3.
    + reflexivity.
    + exact HF'.
    + exists (x :: l), e'. split; [econstructor; [exact E|exact D]|]. split; [constructor; assumption|exact N].
Qed.

(* a record of one or two bytes is read past its end *)
Lemma elements_short_ub c e : flat_memory c = false -> ce_record_length e < 3 -> ce_chunks e <> [] ->
  ContainedElements_next c e = UB.
Proof.
  intros HF H3 HN. unfold ContainedElements_next. destruct (ce_chunks e) as [|b l] eqn:E; [congruence|].
  unfold ContainedElement_from.
  destruct (N.leb_spec 3 (len (take (ce_record_length e) (b :: l)))) as [L|L]; [rewrite len_take in L; lia|].
  rewrite HF. reflexivity.
Qed.

(* exactly when the next record is read past the end of what is there *)
Lemma elements_ub_iff c e : ContainedElements_next c e = UB <->
  ce_chunks e <> [] /\ len (take (ce_record_length e) (ce_chunks e)) < 3 /\
  (flat_memory c = false \/ len (ce_chunks e ++ ce_after e) < 3).
Proof.
  unfold ContainedElements_next. destruct (ce_chunks e) as [|b l] eqn:E; [split; [discriminate|intros [H _]; congruence]|].
  unfold ContainedElement_from. rewrite app_assoc, take_drop.
  destruct (N.leb_spec 3 (len (take (ce_record_length e) (b :: l)))) as [L|L]; cbn [obind].
  { split; [discriminate|lia]. }
  destruct (flat_memory c) eqn:F; cbn [andb].
  - destruct (N.leb_spec 3 (len ((b :: l) ++ ce_after e))) as [K|K]; cbn [obind].
    + split; [discriminate|]. intros [_ [_ [H|H]]]; [discriminate|lia].
    + split; [|reflexivity]. intros _. repeat split; [discriminate|exact L|right; exact K].
  - split; [|reflexivity]. intros _. repeat split; [discriminate|exact L|left; reflexivity].
Qed.

(* what a short record shows where memory can be read past its end *)
Lemma elements_flat c e : flat_memory c = true -> ce_chunks e <> [] -> all_bytes (ce_chunks e) ->
  3 <= len (ce_chunks e ++ ce_after e) ->
  exists x, ContainedElements_next c e = Val (Some x, {| ce_chunks := drop (ce_record_length e) (ce_chunks e);
      ce_after := ce_after e; ce_count := ce_count e; ce_record_length := ce_record_length e |}) /\
    element_means (ce_chunks e ++ ce_after e) x.
Proof.
  intros HF HN HB H3. unfold ContainedElements_next.
  destruct (ce_chunks e) as [|t l] eqn:E; [congruence|]. inversion HB as [|? ? HT _]; subst. unfold is_byte in HT.
  assert (X : exists lo hi more, (t :: l) ++ ce_after e = t :: lo :: hi :: more).
  { cbn [app] in *. destruct (l ++ ce_after e) as [|lo [|hi more]];
      [unfold len in H3; cbn [length] in H3; lia|unfold len in H3; cbn [length] in H3; lia|eauto]. }
  destruct X as [lo [hi [more X]]].
  assert (EQ : ContainedElement_from c (take (ce_record_length e) (t :: l))
                 (drop (ce_record_length e) (t :: l) ++ ce_after e) =
               ContainedElement_from c (t :: lo :: hi :: more) []).
  { unfold ContainedElement_from. rewrite app_assoc, take_drop, X, HF, app_nil_r.
    assert (L3 : 3 <= len (t :: lo :: hi :: more)) by (rewrite <- X; exact H3).
    apply N.leb_le in L3. rewrite L3. cbn [andb].
    destruct (N.leb_spec 3 (len (take (ce_record_length e) (t :: l)))) as [L|L]; [|reflexivity].
    f_equal. rewrite <- X. symmetry. rewrite <- (take_drop (ce_record_length e) (t :: l)) at 1.
    rewrite <- app_assoc. rewrite take_app_le by exact L. reflexivity. }
  rewrite EQ. destruct (element_from c t lo hi more [] HT) as [x [HX HM]]. rewrite HX. cbn [obind].
  exists x. split; [reflexivity|]. rewrite X. exact HM.
Qed.

(* n records of m bytes *)
Lemma records_split (m : N) (n : nat) : forall (l : list N), len l = N.of_nat n * m ->
  exists recs, l = concat recs /\ length recs = n /\ Forall (fun rec => len rec = m) recs.
Proof.
  induction n as [|n IH]; intros l HL.
  - exists []. destruct l; [auto|unfold len in HL; cbn [length] in HL; lia].
  - destruct (IH (drop m l)) as [recs [E [L F]]].
    + rewrite len_drop. lia.
    + exists (take m l :: recs). cbn [concat length]. rewrite <- E, take_drop. repeat split; [lia|].
      constructor; [|exact F]. rewrite len_take. lia.
Qed.

Lemma Enclosure_elements c r s e n m : all_bytes (data r) -> 5 <= len (data r) -> Enclosure_fits c r ->
  Enclosure_try_from c r = Val (Ok s) -> enclosure_contained_elements s = Some e ->
  field_is r 0x13 1 n -> field_is r 0x14 1 m -> n * m < 256 -> 3 <= m ->
  exists recs l e', take (n * m) (drop 17 (data r)) = concat recs /\ len recs = n /\
    Forall (fun rec => len rec = m) recs /\
    drains (ContainedElements_next c) e l e' /\ Forall2 element_means recs l.
Proof.
  intros HB HL HF H HE H1 H2 H3 H4. apply Enclosure_ok in H; try assumption.
  destruct H as [_ _ _ _ _ _ _ _ _ _ _ _ _ _ HC _]. rewrite HE in HC.
  destruct HC as [[R [e0 [[= <-] [C1 [C2 [C3 _]]]]]]|[_ HC]]; [|discriminate].
  assert (RB : record_bytes r = n * m).
  { unfold record_bytes. unfold field_is in H1, H2. rewrite H1, H2. apply N.mod_small, H3. }
  assert (CM : ce_record_length e = m) by (unfold field_is in *; congruence).
  unfold reaches in R. rewrite RB in *. change (0x15 - 4) with 17 in C3.
  destruct (records_split m (N.to_nat n) (take (n * m) (drop 17 (data r)))) as [recs [E [L F]]].
  { rewrite len_take, len_drop. lia. }
  assert (HA : all_bytes (concat recs)) by (rewrite <- E; apply all_bytes_take, all_bytes_drop, HB).
  destruct (elements_drain c recs e) as [l [e' [D [F2 _]]]].
  - lia.
  - congruence.
  - rewrite Forall_forall in *. intros rec HI. split; [rewrite CM; apply F, HI|].
    unfold all_bytes in *. rewrite Forall_forall in *. intros b Hb. apply HA. apply in_concat. eauto.
  - exists recs, l, e'. split; [exact E|]. split; [unfold len; lia|]. auto.
Qed.
