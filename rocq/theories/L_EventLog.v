(* Proofs for type 15. *)
From Coq Require Import String.
From Coq Require Import ZArith Lia ZifyBool ZifyNat ZifyN.
From Verif Require Import Base G_Enums M_Raw M_SystemEventLog.
From Verif Require Import Spec S_Enums S_Decode S_EventLog L_Base L_Strings L_Enums L_Decode L_Hardware L_Slots.
Local Open Scope N_scope.
Ltac Zify.zify_post_hook ::= Z.div_mod_to_equations.

Lemma access_new m a : m < 256 -> AccessMethod_new m a = access_means m a.
Proof.
  intros H. unfold AccessMethod_new, access_means, byte_of. cbn [le fold_right].
  change (256 ^ 0) with 1. change (256 ^ 1) with 256. change (256 ^ 2) with 65536. rewrite !N.div_1_r.
  replace (a mod 256 + 256 * (a / 256 mod 256 + 256 * 0)) with (a mod 65536) by lia.
  unfold within.
  destruct (m =? 0); [reflexivity|]. destruct (m =? 1); [reflexivity|]. destruct (m =? 2); [reflexivity|].
  destruct (m =? 3); [reflexivity|]. destruct (m =? 4); [reflexivity|].
  destruct (N.ltb_spec m 0x80).
  - replace (0x80 <=? m) with false by lia. reflexivity.
  - replace (0x80 <=? m) with true by lia. replace (m <=? 0xFF) with true by lia. reflexivity.
Qed.

(* the decoder without its length checks *)
Definition log_body (c : cfg) (r : RawStructure) : out (res SystemEventLog) :=
    let! number := get_ok c 1 0x15 r in
    let! length := get_ok c 1 0x16 r in
    let? method := get c 1 0x0A r in
    let? address := get c 4 0x10 r in
    let! descriptors :=
      match number with
      | None => Val None
      | Some number =>
        match length with
        | None => Val None
        | Some length =>
          let! d := get_slice c 0x17 (number * length) r in
          match d with
          | None => Val None
          | Some d => let! x := EventLogTypeDescriptors_new d length in Val (Some x)
          end
        end
      end in
    let? log_area_length := get c 2 0x04 r in
    let? log_header_start_offset := get c 2 0x06 r in
    let? log_data_start_offset := get c 2 0x08 r in
    let? log_status := get c 1 0x0B r in
    let? log_change_token := get c 4 0x0C r in
    let! log_header_format := get_ok c 1 0x14 r in
    Val (Ok {|
      log_handle := handle r;
      log_log_area_length := log_area_length;
      log_log_header_start_offset := log_header_start_offset;
      log_log_data_start_offset := log_data_start_offset;
      log_access_method := AccessMethod_new method address;
      log_log_status := log_status;
      log_log_change_token := log_change_token;
      log_log_header_format := option_map LogHeaderFormat_from log_header_format;
      log_descriptors := descriptors
    |}).

Lemma log_checks c r :
  (log_length r /\ SystemEventLog_try_from c r = log_body c r) \/
  exists e, log_length_error r e /\ SystemEventLog_try_from c r = Val (Err e).
Proof.
  unfold SystemEventLog_try_from, log_body, log_length, log_length_error, field_is. cbv zeta.
  rewrite !get_ok_field by get_side. rewrite !obind_val. rewrite (N.add_comm (len (data r)) 4).
  versions; try vlia; cbn [andb].
  - destruct (field r 0x15 1) as [x|] eqn:FX; [destruct (field r 0x16 1) as [y|] eqn:FY|]; cbn [oand_then option_map negb].
    + destruct (N.eqb_spec (4 + len (data r)) (0x17 + x * y)); cbn [negb].
      * left. split; [split; [intros; vlia|intros _; eauto 6]|reflexivity].
      * right. eexists. split; [|reflexivity]. right. right. split; [assumption|]. exists x, y. auto.
    + right. eexists. split; [|reflexivity]. right. left. split; [assumption|]. split; [|reflexivity].
      apply N.nle_gt. intros C. rewrite field_in in FY; [discriminate|lia|unfold reaches; lia].
    + right. eexists. split; [|reflexivity]. right. left. split; [assumption|]. split; [|reflexivity].
      apply N.nle_gt. intros C. rewrite field_in in FX; [discriminate|lia|unfold reaches; lia].
  - destruct (N.eqb_spec (4 + len (data r)) 0x14); cbn [negb].
    + left. split; [split; [auto|]|reflexivity]. intros; vlia.
    + right. eexists. split; [|reflexivity]. left. auto.
  - left. split; [split; intros; vlia|reflexivity].
Qed.

Lemma log_length_not r e : log_length_error r e -> ~ log_length r.
Proof.
  intros E [L1 L2]. destruct E as [[V [H _]]|[[V [H _]]|[V [x [y [FX [FY [H _]]]]]]]].
  - auto.
  - destruct (L2 V) as [x [y [_ [FY _]]]]. unfold field_is in FY. rewrite field_out in FY; [discriminate|]. unfold reaches. lia.
  - destruct (L2 V) as [x' [y' [FX' [FY' H']]]]. unfold field_is in *. congruence.
Qed.
Lemma log_error_det r e e' : log_length_error r e -> log_length_error r e' -> e = e'.
Proof.
  intros [[V [H ->]]|[[V [H ->]]|[V [x [y [FX [FY [H ->]]]]]]]] [[V' [H' ->]]|[[V' [H' ->]]|[V' [x' [y' [FX' [FY' [H' ->]]]]]]]];
  try reflexivity; try vlia; unfold field_is in *.
  - rewrite field_out in FY'; [discriminate|]. unfold reaches. lia.
  - rewrite field_out in FY; [discriminate|]. unfold reaches. lia.
  - congruence.
Qed.

Definition log_zero (r : RawStructure) : Prop := field_is r 0x16 1 0.

Definition found_descriptors (r : RawStructure) : option EventLogTypeDescriptors :=
  match field r 0x15 1 with
  | None => None
  | Some x => match field r 0x16 1 with
    | None => None
    | Some y => if 0x17 + x * y <=? 4 + len (data r)
                then Some {| descriptors_data := take (x * y) (drop (0x17 - 4) (data r)); descriptors_size := y |}
                else None
    end
  end.

Definition found_log (r : RawStructure) : SystemEventLog := {|
  log_handle := handle r;
  log_log_area_length := at_ 0x00 2 (data r);
  log_log_header_start_offset := at_ 0x02 2 (data r);
  log_log_data_start_offset := at_ 0x04 2 (data r);
  log_access_method := access_means (at_ 0x06 1 (data r)) (at_ 0x0C 4 (data r));
  log_log_status := at_ 0x07 1 (data r);
  log_log_change_token := at_ 0x08 4 (data r);
  log_log_header_format := option_map (meaning LogHeaderFormat_codes LogHeaderFormat_other) (field r 0x14 1);
  log_descriptors := found_descriptors r |}.

Lemma header_meaning r : all_bytes (data r) ->
  option_map LogHeaderFormat_from (field r 0x14 1) = option_map (meaning LogHeaderFormat_codes LogHeaderFormat_other) (field r 0x14 1).
Proof.
  intros HB. destruct (field r 0x14 1) as [k|] eqn:F; [|reflexivity]. cbn.
  rewrite LogHeaderFormat_from_meaning; [reflexivity|]. apply (field_lt r 0x14 1 k HB F).
Qed.

Ltac log_end := rewrite !obind_val, !rbind_ok, !obind_val, access_new, header_meaning by assumption.

Lemma log_body_eq c r : all_bytes (data r) ->
  (reaches r 0x10 4 /\ log_zero r /\ log_body c r = Panic) \/
  (reaches r 0x10 4 /\ ~ log_zero r /\ log_body c r = Val (Ok (found_log r))) \/
  (~ reaches r 0x10 4 /\ log_body c r = Val (Err InvalidSlice)).
Proof.
  intros HB. unfold log_body. gets.
  destruct (N.le_gt_cases 0x14 (4 + len (data r))) as [R|R].
  - rewrite (field_in r 0x0A 1), (field_in r 0x10 4), (field_in r 0x04 2), (field_in r 0x06 2), (field_in r 0x08 2),
      (field_in r 0x0B 1), (field_in r 0x0C 4) by (unfold reaches; lia).
    assert (R' : reaches r 0x10 4) by (unfold reaches; lia).
    rewrite !rbind_ok.
    assert (HM : at_ 0x06 1 (data r) < 256) by (apply (at_lt 0x06 1), HB).
    change (0x0A - 4) with 0x06. change (0x10 - 4) with 0x0C. change (0x04 - 4) with 0. change (0x06 - 4) with 0x02.
    change (0x08 - 4) with 0x04. change (0x0B - 4) with 0x07. change (0x0C - 4) with 0x08.
    unfold found_log, found_descriptors, log_zero, field_is.
    destruct (field r 0x15 1) as [x|] eqn:FX; [destruct (field r 0x16 1) as [y|] eqn:FY|].
    + pose proof (field_lt _ _ _ _ HB FX). pose proof (field_lt _ _ _ _ HB FY). change (256 ^ 1) with 256 in *.
      assert (x * y <= 256 * 256) by (apply N.mul_le_mono; lia).
      rewrite get_slice_field by get_side. rewrite obind_val.
      destruct (N.leb_spec (0x17 + x * y) (4 + len (data r))).
      * unfold EventLogTypeDescriptors_new. destruct (N.eqb_spec y 0) as [->|Y].
        -- left. auto.
        -- right. left. split; [exact R'|]. split; [congruence|]. log_end. reflexivity.
      * right. left. split; [exact R'|]. split; [|log_end; reflexivity].
        intros [= ->]. unfold field in FY. destruct (_ && _) eqn:E in FY; [|discriminate]. lia.
    + right. left. split; [exact R'|]. split; [discriminate|]. log_end. reflexivity.
    + right. left. split; [exact R'|]. split; [|log_end; reflexivity].
      intros E. rewrite field_in in FX; [discriminate|lia|]. apply field_some in E. unfold reaches. lia.
  - right. right. split; [unfold reaches; lia|].
    rewrite (field_out r 0x10 4) by (unfold reaches; lia). destruct (field r 0x0A 1); rewrite ?rbind_ok, rbind_err; reflexivity.
Qed.

Lemma found_log_says r s : all_bytes (data r) -> reaches r 0x10 4 -> (s = found_log r <-> SystemEventLog_says r s).
Proof.
  intros HB R. unfold reaches in R.
  assert (D : forall o, o = found_descriptors r <->
    when (exists x y, field_is r 0x15 1 x /\ field_is r 0x16 1 y /\ reaches r 0x17 (x * y))
        (fun d => exists x, field_is r 0x15 1 x /\ field_is r 0x16 1 (descriptors_size d) /\
                  bytes_at r 0x17 (x * descriptors_size d) (descriptors_data d)) o).
  { intros o. unfold found_descriptors, field_is.
    destruct (field r 0x15 1) as [x|] eqn:FX; [destruct (field r 0x16 1) as [y|] eqn:FY|].
    2, 3: rewrite when_false; [tauto|intros [? [? [? [? _]]]]; congruence].
    destruct (N.leb_spec (0x17 + x * y) (4 + len (data r))) as [L|L].
    - rewrite when_true by eauto 6. split.
      + intros ->. eexists. split; [reflexivity|]. exists x. cbn [descriptors_size descriptors_data].
        split; [reflexivity|]. split; [reflexivity|]. apply bytes_at_iff; [lia|]. split; [exact L|reflexivity].
      + intros [[d z] [-> [x' [[= <-] [[= <-] B]]]]]. cbn [descriptors_size descriptors_data] in B.
        apply bytes_at_iff in B; [|lia]. destruct B as [_ ->]. reflexivity.
    - rewrite when_false; [tauto|]. intros [x' [y' [[= <-] [[= <-] H]]]]. unfold reaches in H. lia. }
  split.
  - intros ->. constructor; cbn [found_log log_handle log_log_area_length log_log_header_start_offset log_log_data_start_offset
      log_access_method log_log_status log_log_change_token log_log_header_format log_descriptors]; try reflexivity.
    all: try (apply field_is_iff; [lia|unfold reaches; lia|reflexivity]).
    + do 2 eexists. split; [apply field_is_iff; [lia|unfold reaches; lia|reflexivity]|].
      split; [apply field_is_iff; [lia|unfold reaches; lia|reflexivity]|]. reflexivity.
    + apply D. reflexivity.
  - intros H. destruct s as [s1 s2 s3 s4 s5 s6 s7 s8 s9]. destruct H as [H1 H2 H3 H4 [m [a [HM [HA H5]]]] H6 H7 H8 H9].
    cbn [log_handle log_log_area_length log_log_header_start_offset log_log_data_start_offset
      log_access_method log_log_status log_log_change_token log_log_header_format log_descriptors] in *.
    apply D in H9. unfold code_if_there in H8.
    apply field_is_iff in H2, H3, H4, HM, HA, H6, H7; try lia; try (unfold reaches; lia).
    subst. reflexivity.
Qed.

Lemma log_needs r e : first_failure r SystemEventLog_needs e <-> ~ reaches r 0x10 4 /\ e = InvalidSlice.
Proof.
  unfold SystemEventLog_needs. destruct (N.le_gt_cases 0x14 (4 + len (data r))) as [R|R].
  - split; [|unfold reaches; lia].
    repeat (erewrite first_failure_num by (apply field_in; [lia|unfold reaches; lia])). cbn. tauto.
  - assert (H : ~ reaches r 0x10 4) by (unfold reaches; lia).
    destruct (field r 0x0A 1) as [k|] eqn:F.
    + erewrite first_failure_num by eassumption. rewrite first_failure_num_none by (apply field_out, H). tauto.
    + rewrite first_failure_num_none by exact F. tauto.
Qed.

Lemma SystemEventLog_ok c r s : all_bytes (data r) ->
  (SystemEventLog_try_from c r = Val (Ok s) <-> log_length r /\ ~ field_is r 0x16 1 0 /\ SystemEventLog_says r s).
Proof.
  intros HB. destruct (log_checks c r) as [[L ->]|[e [E ->]]].
  - destruct (log_body_eq c r HB) as [[R [Z ->]]|[[R [Z ->]]|[R ->]]].
    + split; [discriminate|]. intros [_ [N _]]. destruct (N Z).
    + rewrite <- found_log_says by assumption. split; [intros [= <-]; auto|]. intros [_ [_ ->]]. reflexivity.
    + split; [discriminate|]. intros [_ [_ H]]. destruct H as [_ _ _ _ [m [a [_ [HA _]]]] _ _ _ _].
      unfold field_is in HA. rewrite field_out in HA by exact R. discriminate.
  - split; [discriminate|]. intros [H _]. destruct (log_length_not _ _ E H).
Qed.

Lemma SystemEventLog_err c r e : all_bytes (data r) ->
  (SystemEventLog_try_from c r = Val (Err e) <->
   log_length_error r e \/ (log_length r /\ first_failure r SystemEventLog_needs e)).
Proof.
  intros HB. rewrite log_needs. destruct (log_checks c r) as [[L ->]|[e' [E ->]]].
  - assert (NE : ~ log_length_error r e) by (intros E; exact (log_length_not _ _ E L)).
    destruct (log_body_eq c r HB) as [[R [Z ->]]|[[R [Z ->]]|[R ->]]].
    + split; [discriminate|tauto].
    + split; [discriminate|tauto].
    + split; [intros [= <-]; auto|]. intros [|[_ [_ ->]]]; [tauto|reflexivity].
  - split; [intros [= <-]; auto|]. intros [E'|[L _]]; [|destruct (log_length_not _ _ E L)].
    rewrite (log_error_det _ _ _ E E'). reflexivity.
Qed.

Lemma SystemEventLog_panic c r : all_bytes (data r) ->
  (SystemEventLog_try_from c r = Panic <-> log_length r /\ field_is r 0x16 1 0).
Proof.
  intros HB. destruct (log_checks c r) as [[L ->]|[e' [E ->]]].
  - destruct (log_body_eq c r HB) as [[R [Z ->]]|[[R [Z ->]]|[R ->]]].
    + tauto.
    + split; [discriminate|tauto].
    + split; [discriminate|]. intros [_ Z]. destruct R. unfold field_is in Z. apply field_some in Z. unfold reaches. lia.
  - split; [discriminate|]. intros [L _]. destruct (log_length_not _ _ E L).
Qed.

Lemma SystemEventLog_total c r : all_bytes (data r) ->
  SystemEventLog_try_from c r = Panic \/ exists o, SystemEventLog_try_from c r = Val o.
Proof.
  intros HB. destruct (log_checks c r) as [[L ->]|[e' [E ->]]]; [|eauto].
  destruct (log_body_eq c r HB) as [[R [Z ->]]|[[R [Z ->]]|[R ->]]]; eauto.
Qed.

(* ------------------------------------------------------------- descriptors *)

Lemma format_from_meaning k : k < 256 ->
  VariableDataFormatType_from k = meaning VariableDataFormatType_codes VariableDataFormatType_other k.
Proof.
  intros HK. unfold VariableDataFormatType_from, meaning, VariableDataFormatType_codes, VariableDataFormatType_other, within. cbn [named].
  rewrite !(N.eqb_sym k).
  do 7 (match goal with |- context [?n =? k] => destruct (N.eqb_spec n k); [reflexivity|] end).
  replace (7 <=? k) with true by lia. cbn [andb].
  destruct (N.leb_spec k 127); destruct (N.ltb_spec k 128); try lia; reflexivity.
Qed.
Lemma format_round k : k < 256 -> VariableDataFormatType_to (VariableDataFormatType_from k) = k.
Proof.
  intros H. apply N.eqb_eq. revert k H.
  refine (by_bytes (fun k => VariableDataFormatType_to (VariableDataFormatType_from k) =? k) _). vm_compute. reflexivity.
Qed.
Lemma type_round k : k < 256 -> EventLogType_to (EventLogType_from k) = k.
Proof.
  intros H. apply N.eqb_eq. revert k H.
  refine (by_bytes (fun k => EventLogType_to (EventLogType_from k) =? k) _). vm_compute. reflexivity.
Qed.
Lemma descriptor_round a b : a < 256 -> b < 256 -> EventLogTypeDescriptor_to (EventLogTypeDescriptor_from a b) = (a, b).
Proof. intros HA HB. unfold EventLogTypeDescriptor_to, EventLogTypeDescriptor_from. cbn. rewrite type_round, format_round by assumption. reflexivity. Qed.

Lemma descriptors_drain n : forall l, all_bytes l -> length l = (2 * n)%nat ->
  exists recs ds s', l = concat recs /\ length recs = n /\
    drains (lift_next EventLogTypeDescriptors_next) {| descriptors_data := l; descriptors_size := 2 |} ds s' /\ Forall2 descriptor_means recs ds.
Proof.
  induction n as [|n IH]; intros l HB HL.
  - destruct l; [|discriminate]. exists [], [], {| descriptors_data := []; descriptors_size := 2 |}. repeat split; [|constructor].
    apply drains_nil. reflexivity.
  - replace (2 * S n)%nat with (2 + 2 * n)%nat in HL by lia.
    do 2 (destruct l as [|? l]; [discriminate|]). cbn in HL.
    apply Forall_cons_iff in HB. destruct HB as [H0 HB]. apply Forall_cons_iff in HB. destruct HB as [H1 HB].
    destruct (IH l) as [recs [ds [s' [E [L [D F]]]]]]; [exact HB|lia|].
    exists ([n0; n1] :: recs). eexists (_ :: ds), s'. split; [|split; [|split]].
    + cbn. rewrite E at 1. reflexivity.
    + cbn. congruence.
    + eapply drains_cons; [|exact D]. unfold lift_next, EventLogTypeDescriptors_next. cbn [descriptors_data descriptors_size].
      change (take 2 (n0 :: n1 :: l)) with (n0 :: n1 :: []). change (drop 2 (n0 :: n1 :: l)) with l. reflexivity.
    + constructor; [|exact F]. exists n0, n1. split; [reflexivity|]. unfold EventLogTypeDescriptor_from.
      rewrite EventLogType_from_meaning, format_from_meaning by assumption. reflexivity.
Qed.

Lemma log_descriptors_drain c r s d : all_bytes (data r) -> SystemEventLog_try_from c r = Val (Ok s) ->
  log_descriptors s = Some d -> field_is r 0x16 1 2 ->
  exists recs ds d' n, field_is r 0x15 1 n /\ bytes_at r 0x17 (2 * n) (concat recs) /\ len recs = n /\
    drains (lift_next EventLogTypeDescriptors_next) d ds d' /\ Forall2 descriptor_means recs ds.
Proof.
  intros HB H P Y. apply SystemEventLog_ok in H; [|exact HB]. destruct H as [_ [_ H]]. destruct H as [_ _ _ _ _ _ _ _ H].
  rewrite P in H. destruct H as [[_ [d' [[= <-] [x [FX [FY B]]]]]]|[_ H]]; [|discriminate].
  destruct d as [l z]. cbn [descriptors_size descriptors_data] in *. unfold field_is in *. rewrite Y in FY. injection FY as <-.
  destruct (descriptors_drain (N.to_nat x) l) as [recs [ds [d' [E [L [D F]]]]]].
  { destruct B as [pre [post [E _]]]. unfold all_bytes in HB. rewrite E in HB. apply Forall_app in HB. destruct HB as [_ HB].
    apply Forall_app in HB. apply HB. }
  { destruct B as [_ [_ [_ [_ B]]]]. unfold len in B. lia. }
  exists recs, ds, d', x. rewrite <- E. split; [exact FX|]. split; [rewrite N.mul_comm; exact B|]. split; [unfold len; lia|]. auto.
Qed.

(* with records of any other size, nothing is ever yielded *)
Lemma other_size_none z : z <> 2 -> forall n k d, len d = k * z ->
  nones (lift_next EventLogTypeDescriptors_next) n {| descriptors_data := d; descriptors_size := z |}.
Proof.
  intros Z. induction n as [|n IH]; intros k d HK; [exact I|]. cbn [nones].
  unfold lift_next at 1, EventLogTypeDescriptors_next. cbn [descriptors_data descriptors_size].
  destruct d as [|b d0] eqn:E.
  - eexists. split; [reflexivity|]. apply (IH 0). reflexivity.
  - rewrite <- E in *. assert (K : 0 < k).
    { destruct (N.eq_dec k 0) as [->|]; [|lia]. subst d. unfold len in HK. cbn [length] in HK. lia. }
    assert (HZ : z <= len d) by (rewrite HK; nia).
    assert (LT : len (take z d) = z) by (rewrite len_take; lia).
    eexists. split.
    + f_equal. f_equal. destruct (take z d) as [|a [|b' [|]]] eqn:T; try reflexivity.
      exfalso. apply Z. rewrite <- LT. reflexivity.
    + apply (IH (k - 1)). rewrite len_drop. rewrite HK. nia.
Qed.

Lemma log_descriptors_none c r s d : all_bytes (data r) -> SystemEventLog_try_from c r = Val (Ok s) ->
  log_descriptors s = Some d -> ~ field_is r 0x16 1 2 -> none_forever (lift_next EventLogTypeDescriptors_next) d.
Proof.
  intros HB H P Y. apply SystemEventLog_ok in H; [|exact HB]. destruct H as [_ [_ H]]. destruct H as [_ _ _ _ _ _ _ _ H].
  rewrite P in H. destruct H as [[_ [d' [[= <-] [x [FX [FY B]]]]]]|[_ H]]; [|discriminate].
  destruct d as [l z]. cbn [descriptors_size descriptors_data] in *. intros n. apply (other_size_none z) with (k := x).
  - intros ->. contradiction.
  - destruct B as [pre [post [_ [_ B]]]]. exact B.
Qed.

(* ---------------------------------------------------------- access methods *)

Lemma bit_split n x i : N.testbit x i = if i <? n then N.testbit (x mod 2 ^ n) i else N.testbit (x / 2 ^ n) (i - n).
Proof.
  destruct (N.ltb_spec i n).
  - symmetry. apply N.mod_pow2_bits_low. assumption.
  - rewrite N.div_pow2_bits. f_equal. lia.
Qed.
Lemma bit_mod n x i : N.testbit (x mod 2 ^ n) i = N.testbit x i && N.testbit (N.ones n) i.
Proof. rewrite <- N.land_ones. apply N.land_spec. Qed.

Lemma address_kept m a : m < 256 -> a < 2 ^ 32 ->
  AccessMethod_address (AccessMethod_new m a) = N.land a (address_bits m).
Proof.
  intros HM HA. rewrite access_new by exact HM. unfold access_means, address_bits. change (2 ^ 32) with 4294967296 in HA.
  assert (L16 : N.land a 0xFFFF = a mod 65536) by (apply (N.land_ones a 16)).
  assert (L24 : N.land a 0xFFFFFF = a mod 16777216) by (apply (N.land_ones a 24)).
  assert (L32 : N.land a 0xFFFFFFFF = a) by (change 0xFFFFFFFF with (N.ones 32); rewrite N.land_ones; apply N.mod_small; exact HA).
  assert (L0 : N.land a 0xFF00FF = a mod 256 + 256 * (0 + 256 * (a / 65536 mod 256 + 256 * (0 + 256 * 0)))).
  { apply N.bits_inj. intros i. rewrite N.land_spec. rewrite (bit_split 16 a), (bit_split 16 0xFF00FF).
    match goal with |- _ = N.testbit ?x i => rewrite (bit_split 16 x) end.
    change (2 ^ 16) with 65536. change (0xFF00FF mod 65536) with (N.ones 8). change (0xFF00FF / 65536) with (N.ones 8).
    replace ((a mod 256 + 256 * (0 + 256 * (a / 65536 mod 256 + 256 * (0 + 256 * 0)))) / 65536) with ((a / 65536) mod 2 ^ 8) by (change (2 ^ 8) with 256; lia).
    replace ((a mod 256 + 256 * (0 + 256 * (a / 65536 mod 256 + 256 * (0 + 256 * 0)))) mod 65536) with ((a mod 65536) mod 2 ^ 8) by (change (2 ^ 8) with 256; lia).
    destruct (i <? 16); rewrite bit_mod; reflexivity. }
  destruct (N.eqb_spec m 0); [cbn [AccessMethod_address le fold_right]; symmetry; exact L0|].
  destruct (N.eqb_spec m 1); [cbn [AccessMethod_address le fold_right orb]; rewrite L24; lia|].
  destruct (N.eqb_spec m 2).
  { cbn [AccessMethod_address le fold_right orb]. rewrite L24. unfold byte_of.
    change (256 ^ 0) with 1. change (256 ^ 1) with 256. lia. }
  cbn [orb]. destruct (N.eqb_spec m 3).
  { subst m. cbn [AccessMethod_address]. symmetry. exact L32. }
  destruct (N.eqb_spec m 4); [cbn [AccessMethod_address]; symmetry; exact L16|].
  destruct (m <? 128); cbn [AccessMethod_address]; symmetry; exact L32.
Qed.

(* -------------------------------------------------- system management types *)

Lemma management_meaning k : k < 2 ^ 32 ->
  SystemManagementType_from k = meaning SystemManagementType_codes SystemManagementType_other k.
Proof.
  change (2 ^ 32) with 4294967296. intros HK.
  unfold SystemManagementType_from, meaning, SystemManagementType_codes, SystemManagementType_other, within, cast. cbn [named].
  rewrite !(N.eqb_sym k).
  destruct (N.ltb_spec k 0x31) as [HS|HS].
  - apply below_in with (n := 49%nat) in HS. cbv [below seq map] in HS. clear HK.
    repeat (destruct HS as [<-|HS]; [vm_compute; reflexivity|]). destruct HS.
  - repeat match goal with |- context [?n =? k] => destruct (N.eqb_spec n k); [lia|] end.
    replace (k <=? 0x0F) with false by lia. replace (k <=? 0x1F) with false by lia. replace (k <=? 0x27) with false by lia.
    rewrite !andb_false_r.
    replace (k <? 0x10) with false by lia. replace (k <? 0x20) with false by lia. replace (k <? 0x28) with false by lia.
    destruct (N.ltb_spec k 0x10000).
    { replace (0x10000 <=? k) with false by lia. replace (0x80000000 <=? k) with false by lia. reflexivity. }
    replace (0x10000 <=? k) with true by lia. cbn [andb].
    destruct (N.ltb_spec k 0x20000).
    { replace (k <=? 0x1FFFF) with true by lia. f_equal. change (2 ^ 16) with 65536. lia. }
    replace (k <=? 0x1FFFF) with false by lia.
    destruct (N.ltb_spec k 0x80000000).
    + replace (0x80000000 <=? k) with false by lia. reflexivity.
    + replace (0x80000000 <=? k) with true by lia. replace (k <=? 0xFFFFFFFF) with true by lia. reflexivity.
Qed.

Definition SystemManagementType_number (x : SystemManagementType) : N :=
  match x with
  | SMT_OutOfRangeVoltagePlus2_5Num1 => 0 | SMT_OutOfRangeVoltagePlus2_5Num2 => 1 | SMT_OutOfRangeVoltagePlus3_3 => 2
  | SMT_OutOfRangeVoltagePlus5 => 3 | SMT_OutOfRangeVoltageMinus5 => 4 | SMT_OutOfRangeVoltagePlus12 => 5
  | SMT_OutOfRangeVoltageMinus12 => 6 | SMT_OutOfRangeVoltageReserved v => v
  | SMT_OutOfRangeTemperatureSystemBoard => 16 | SMT_OutOfRangeTemperatureProcessor1 => 17
  | SMT_OutOfRangeTemperatureProcessor2 => 18 | SMT_OutOfRangeTemperatureProcessor3 => 19
  | SMT_OutOfRangeTemperatureProcessor4 => 20 | SMT_OutOfRangeTemperatureReserved v => v
  | SMT_OutOfRangeFan v => 0x20 + v | SMT_Reserved v => v | SMT_ChassisSecureSwitchActivated => 0x30
  | SMT_OutOfRangeSystemManagementProbe v => 0x10000 + v | SMT_OemAssigned v => v
  end.
Lemma management_number k : k < 2 ^ 32 -> SystemManagementType_number (SystemManagementType_from k) = k.
Proof.
  intros HK. rewrite management_meaning by exact HK. unfold meaning, SystemManagementType_codes, SystemManagementType_other. cbn [named].
  repeat match goal with |- context [k =? ?n] => destruct (N.eqb_spec k n); [subst k; reflexivity|] end.
  repeat match goal with |- context [k <? ?n] => destruct (N.ltb_spec k n) end; cbv beta iota delta [SystemManagementType_number]; lia.
Qed.
Lemma management_inj a b : a < 2 ^ 32 -> b < 2 ^ 32 -> SystemManagementType_from a = SystemManagementType_from b -> a = b.
Proof. intros HA HB H. rewrite <- (management_number a HA), H. apply management_number, HB. Qed.
