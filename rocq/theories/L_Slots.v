(* Proofs for type 9. *)
From Coq Require Import String.
From Coq Require Import ZArith Lia ZifyBool ZifyNat ZifyN.
From Verif Require Import Base G_Enums M_Raw M_SystemSlots.
From Verif Require Import Spec S_Enums S_Decode S_Hardware L_Base L_Strings L_Enums L_Decode L_Hardware.
Local Open Scope N_scope.
Ltac Zify.zify_post_hook ::= Z.div_mod_to_equations.

Lemma function_from k : DeviceAndFunctionNumber_from k = function_means k.
Proof.
  unfold DeviceAndFunctionNumber_from, function_means. change 7 with (N.ones 3).
  rewrite N.land_ones, N.shiftr_div_pow2. reflexivity.
Qed.

(* the decoder without its length checks *)
Definition slots_body (c : cfg) (r : RawStructure) : out (res SystemSlots) :=
    let! count := get_ok c 1 0x12 r in
    let n := match count with Some x => x | None => 0 end in
    let? slot_designation := get_string c 0x04 r in
    let? slot_type := get c 1 0x05 r in
    let? slot_data_bus_width := get c 1 0x06 r in
    let? current_usage := get c 1 0x07 r in
    let? slot_length := get c 1 0x08 r in
    let? slot_id := get c 2 0x09 r in
    let? slot_characteristics_1 := get c 1 0x0B r in
    let! slot_characteristics_2 := get_ok c 1 0x0C r in
    let! segment_group_number := get_ok c 2 0x0D r in
    let! bus_number := get_ok c 1 0x0F r in
    let! device_and_function_number := get_ok c 1 0x10 r in
    let! data_bus_width := get_ok c 1 0x11 r in
    let! peer_devices := get_slice c 0x13 (5 * n) r in
    let! slot_information := get_ok c 1 (0x14 + 5 * n) r in
    let! slot_physical_width := get_ok c 1 (0x15 + 5 * n) r in
    let! slot_pitch := get_ok c 2 (0x16 + 5 * n) r in
    Val (Ok {|
      slots_handle := handle r;
      slots_slot_designation := slot_designation;
      slots_slot_type := SlotType_from slot_type;
      slots_slot_data_bus_width := SlotWidth_from slot_data_bus_width;
      slots_current_usage := CurrentUsage_from current_usage;
      slots_slot_length := SlotLength_from slot_length;
      slots_slot_id := slot_id;
      slots_slot_characteristics_1 := slot_characteristics_1;
      slots_slot_characteristics_2 := slot_characteristics_2;
      slots_segment_group_number := ofilter (fun x => negb (x =? 0xFFFF)) segment_group_number;
      slots_bus_number := ofilter (fun x => negb (x =? 0xFF)) bus_number;
      slots_device_and_function_number :=
        option_map DeviceAndFunctionNumber_from (ofilter (fun x => negb (x =? 0xFF)) device_and_function_number);
      slots_data_bus_width := data_bus_width;
      slots_peer_devices := option_map (fun s => {| peer_chunks := s |}) peer_devices;
      slots_slot_information := slot_information;
      slots_slot_physical_width := option_map SlotWidth_from slot_physical_width;
      slots_slot_pitch := slot_pitch
    |}).

Lemma slots_length c r : 
  (length_ok r (SystemSlots_length (version r)) /\ SystemSlots_try_from c r = slots_body c r) \/
  exists e, length_error r InfoType_SystemSlots (SystemSlots_length (version r)) e /\
            SystemSlots_try_from c r = Val (Err e).
Proof.
  unfold SystemSlots_try_from. fold (slots_body c r). folded (slots_body c r).
  unfold SystemSlots_length. rewrite (N.add_comm (len (data r)) 4).
  sinces; versions; try vlia; cbn [andb negb length_ok length_error];
  repeat match goal with
  | |- context [4 + len (data r) =? ?k] => destruct (N.eqb_spec (4 + len (data r)) k); cbn [negb andb]
  | |- context [4 + len (data r) <? ?k] => destruct (N.ltb_spec (4 + len (data r)) k); cbn [negb andb]
  end; first [left; split; [first [exact I|lia]|reflexivity]|right; eexists; split; [split; [lia|reflexivity]|reflexivity]].
Qed.

Lemma peer_count_lt r : all_bytes (data r) -> peer_count r < 256.
Proof.
  intros H. unfold peer_count. destruct (field r 0x12 1) as [n|] eqn:F; [|reflexivity].
  apply (field_lt r 0x12 1 n H F).
Qed.

Lemma option_map_compose {A B C} (g : B -> C) (f : A -> B) o : option_map g (option_map f o) = option_map (fun x => g (f x)) o.
Proof. destruct o; reflexivity. Qed.
Lemma option_map_ext {A B} (f g : A -> B) o : (forall x, f x = g x) -> option_map f o = option_map g o.
Proof. intros H. destruct o; cbn; [rewrite H|]; reflexivity. Qed.

Arguments peer_count : simpl never.

Lemma slots_body_eq c r : all_bytes (data r) ->
  slots_body c r =
    let n := peer_count r in
    let? slot_designation := get_string c 0x04 r in
    let? slot_type := get c 1 0x05 r in
    let? slot_data_bus_width := get c 1 0x06 r in
    let? current_usage := get c 1 0x07 r in
    let? slot_length := get c 1 0x08 r in
    let? slot_id := get c 2 0x09 r in
    let? slot_characteristics_1 := get c 1 0x0B r in
    Val (Ok {|
      slots_handle := handle r;
      slots_slot_designation := slot_designation;
      slots_slot_type := meaning SlotType_codes_here SlotType_Undefined slot_type;
      slots_slot_data_bus_width := meaning SlotWidth_codes SlotWidth_Undefined slot_data_bus_width;
      slots_current_usage := meaning CurrentUsage_codes CurrentUsage_Undefined current_usage;
      slots_slot_length := meaning SlotLength_codes SlotLength_Undefined slot_length;
      slots_slot_id := slot_id;
      slots_slot_characteristics_1 := slot_characteristics_1;
      slots_slot_characteristics_2 := field r 0x0C 1;
      slots_segment_group_number := ofilter (fun x => negb (x =? 0xFFFF)) (field r 0x0D 2);
      slots_bus_number := ofilter (fun x => negb (x =? 0xFF)) (field r 0x0F 1);
      slots_device_and_function_number :=
        option_map function_means (ofilter (fun x => negb (x =? 0xFF)) (field r 0x10 1));
      slots_data_bus_width := field r 0x11 1;
      slots_peer_devices := option_map (fun s => {| peer_chunks := s |})
        (if 0x13 + 5 * n <=? 4 + len (data r) then Some (take (5 * n) (drop (0x13 - 4) (data r))) else None);
      slots_slot_information := field r (0x14 + 5 * n) 1;
      slots_slot_physical_width := option_map (meaning SlotWidth_codes SlotWidth_Undefined) (field r (0x15 + 5 * n) 1);
      slots_slot_pitch := field r (0x16 + 5 * n) 2
    |}).
Proof.
  intros HB. pose proof (peer_count_lt r HB) as HN.
  unfold slots_body. rewrite (get_ok_field c 1 0x12) by get_side. cbn [obind]. cbv zeta. fold (peer_count r).
  set (n := peer_count r) in *. clearbody n.
  gets. repeat (get_step; [|reflexivity]).
  cbn [obind rbind]. rewrite SlotType_from_meaning, SlotWidth_from_meaning, CurrentUsage_from_meaning, SlotLength_from_meaning.
  rewrite (option_map_ext _ _ _ function_from), (option_map_ext _ _ _ SlotWidth_from_meaning). reflexivity.
Qed.

Lemma slots_body_ok c r s : all_bytes (data r) -> (slots_body c r = Val (Ok s) <-> SystemSlots_says r s).
Proof.
  intros HB. rewrite slots_body_eq by exact HB. cbv zeta. gets. split.
  - repeat (get_step; [|intros; discriminate]). rewrite ?rbind_ok. intros H. injection H as <-. constructor; cbn;
    lazymatch goal with
    | |- text_field _ _ _ => eapply text_field_found; eassumption
    | |- code_field _ _ _ _ _ _ => eapply code_field_found; [eassumption|reflexivity]
    | |- field_is _ _ _ _ => assumption
    | |- if_there_but _ _ _ _ _ => apply if_there_but_iff; reflexivity
    | |- exists o, _ => eexists; split; [apply if_there_but_iff; reflexivity|reflexivity]
    | |- bytes_if_there _ _ _ _ => apply bytes_if_there_iff; [lia|]; rewrite option_map_compose; destruct (_ <=? _); reflexivity
    | |- _ => reflexivity
    end.
  - intros H. destruct H. destruct s as [s1 s2 s3 s4 s5 s6 s7 s8 s9 s10 s11 s12 s13 s14 s15 s16 s17]. cbn in *.
    repeat match goal with
    | H : text_field _ _ _ |- _ => let k := fresh "k" in let F := fresh "F" in destruct H as [k [F H]]; apply find_string_ok in H; unfold field_is in F; rewrite F
    | H : code_field _ _ _ _ _ _ |- _ => let k := fresh "k" in let F := fresh "F" in destruct H as [k [F H]]; unfold field_is in F; rewrite F
    | H : field_is _ _ _ _ |- _ => unfold field_is in H; rewrite H
    | H : exists o, _ |- _ => let o := fresh "o" in let F := fresh "F" in destruct H as [o [F H]]
    | H : if_there_but _ _ _ _ _ |- _ => apply if_there_but_iff in H
    | H : bytes_if_there _ _ _ _ |- _ => apply bytes_if_there_iff in H; [|lia]
    | H : find_string _ _ = Ok _ |- _ => rewrite H; clear H
    end; cbn [rbind].
    unfold if_there, code_if_there in *. subst.
    repeat f_equal. destruct s14 as [[l]|]; cbn in *;
    match goal with H : _ = (if _ then _ else _) |- _ => rewrite <- H end; reflexivity.
Qed.

Lemma slots_body_err c r e : all_bytes (data r) ->
  (slots_body c r = Val (Err e) <-> first_failure r SystemSlots_needs e).
Proof.
  intros HB. rewrite slots_body_eq by exact HB. cbv zeta. gets. unfold SystemSlots_needs.
  get_step; [|rewrite first_failure_text_none by assumption; cbn [rbind]; split; congruence].
  get_step; [|erewrite first_failure_text_err by eassumption; cbn [rbind]; split; congruence].
  erewrite first_failure_text by eassumption.
  repeat (get_step; [erewrite first_failure_num by eassumption|rewrite first_failure_num_none by assumption; cbn [rbind]; split; congruence]).
  cbn. split; [discriminate|tauto].
Qed.

Lemma slots_body_total c r : all_bytes (data r) -> exists o, slots_body c r = Val o.
Proof.
  intros HB. rewrite slots_body_eq by exact HB. cbv zeta. gets.
  repeat (get_step; [|eexists; reflexivity]). eexists; reflexivity.
Qed.

Lemma SystemSlots_ok c r s : all_bytes (data r) ->
  (SystemSlots_try_from c r = Val (Ok s) <-> length_ok r (SystemSlots_length (version r)) /\ SystemSlots_says r s).
Proof.
  intros HB. destruct (slots_length c r) as [[H ->]|[e [H ->]]].
  - rewrite slots_body_ok by exact HB. tauto.
  - apply length_ok_not in H. split; [discriminate|tauto].
Qed.

Lemma length_error_det r i rule e e' : length_error r i rule e -> length_error r i rule e' -> e = e'.
Proof. destruct rule; cbn; [tauto| |]; intros [_ ->] [_ ->]; reflexivity. Qed.

Lemma SystemSlots_err c r e : all_bytes (data r) ->
  (SystemSlots_try_from c r = Val (Err e) <->
   length_error r InfoType_SystemSlots (SystemSlots_length (version r)) e \/
   (length_ok r (SystemSlots_length (version r)) /\ first_failure r SystemSlots_needs e)).
Proof.
  intros HB. destruct (slots_length c r) as [[H ->]|[e' [H ->]]].
  - rewrite slots_body_err by exact HB. split; [auto|]. intros [E|[_ E]]; [|exact E]. destruct (length_ok_not _ _ _ _ E H).
  - split.
    + intros [= <-]. auto.
    + intros [E|[E _]]; [|destruct (length_ok_not _ _ _ _ H E)]. f_equal. f_equal. eapply length_error_det; eassumption.
Qed.

Lemma SystemSlots_total c r : all_bytes (data r) -> exists o, SystemSlots_try_from c r = Val o.
Proof.
  intros HB. destruct (slots_length c r) as [[H ->]|[e' [H ->]]]; [apply slots_body_total, HB|eauto].
Qed.

(* ------------------------------------------------------------ peer devices *)

Lemma device_from_means s0 s1 b f w rest :
  Device_from (s0 :: s1 :: b :: f :: w :: rest) = Val {|
    device_segment_group_number := s0 + 256 * s1; device_bus_number := b;
    device_device_and_function_number := function_means f; device_data_bus_width := w |}.
Proof.
  unfold Device_from. destruct (N.leb_spec 5 (len (s0 :: s1 :: b :: f :: w :: rest))) as [H|H].
  2: { unfold len in H. cbn [length] in H. lia. }
  change (at_ 0 2 (s0 :: s1 :: b :: f :: w :: rest)) with (s0 + 256 * (s1 + 256 * 0)).
  change (at_ 2 1 (s0 :: s1 :: b :: f :: w :: rest)) with (b + 256 * 0).
  change (at_ 3 1 (s0 :: s1 :: b :: f :: w :: rest)) with (f + 256 * 0).
  change (at_ 4 1 (s0 :: s1 :: b :: f :: w :: rest)) with (w + 256 * 0).
  rewrite function_from. rewrite !N.mul_0_r, !N.add_0_r. reflexivity.
Qed.

Lemma peers_drain n : forall l, length l = (5 * n)%nat ->
  exists recs ds s', l = concat recs /\ length recs = n /\
    drains PeerDevices_next {| peer_chunks := l |} ds s' /\ Forall2 device_means recs ds.
Proof.
  induction n as [|n IH]; intros l HL.
  - destruct l; [|discriminate]. exists [], [], {| peer_chunks := [] |}. repeat split; [|constructor].
    apply drains_nil. reflexivity.
  - replace (5 * S n)%nat with (5 + 5 * n)%nat in HL by lia.
    do 5 (destruct l as [|? l]; [discriminate|]). cbn in HL.
    destruct (IH l) as [recs [ds [s' [E [L [D F]]]]]]; [lia|].
    exists ([n0; n1; n2; n3; n4] :: recs). eexists (_ :: ds), s'. split; [|split; [|split]].
    + cbn. rewrite E at 1. reflexivity.
    + cbn. congruence.
    + eapply drains_cons; [|exact D]. unfold PeerDevices_next. cbn [peer_chunks].
      change (take 5 (n0 :: n1 :: n2 :: n3 :: n4 :: l)) with (n0 :: n1 :: n2 :: n3 :: n4 :: []).
      rewrite device_from_means. reflexivity.
    + constructor; [|exact F]. do 5 eexists. split; reflexivity.
Qed.

Lemma slots_peers c r s p : all_bytes (data r) -> SystemSlots_try_from c r = Val (Ok s) -> slots_peer_devices s = Some p ->
  exists recs ds p', bytes_at r 0x13 (5 * peer_count r) (concat recs) /\ len recs = peer_count r /\
    drains PeerDevices_next p ds p' /\ Forall2 device_means recs ds.
Proof.
  intros HB H P. apply SystemSlots_ok in H; [|exact HB]. destruct H as [_ H]. destruct H as [_ _ _ _ _ _ _ _ _ _ _ _ _ H _ _ _].
  rewrite P in H. destruct p as [l]. cbn [option_map peer_chunks] in H. destruct H as [[l' [B [= ->]]]|[_ H]]; [|discriminate].
  destruct (peers_drain (N.to_nat (peer_count r)) l') as [recs [ds [p' [E [L [D F]]]]]].
  { destruct B as [_ [_ [_ [_ B]]]]. unfold len in B. lia. }
  exists recs, ds, p'. rewrite <- E. split; [exact B|]. split; [unfold len; lia|]. auto.
Qed.

(* a device and function number, and a device, survive the way to bytes and back *)
Lemma lor_disjoint a k : N.lor (a * 8) (k mod 8) = a * 8 + k mod 8.
Proof.
  change 8 with (2 ^ 3). rewrite <- N.shiftl_mul_pow2, <- N.land_ones.
  rewrite <- N.lxor_lor, N.add_nocarry_lxor; try reflexivity;
    apply N.bits_inj; intros i; rewrite !N.land_spec, N.bits_0;
    destruct (N.ltb_spec i 3);
    [rewrite N.shiftl_spec_low by assumption; reflexivity|rewrite N.ones_spec_high by assumption; rewrite !andb_false_r; reflexivity|rewrite N.shiftl_spec_low by assumption; reflexivity|rewrite N.ones_spec_high by assumption; rewrite !andb_false_r; reflexivity].
Qed.
Lemma function_round k : k < 256 -> DeviceAndFunctionNumber_to (DeviceAndFunctionNumber_from k) = k.
Proof.
  intros H. rewrite function_from. unfold DeviceAndFunctionNumber_to, function_means, cast. cbn [dev fun_].
  rewrite N.shiftl_mul_pow2. change (2 ^ 8) with 256. change (2 ^ 3) with 8.
  rewrite N.mod_small by lia. rewrite lor_disjoint. lia.
Qed.
Lemma function_back df : dev df < 32 -> fun_ df < 8 -> DeviceAndFunctionNumber_from (DeviceAndFunctionNumber_to df) = df.
Proof.
  intros H1 H2. rewrite function_from. destruct df as [a b]. cbn [dev fun_] in *.
  unfold DeviceAndFunctionNumber_to, function_means, cast. cbn [dev fun_].
  rewrite N.shiftl_mul_pow2. change (2 ^ 8) with 256. change (2 ^ 3) with 8.
  rewrite N.mod_small by lia. rewrite <- (N.mod_small b 8) at 1 2 by assumption. rewrite lor_disjoint.
  rewrite (N.mod_small b 8) by assumption. f_equal; lia.
Qed.
Lemma device_round l d : all_bytes l -> len l = 5 -> Device_from l = Val d -> Device_to d = l.
Proof.
  intros HB HL H. unfold len in HL.
  do 5 (destruct l as [|? l]; [cbn [length] in HL; lia|]). destruct l; [|cbn [length] in HL; lia].
  rewrite device_from_means in H. remember (n + 256 * n0) as sg eqn:SG. injection H as <-. unfold Device_to.
  cbn [device_segment_group_number device_bus_number device_device_and_function_number device_data_bus_width].
  rewrite <- function_from. unfold all_bytes in HB. repeat (apply Forall_cons_iff in HB; destruct HB as [? HB]).
  unfold is_byte in *. rewrite function_round by assumption. f_equal; [lia|]. f_equal. lia.
Qed.
