(* Proofs for types 4, 7 and 8. *)
From Coq Require Import ZArith Lia ZifyBool ZifyNat ZifyN.
From Verif Require Import Base G_Enums M_Raw M_Processor M_Cache M_PortConnector M_SystemSlots.
From Verif Require Import Spec S_Enums S_Decode S_Hardware L_Base L_Strings L_Enums L_Decode.
Local Open Scope N_scope.
Ltac Zify.zify_post_hook ::= Z.div_mod_to_equations.

(* finite domains *)
Definition below (n : nat) : list N := map N.of_nat (seq 0 n).
Lemma below_in n k : k < N.of_nat n -> In k (below n).
Proof. intros H. unfold below. apply in_map_iff. exists (N.to_nat k). split; [lia|]. apply in_seq. lia. Qed.
Lemma by_bytes (P : N -> bool) : forallb P (below 256) = true -> forall k, k < 256 -> P k = true.
Proof. intros H k HK. rewrite forallb_forall in H. apply H, below_in. exact HK. Qed.

(* --------------------------------------------------------------- processor *)

Definition Voltage_eqb (a b : Voltage) : bool :=
  match a, b with
  | Voltage_Legacy x, Voltage_Legacy y | Voltage_Current x, Voltage_Current y | Voltage_Undefined x, Voltage_Undefined y => x =? y
  | _, _ => false
  end.
Lemma Voltage_eqb_eq a b : Voltage_eqb a b = true -> a = b.
Proof. destruct a, b; cbn; intros H; try discriminate; apply N.eqb_eq in H; congruence. Qed.
Lemma Voltage_from_means k : k < 256 -> Voltage_from k = voltage_means k.
Proof.
  intros H. apply Voltage_eqb_eq. revert k H.
  refine (by_bytes (fun k => Voltage_eqb (Voltage_from k) (voltage_means k)) _). vm_compute. reflexivity.
Qed.

Lemma family_2 k : ProcessorFamily_from k = ProcessorFamily_ProcessorFamily2 <-> k = 0xFE.
Proof.
  split; [|intros ->; reflexivity]. intros H. rewrite <- (ProcessorFamily_number_from k), H. reflexivity.
Qed.

Definition family_of (o : bool) (p : list N) : ProcessorFamily :=
  if o then ProcessorFamily_from_u8 (at_ 2 1 p) else processor_family_or_2 p.

Lemma family_or_2 p : processor_family_or_2 p =
  if at_ 2 1 p =? 0xFE then ProcessorFamily_from (at_ 36 2 p) else ProcessorFamily_from (at_ 2 1 p).
Proof.
  unfold processor_family_or_2, ProcessorFamily_from_u8. destruct (N.eqb_spec (at_ 2 1 p) 0xFE) as [E|E].
  - rewrite E. reflexivity.
  - rewrite <- family_2 in E. destruct (ProcessorFamily_from (at_ 2 1 p)); try reflexivity. congruence.
Qed.

Lemma family_field_old r x : all_bytes (data r) -> 3 <= len (data r) -> before_version (version r) 2 6 ->
  (family_field r x <-> x = ProcessorFamily_from_u8 (at_ 2 1 (data r))).
Proof.
  intros HB HL HV. unfold family_field, ProcessorFamily_from_u8.
  pose proof (at_lt 2 1 _ HB) as B. change (256 ^ 1) with 256 in B.
  rewrite ProcessorFamily_from_meaning by lia. split.
  - intros [k [F [G _]]]. apply field_is_iff in F; [|vlia|vlia]. subst k. apply G. auto.
  - intros ->. eexists. split; [apply field_is_iff; [vlia|vlia|reflexivity]|]. split; [reflexivity|]. intros. vlia.
Qed.

Lemma family_field_new r x : all_bytes (data r) -> 38 <= len (data r) -> from_version (version r) 2 6 ->
  (family_field r x <-> x = processor_family_or_2 (data r)).
Proof.
  intros HB HL HV. rewrite family_or_2.
  pose proof (at_lt 2 1 _ HB) as B. change (256 ^ 1) with 256 in B.
  pose proof (at_lt 36 2 _ HB) as B2. change (256 ^ 2) with 65536 in B2.
  rewrite !ProcessorFamily_from_meaning by lia. unfold family_field.
  split.
  - intros [k [F [G1 G2]]]. apply field_is_iff in F; [|vlia|vlia]. subs. subst k.
    destruct (N.eqb_spec (at_ 2 1 (data r)) 0xFE) as [E|E].
    + specialize (G2 HV E). apply code_field_iff in G2; [|vlia|vlia]. exact G2.
    + apply G1. auto.
  - intros ->. eexists. split; [apply field_is_iff; [vlia|vlia|reflexivity]|]. subs.
    destruct (N.eqb_spec (at_ 2 1 (data r)) 0xFE) as [E|E].
    + split; [intros [?|?]; [vlia|congruence]|]. intros _ _. apply code_field_iff; [vlia|vlia|reflexivity].
    + split; [reflexivity|]. intros; congruence.
Qed.

Lemma count_field_old r off off2 x : 4 <= off -> reaches r off 1 -> before_version (version r) 3 0 ->
  (count_field r off off2 x <-> x = at_ (off - 4) 1 (data r)).
Proof.
  intros H1 H2 HV. unfold count_field. split.
  - intros [k [F [G _]]]. apply field_is_iff in F; [|vlia|vlia]. subst k. auto.
  - intros ->. eexists. split; [apply field_is_iff; [vlia|vlia|reflexivity]|]. split; [reflexivity|]. intros. vlia.
Qed.
Lemma count_field_new r off off2 x : 4 <= off -> reaches r off 1 -> 4 <= off2 -> reaches r off2 2 -> from_version (version r) 3 0 ->
  (count_field r off off2 x <->
   x = if at_ (off - 4) 1 (data r) =? 0xFF then at_ (off2 - 4) 2 (data r) else at_ (off - 4) 1 (data r)).
Proof.
  intros H1 H2 H3 H4 HV. unfold count_field. split.
  - intros [k [F [G1 G2]]]. apply field_is_iff in F; [|vlia|vlia]. subst k.
    destruct (N.eqb_spec (at_ (off - 4) 1 (data r)) 0xFF) as [E|E].
    + specialize (G2 HV E). apply field_is_iff in G2; [|vlia|vlia]. exact G2.
    + auto.
  - intros ->. eexists. split; [apply field_is_iff; [vlia|vlia|reflexivity]|].
    destruct (N.eqb_spec (at_ (off - 4) 1 (data r)) 0xFF) as [E|E].
    + split; [intros [?|?]; [vlia|congruence]|]. intros _ _. apply field_is_iff; [vlia|vlia|reflexivity].
    + split; [reflexivity|]. intros; congruence.
Qed.

Lemma if_some {A} (b : bool) (x y : A) : (if b then Some x else Some y) = Some (if b then x else y).
Proof. destruct b; reflexivity. Qed.

Arguments family_field : simpl never.
Arguments count_field : simpl never.
Arguments processor_family_or_2 : simpl never.
Arguments ProcessorFamily_from_u8 : simpl never.
Arguments Voltage_from : simpl never.
Arguments voltage_means : simpl never.

Lemma family_or_2_take n d : 38 <= n -> processor_family_or_2 (take n d) = processor_family_or_2 d.
Proof. intros H. rewrite !family_or_2, !at_take by lia. reflexivity. Qed.

Lemma Processor_ok c r s : all_bytes (data r) -> Processor_area (version r) <= len (data r) ->
  (Processor_try_from c r = Val (Ok s) <-> Processor_says r s).
Proof.
  intros HB HL. unfold Processor_try_from, Processor_area in *.
  pose proof (at_lt 13 1 _ HB) as B. change (256 ^ 1) with 256 in B.
  sinces; versions; try vlia; rewrite read_packed_in by vlia; cbn [obind]; rewrite !at_take by vlia;
    rewrite ?family_or_2_take by vlia; rewrite ?if_some;
    (split;
     [says_fwd; first
       [apply ProcessorType_from_meaning | apply ProcessorUpgrade_from_meaning | apply Voltage_from_means; exact B
       |apply family_field_old; [exact HB|vlia|vlia|reflexivity]
       |apply family_field_new; [exact HB|vlia|vlia|reflexivity]
       |apply count_field_old; [vlia|vlia|vlia|reflexivity]
       |apply count_field_new; [vlia|vlia|vlia|vlia|vlia|reflexivity]]
     |destruct s; says_bwd;
      repeat match goal with
      | H : family_field _ _ |- _ => first [apply family_field_old in H; [|exact HB|vlia|vlia]|apply family_field_new in H; [|exact HB|vlia|vlia]]
      | H : count_field _ _ _ _ |- _ => first [apply count_field_old in H; [|vlia|vlia|vlia]|apply count_field_new in H; [|vlia|vlia|vlia|vlia|vlia]]
      end; subs; subst; rewrite Voltage_from_means by exact B;
      rewrite ProcessorType_from_meaning, ProcessorUpgrade_from_meaning; reflexivity]).
Qed.

Lemma Processor_err c r e : Processor_area (version r) <= len (data r) ->
  (Processor_try_from c r = Val (Err e) <-> first_bad_text r (Processor_texts (version r)) e).
Proof.
  intros HL. unfold Processor_try_from, Processor_area, Processor_texts in *.
  sinces; versions; try vlia; rewrite read_packed_in by vlia; cbn [obind]; rewrite !at_take by vlia; cbn [app]; fails.
Qed.

Lemma Processor_returns c r : Processor_area (version r) <= len (data r) -> exists o, Processor_try_from c r = Val o.
Proof.
  intros HL. unfold Processor_try_from, Processor_area in *.
  sinces; versions; try vlia; rewrite read_packed_in by vlia; cbn [obind]; finds; eexists; reflexivity.
Qed.
