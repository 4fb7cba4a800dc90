(* Property C97: what of an entry point the iteration depends on.
   Vocabulary: S_Table.v (announcement, encode_entry: the bytes of an entry point). *)
From Coq Require Import ZArith Lia ZifyBool ZifyNat ZifyN.
From Verif Require Import Base G_Enums M_Raw M_Entry M_Iter Spec S_Entry S_Iter S_Table L_Base L_Entry L_Iter L_Table P_Entry P_Iter P_Table.
Local Open Scope N_scope.

(* Two entry points, of either format, that announce the same version and table length give
   the same iterator over every table. *)
Theorem C97_version_and_length : forall b b' e e' t, search b = Val (Ok e) -> search b' = Val (Ok e') ->
  ep_major e = ep_major e' -> ep_minor e = ep_minor e' -> ep_smbios_len e = ep_smbios_len e' ->
  structures e t = structures e' t.
Proof.
  intros b b' e e' t _ _ HM HN HL. unfold structures, ep_to_version in *. destruct e, e'; cbn in *; congruence.
Qed.
Print Assumptions C97_version_and_length.
(* In bytes: the anchor's format, the checksums, the revision, the address, the largest
   structure size, the number of structures and the BCD revision do not matter. *)
Theorem C97_other_fields : forall p p' a a' tail tail' t,
  announcement_ok a -> announcement_ok a' ->
  len p mod 16 = 0 -> (forall o k, ~ anchor_at p o k) -> len p' mod 16 = 0 -> (forall o k, ~ anchor_at p' o k) ->
  layout_size (a_kind a) <= (layout_size (a_kind a) + len tail) mod 256 ->
  layout_size (a_kind a') <= (layout_size (a_kind a') + len tail') mod 256 ->
  a_major a = a_major a' -> a_minor a = a_minor a' -> a_length a = a_length a' ->
  exists e e', search (p ++ encode_entry a ++ tail) = Val (Ok e) /\ search (p' ++ encode_entry a' ++ tail') = Val (Ok e') /\
    structures e t = structures e' t.
Proof.
  intros p p' a a' tail tail' t HA HA' P1 P2 P1' P2' L L' HM HN HL.
  destruct (C61_search_inverts_encoding p a tail HA P1 P2 L) as (e & S & _ & A1 & A2 & _ & A3 & _).
  destruct (C61_search_inverts_encoding p' a' tail' HA' P1' P2' L') as (e' & S' & _ & B1 & B2 & _ & B3 & _).
  exists e, e'. split; [exact S|]. split; [exact S'|]. apply (C97_version_and_length _ _ e e' t S S'); congruence.
Qed.
Print Assumptions C97_other_fields.

(* The number of structures and the largest size that a 2.x entry point announces are not
   limits: here it announces one structure of at most five bytes, and three are yielded, the
   first one with eleven. *)
Definition ex_one : announcement := {|
  a_kind := FmtV2; a_major := 2; a_minor := 7; a_docrev := 0; a_revision := 0; a_max_structure := 5;
  a_length := 26; a_address := 0; a_count := 1; a_bcd := 0x27 |}.
Theorem C97_number_and_size_refuted : exists e l s' i s1,
  search (encode_entry ex_one) = Val (Ok e) /\ kind_of e = FmtV2 /\
  value_at (encode_entry ex_one) 28 2 = 1 /\ value_at (encode_entry ex_one) 8 2 = 5 /\
  drains (next ex_cfg) (structures e (table ex_list)) l s' /\ len l = 3 /\
  next ex_cfg (structures e (table ex_list)) = Val (Some i, s1) /\ idx s1 = 11.
Proof.
  do 5 eexists. split; [vm_compute; reflexivity|]. split; [reflexivity|]. split; [vm_compute; reflexivity|]. split; [vm_compute; reflexivity|].
  split; [do 3 (eapply drains_cons; [vm_compute; reflexivity|]); apply drains_nil; vm_compute; reflexivity|].
  split; [reflexivity|]. split; [vm_compute; reflexivity|reflexivity].
Qed.
Print Assumptions C97_number_and_size_refuted.
Example C97_example : announcement_ok ex_one /\ announcement_ok {|
    a_kind := FmtV3; a_major := 2; a_minor := 7; a_docrev := 9; a_revision := 1; a_max_structure := 0;
    a_length := 26; a_address := 0x123456789; a_count := 0; a_bcd := 0 |} /\
  layout_size FmtV2 <= (layout_size FmtV2 + len [7]) mod 256 /\ layout_size FmtV3 <= (layout_size FmtV3 + len [7]) mod 256 /\
  len ex_pre mod 16 = 0 /\ (forall o k, ~ anchor_at ex_pre o k).
Proof.
  split; [|split; [|split; [|split; [|exact C06_example_prefix]]]]; unfold announcement_ok; cbn; lia.
Qed.
