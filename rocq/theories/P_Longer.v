(* C90: structures that are longer than the decoders know. *)
From Coq Require Import String ZArith Lia ZifyBool ZifyNat ZifyN.
From Verif Require Import Base G_Enums M_Raw M_Entry M_Enclosure M_SystemSlots M_GroupAssociations M_MemoryDevice M_Memory M_Iter.
From Verif Require Import Spec S_Iter S_Decode S_Versions S_Longer L_Base L_Iter L_Longer P_System P_Iter.
Local Open Scope N_scope.

(* When a structure and the same structure with further bytes behind its fields are
   both decoded, the longer one shows everything that the shorter one shows.  The types
   of [one_length] are dealt with below. *)
Theorem C90_kept : forall c e r x y, flat_memory c = false ->
  length_ r = 4 + len (data r) -> 4 + len (data r) + len e < 256 -> all_bytes e -> ~ one_length (version r) (info r) ->
  dispatch c r = Val (Ok x) -> dispatch c (lengthened e r) = Val (Ok y) -> longer e x y.
Proof. exact dispatch_keeps. Qed.
Print Assumptions C90_kept.

(* And the longer one is decoded, whatever the further bytes are; an enclosure has to
   be complete for that. *)
Theorem C90_taken : forall c e r x, flat_memory c = false ->
  length_ r = 4 + len (data r) -> 4 + len (data r) + len e < 256 -> all_bytes e -> ~ one_length (version r) (info r) ->
  dispatch c r = Val (Ok x) -> complete_enclosure x ->
  exists y, dispatch c (lengthened e r) = Val (Ok y) /\ longer e x y.
Proof. exact dispatch_takes. Qed.
Print Assumptions C90_taken.

(* Structures that have all their fields do not change at all. *)
Theorem C90_complete_slot : forall c e r x p, from_version (version r) 3 2 -> len (data r) < 252 -> all_bytes (data r) ->
  SystemSlots_try_from c r = Val (Ok x) -> slots_slot_pitch x = Some p -> SystemSlots_try_from c (lengthened e r) = Val (Ok x).
Proof. exact SystemSlots_complete. Qed.
Print Assumptions C90_complete_slot.

Theorem C90_complete_memory_device : forall c e r, 0x5C <= 4 + len (data r) -> len (data r) < 256 ->
  MemoryDevice_try_from c (lengthened e r) = MemoryDevice_try_from c r.
Proof. exact MemoryDevice_complete. Qed.
Print Assumptions C90_complete_memory_device.

(* The contained elements that [longer] keeps are the same to a caller who goes through them. *)
Theorem C90_elements : forall c x y a b l s, flat_memory c = false -> Enclosure_longer x y ->
  enclosure_contained_elements x = Some a -> enclosure_contained_elements y = Some b ->
  drains (ContainedElements_next c) a l s -> exists s', drains (ContainedElements_next c) b l s'.
Proof.
  intros c x y a b l s HF HR HA HB. destruct HR as [? ? ? ? ? ? ? ? ? ? ? ? ? ? KE ?]. destruct (KE a HA) as [b0 [EB HE]].
  rewrite HB in EB. injection EB as <-. intros D. exact (elements_drain_alike c a l s HF D b HE).
Qed.
Print Assumptions C90_elements.

(* The same for whole tables: every structure s of a table becomes longer by its own
   bytes e. *)
Theorem C90_tables : forall c ep (l : list (encodable * list N)) rest xs,
  let v := ep_to_version ep in
  let longer_table := map (fun p => widened (fst p) (snd p)) l in
  flat_memory c = false ->
  Forall (fun p => encodable_ok (widened (fst p) (snd p)) /\ ~ one_length v (InfoType_from (e_type (fst p)))) l ->
  ep_smbios_len ep = len (table longer_table) ->
  all_bytes (table longer_table ++ rest) -> len (table longer_table ++ rest) + 260 <= 2 ^ 32 ->
  Forall2 (fun r x => dispatch c r = Val (Ok x)) (shown v (map fst l) rest) xs -> Forall complete_enclosure xs ->
  exists ys s', drains (next c) (structures ep (table longer_table ++ rest)) (map Ok ys) s' /\
    length ys = length xs /\
    forall i p x y, nth_error l i = Some p -> nth_error xs i = Some x -> nth_error ys i = Some y ->
      longer (snd p) (forget x) (forget y).
Proof.
  intros c ep l rest xs v lt HF HO HL HA HB HX HC. pose proof HA as HA'. apply all_bytes_app in HA'. destruct HA' as [HA1 _].
  destruct (widened_table c v rest l HF HA1 HO xs HC HX) as [ys [HY [HN HR]]].
  destruct (drains_table c ep lt rest (map Ok ys)) as [s' [D _]]; [|exact HL|exact HA|exact HB| |].
  - apply Forall_map. eapply Forall_impl; [|exact HO]. intros p [H _]. exact H.
  - assert (G : forall rs zs, Forall2 (fun r y => dispatch c r = Val (Ok y)) rs zs -> Forall2 (fun r y => dispatch c r = Val y) rs (map Ok zs))
      by (induction 1; constructor; assumption).
    exact (G _ _ HY).
  - exists ys, s'. split; [exact D|]. split; [exact HN|exact HR].
Qed.
Print Assumptions C90_tables.

(* Seven decoders refuse a structure of more bytes than they know, although a newer
   version of the standard may append fields. *)
Theorem C90_one_length_refuted : forall c e r x, length_ r = 4 + len (data r) -> 0 < len e ->
  from_version (version r) 2 1 -> one_length (version r) (info r) -> dispatch c r = Val (Ok x) ->
  exists spec n, dispatch c (lengthened e r) = Val (Err (InvalidFormattedSectionLength (info r) (handle r) spec n)).
Proof. intros c e r x HL HE HV HO HD. exact (dispatch_refused c e r HL HE x HV HO HD). Qed.
Print Assumptions C90_one_length_refuted.

(* An enclosure that ends before its last field can be made undecodable by further
   bytes: they are the number of a string that does not exist, or a list too large. *)
Theorem C90_enclosure_refuted : exists c e1 e2 r x, flat_memory c = false /\ length_ r = 4 + len (data r) /\
  dispatch c r = Val (Ok x) /\
  dispatch c (lengthened e1 r) = Val (Err (InvalidStringIndex InfoType_Enclosure 7 9)) /\
  dispatch c (lengthened e2 r) = Panic.
Proof.
  exists ex_strict, [0; 3; 9], [100; 3], (ex_struct 3 0 InfoType_Enclosure [1; 3; 2; 3; 0; 1; 2; 3; 4; 0; 0; 0; 0; 1; 2] []).
  eexists. split; [reflexivity|]. split; [reflexivity|]. split; [vm_compute; reflexivity|].
  split; vm_compute; reflexivity.
Qed.
Print Assumptions C90_enclosure_refuted.

(* ------------------------------------------------------------------ examples *)

(* a slot that gains its peer devices and its pitch, a group that gains an item, and
   an enclosure that is complete *)
Example C90_slot_example :
  let r := ex_struct 3 4 InfoType_SystemSlots [1; 3; 4; 1; 3; 5; 0; 4; 1; 0; 0; 1; 8] [] in
  let e := [5; 0; 0; 1; 2; 200; 0] in
  exists x y, dispatch ex_strict r = Val (Ok (SSystemSlots x)) /\
    dispatch ex_strict (lengthened e r) = Val (Ok (SSystemSlots y)) /\ ~ one_length (version r) (info r) /\
    4 + len (data r) + len e < 256 /\ all_bytes e /\
    slots_slot_pitch x = None /\ slots_slot_pitch y <> None /\ slots_bus_number x = Some 1 /\ slots_bus_number y = Some 1.
Proof.
  cbv zeta. do 2 eexists. split; [vm_compute; reflexivity|]. split; [vm_compute; reflexivity|].
  split; [unfold one_length, before_version; cbn [ex_struct info version major minor]; lia|]. split; [vm_compute; reflexivity|].
  split; [apply all_bytes_dec; reflexivity|]. split; [reflexivity|]. split; [discriminate|]. split; reflexivity.
Qed.
Example C90_group_example : let r := ex_struct 2 7 InfoType_GroupAssociations [1; 4; 9; 0] [] in
  exists x y, dispatch ex_strict r = Val (Ok (SGroupAssociations x)) /\
    dispatch ex_strict (lengthened [7; 10; 0] r) = Val (Ok (SGroupAssociations y)) /\
    gi_data (group_items x) = [4; 9; 0] /\ gi_data (group_items y) = [4; 9; 0; 7; 10; 0] /\
    ~ one_length (version r) (info r).
Proof.
  cbv zeta. do 2 eexists. split; [vm_compute; reflexivity|]. split; [vm_compute; reflexivity|]. split; [reflexivity|].
  split; [reflexivity|]. cbn. tauto.
Qed.
Example C90_enclosure_example :
  let r := ex_struct 3 0 InfoType_Enclosure [1; 3; 2; 3; 0; 1; 2; 3; 4; 0; 0; 0; 0; 1; 2; 1; 3; 5; 6; 7; 2] [] in
  exists x y, dispatch ex_strict r = Val (Ok (SEnclosure x)) /\ complete_enclosure (SEnclosure x) /\
    dispatch ex_strict (lengthened [1; 2; 3] r) = Val (Ok (SEnclosure y)) /\ enclosure_sku_number y = enclosure_sku_number x /\
    exists a l s, enclosure_contained_elements x = Some a /\ drains (ContainedElements_next ex_strict) a l s /\ len l = 1.
Proof.
  cbv zeta. do 2 eexists. split; [vm_compute; reflexivity|]. split; [cbn; discriminate|]. split; [vm_compute; reflexivity|].
  split; [reflexivity|]. eexists. eexists [_]. eexists. split; [reflexivity|].
  split; [eapply drains_cons; [vm_compute; reflexivity|apply drains_nil; vm_compute; reflexivity]|reflexivity].
Qed.
(* a pointing device: one of the seven types that are refused when longer *)
Example C90_refused_example :
  let r := ex_struct 3 0 InfoType_BuiltInPointingDevice [3; 4; 2] [] in
  exists x, dispatch ex_strict r = Val (Ok x) /\ from_version (version r) 2 1 /\ one_length (version r) (info r).
Proof.
  cbv zeta. eexists. split; [vm_compute; reflexivity|]. split; [unfold from_version; cbn [ex_struct version major minor]; lia|exact I].
Qed.
(* a table of three structures, each with two further bytes *)
Definition ex_longer : list (encodable * list N) := map (fun s => (s, [8; 9])) ex_list.
Example C90_tables_example : exists xs,
  let v := ep_to_version (ex_v2 32) in let lt := map (fun p => widened (fst p) (snd p)) ex_longer in
  ep_smbios_len (ex_v2 32) = len (table lt) /\
  Forall (fun p => encodable_ok (widened (fst p) (snd p)) /\ ~ one_length v (InfoType_from (e_type (fst p)))) ex_longer /\
  all_bytes (table lt) /\ Forall complete_enclosure xs /\ len xs = 3 /\
  Forall2 (fun r x => dispatch ex_strict r = Val (Ok x)) (shown v (map fst ex_longer) []) xs.
Proof.
  eexists [_; _; _]. cbv zeta. split; [vm_compute; reflexivity|]. split.
  { unfold ex_longer. apply Forall_map. apply Forall_forall. intros s HS.
    destruct (proj1 (Forall_forall _ _) ex_list_ok s HS) as [A [B [_ D]]]. cbn [fst snd].
    assert (C : len (e_body s) <= 3 /\ ~ one_length (ep_to_version (ex_v2 32)) (InfoType_from (e_type s))).
    { destruct HS as [<-|[<-|[<-|[]]]]; (split; [vm_compute; discriminate|vm_compute; tauto]). }
    split; [|exact (proj2 C)]. split; [exact A|]. split; [exact B|]. split; [|exact D].
    cbn [widened e_body]. rewrite len_app. change (len [8; 9]) with 2. lia. }
  split; [apply all_bytes_dec; vm_compute; reflexivity|]. split.
  2: split; [reflexivity|repeat (constructor; [vm_compute; reflexivity|]); constructor].
  repeat constructor.
Qed.
