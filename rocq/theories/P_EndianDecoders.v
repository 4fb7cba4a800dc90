(* Property C84: decoding structures on a big-endian machine.  M_EndianDecoders models the
   decoders that copy packed structures on machines of both kinds; C79 is about entry points
   and headers. *)
From Coq Require Import ZArith Lia ZifyBool ZifyNat ZifyN.
From Verif Require Import Base G_Enums M_Raw M_Processor M_Cache M_Enclosure M_SystemSlots M_Iter M_Endian M_EndianDecoders
  T_Data Spec S_Iter S_Table S_Endian S_EndianDecoders L_Base L_Endian L_EndianDecoders P_Hardware P_System P_Iter.
Local Open Scope N_scope.

(* The rest of the model is the one of a little-endian machine. *)
Theorem C84_little_endian :
  (forall c r, dispatch_on false c r = dispatch c r) /\ (forall c s, next_on false c s = next c s) /\
  (forall s, PeerDevices_next_on false s = PeerDevices_next s) /\
  (forall c s, ContainedElements_next_on false c s = ContainedElements_next c s).
Proof. exact little_decoders. Qed.
Print Assumptions C84_little_endian.

(* A big-endian machine decodes a structure as a little-endian one decodes the structure that
   has the bytes of its wide packed fields in the opposite order; this includes the errors,
   the panics and the reads past the structure. *)
Theorem C84_big_endian : forall c r, dispatch_on true c r = dispatch c (respelled r).
Proof. exact dispatch_big. Qed.
Print Assumptions C84_big_endian.

(* Types without such fields are decoded alike on every machine: system information, port
   connectors, slots, strings, languages, groups, event logs, everything about memory,
   pointing devices, batteries, and what is not decoded at all. *)
Theorem C84_unaffected : forall c r,
  ~ In (info r) [InfoType_Bios; InfoType_BaseBoard; InfoType_Enclosure; InfoType_Processor; InfoType_Cache] ->
  dispatch_on true c r = dispatch c r.
Proof. exact unaffected. Qed.
Print Assumptions C84_unaffected.

(* A structure whose wide packed fields are stored most significant byte first is decoded on a
   big-endian machine to what a little-endian one makes of the standard's form. *)
Theorem C84_stored_big : forall c r, dispatch_on true c (respelled r) = dispatch c r.
Proof. intros c r. rewrite dispatch_big, respelled_twice. reflexivity. Qed.
Print Assumptions C84_stored_big.

(* Whether a structure decodes does not depend on the machine. *)
Theorem C84_outcome : forall c r, alike (dispatch c r) (dispatch_on true c r).
Proof. exact same_outcome. Qed.
Print Assumptions C84_outcome.

(* From the same state the whole iteration has the same number of items, ends in the same way
   and in the same state; the items correspond one by one. *)
Theorem C84_iteration : forall c s l e, all_bytes (buffer s) -> runs (next c) s l e ->
  exists l', runs (next_on true c) s l' e /\ Forall2 (counterpart c) l l'.
Proof. exact run_big. Qed.
Print Assumptions C84_iteration.

(* The lists inside structures: contained elements are the same, peer devices are the same but
   for the bytes of the segment group. *)
Theorem C84_elements : forall c s, ContainedElements_next_on true c s = ContainedElements_next c s.
Proof. exact elements_big. Qed.
Print Assumptions C84_elements.
Theorem C84_peers : forall s l e, all_bytes (peer_chunks s) -> runs PeerDevices_next s l e ->
  exists l', runs (PeerDevices_next_on true) s l' e /\ Forall2 peers_alike l l'.
Proof. exact peers_big. Qed.
Print Assumptions C84_peers.

(* "Structures decode alike on every machine" is false: a processor with a current speed of
   3600 MHz (0E10h) and 256 cores (0100h) is reported with 4110 MHz (100Eh) and one core. *)
Theorem C84_same_refuted : exists r x y,
  dispatch_on false ex_strict r = Val (Ok (SProcessor x)) /\ dispatch_on true ex_strict r = Val (Ok (SProcessor y)) /\
  processor_current_speed x = 3600 /\ processor_current_speed y = 4110 /\
  processor_core_count x = Some 256 /\ processor_core_count y = Some 1.
Proof. exists (ex_processor 3 0). do 2 eexists. split; [reflexivity|]. split; [reflexivity|]. repeat split. Qed.
Print Assumptions C84_same_refuted.

(* "A peer device turns back into the bytes it came from" (C30_device_round_trip) is false on a
   big-endian machine: reading follows the machine, writing is little endian. *)
Theorem C84_device_round_trip_refuted : exists l d, all_bytes l /\ len l = 5 /\ Device_from_on true l = Val d /\ Device_to d <> l.
Proof.
  exists [1; 0; 3; 8; 4]. eexists. split; [repeat constructor|]. split; [reflexivity|]. split; [reflexivity|]. vm_compute. discriminate.
Qed.
Print Assumptions C84_device_round_trip_refuted.

Example C84_example :
  (exists l s, all_bytes (table ex_list) /\ runs (next ex_cfg) (structures (ex_v2 26) (table ex_list)) l (Exhausted s) /\ len l = 3) /\
  data (respelled (ex_processor 3 0)) <> data (ex_processor 3 0) /\
  after (respelled (ex_processor 3 0)) = after (ex_processor 3 0) /\
  (exists s l e, all_bytes (peer_chunks s) /\ runs PeerDevices_next s l e /\ len l = 2).
Proof.
  split.
  { assert (E : match chase (next ex_cfg) 10 (structures (ex_v2 26) (table ex_list)) with
               | Some (Exhausted _, k) => k =? 3 | _ => false end = true) by (vm_compute; reflexivity).
    destruct (chase (next ex_cfg) 10 (structures (ex_v2 26) (table ex_list))) as [[[s| |] k]|] eqn:C; try discriminate E.
    apply N.eqb_eq in E. subst k. destruct (chase_runs _ _ _ _ _ C) as [l [R K]].
    exists l, s. split; [apply all_bytes_dec; reflexivity|]. auto. }
  split; [vm_compute; discriminate|]. split; [reflexivity|].
  exists {| peer_chunks := [1; 0; 3; 8; 4; 2; 0; 3; 16; 4] |}. do 2 eexists. split; [repeat constructor|]. split.
  - eapply runs_some; [reflexivity|]. eapply runs_some; [reflexivity|]. apply runs_none. reflexivity.
  - reflexivity.
Qed.
