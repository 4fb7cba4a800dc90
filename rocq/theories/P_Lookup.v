(* Property C99: following a handle.
   Vocabulary: S_Lookup.v (looks_up: the loop that goes through a table for the first structure
   with a handle; nobody), S_Origin.v (shown_handle), S_Write.v (tables written from values),
   M_Use.v (well_formed_only). *)
From Coq Require Import ZArith Lia ZifyBool ZifyNat ZifyN.
From Verif Require Import Base G_Enums M_Raw M_Entry M_PhysicalMemoryArray M_Memory M_Iter M_Use Spec S_Decode S_Iter S_Origin S_Write S_Local S_Lookup
  L_Base L_Iter L_Frame L_Write L_Use L_Lookup P_Iter P_Write.
Local Open Scope N_scope.

(* The loop gives at most one answer ... *)
Theorem C99_one_answer : forall c h s o1 o2, looks_up c h s o1 -> looks_up c h s o2 -> o1 = o2.
Proof. exact look_fun. Qed.
Print Assumptions C99_one_answer.

(* ... and where going through the table does not panic, it is the first structure with that
   handle of those that could be decoded. *)
Theorem C99_first : forall c h s items s', drains (next c) s items s' ->
  looks_up c h s (find (fun x => shown_handle x =? h) (well_formed_only items)).
Proof. exact look_list. Qed.
Print Assumptions C99_first.

(* It stops there: what follows, be it panics, has no influence. *)
Theorem C99_stops : forall c h s l s1 x s2, reaches (next c) s l s1 -> nobody h (well_formed_only l) ->
  next c s1 = Val (Some (Ok x), s2) -> shown_handle x = h -> looks_up c h s (Some x).
Proof. exact look_first. Qed.
Print Assumptions C99_stops.

(* What is found in whatever bytes is a structure of the table, read from its own bytes, and
   from version 2.2 on with that handle in its header. *)
Theorem C99_from_the_table : forall c h s x, sane s -> looks_up c h s (Some x) ->
  exists pos r, idx s <= pos /\ framed (smbios_version s) (buffer s) pos r /\ dispatch c r = Val (Ok x) /\
    (from_version (smbios_version s) 2 2 -> handle r = h).
Proof. exact look_table. Qed.
Print Assumptions C99_from_the_table.

(* In a table written for values with handles of their own, every value is found by its handle,
   and other handles are not found: references between the values can be followed. *)
Theorem C99_written : forall c e rest ss ws h,
  lays_out_table (ep_to_version e) rest ss ws -> Forall written_ok ws -> ends_last (ep_to_version e) ws ->
  ep_smbios_len e = len (table (map encoded ws)) -> all_bytes rest -> len (table (map encoded ws) ++ rest) + 260 <= 2 ^ 32 ->
  NoDup (map shown_handle ss) ->
  (forall x, looks_up c h (structures e (table (map encoded ws) ++ rest)) (Some x) <-> In x ss /\ shown_handle x = h) /\
  (looks_up c h (structures e (table (map encoded ws) ++ rest)) None <-> nobody h ss).
Proof.
  intros c e rest ss ws h L F E HL HB HS D.
  destruct (table_read_back c e rest ss ws L F E HL HB HS) as (s' & R & _).
  pose proof (look_list c h _ _ _ R) as K. rewrite well_formed_all in K. split; [intros x|]; split.
  - intros X. pose proof (look_fun _ _ _ _ _ X K) as Q. symmetry in Q. apply find_some in Q as [I Q]. apply N.eqb_eq in Q. auto.
  - intros [I Q]. rewrite (find_nodup h ss x D I Q) in K. exact K.
  - intros X x I Q. pose proof (look_fun _ _ _ _ _ X K) as Z. rewrite (find_nodup h ss x D I Q) in Z. discriminate.
  - intros N. apply (look_none c h _ _ _ R). rewrite well_formed_all. exact N.
Qed.
Print Assumptions C99_written.

(* ------------------------------------------------------------------ examples *)

(* a mapped address range that refers to the memory array behind it *)
Definition ex_v22 (n : N) : EntryPoint := V2 {|
  v2_signature := 0; v2_checksum := 0; v2_len := 31; v2_major := 2; v2_minor := 2; v2_struct_max := 0;
  v2_revision := 0; v2_formatted := []; v2_dmi_signature := []; v2_dmi_checksum := 0;
  v2_smbios_len := n; v2_smbios_address := 0; v2_smbios_count := 0; v2_bcd_revision := 0 |}.
Definition ex_mapped : written := {| w_type := 19; w_handle := 5; w_items := [U32 0; U32 1023; U16 4096; U8 1]; w_more := [] |}.
Definition ex_array : written := {| w_type := 16; w_handle := 4096; w_items := [U8 3; U8 3; U8 6; U32 1024; U16 65534; U16 2]; w_more := [] |}.

Example C99_example : let s := structures (ex_v22 34) (table (map encoded [ex_mapped; ex_array]) ++ [1]) in
  exists a m, looks_up ex_cfg 5 s (Some (SMemoryArrayMappedAddress a)) /\
    looks_up ex_cfg (ama_memory_array_handle a) s (Some (SPhysicalMemoryArray m)) /\ array_number_of_memory_devices m = 2 /\
    looks_up ex_cfg 6 s None.
Proof.
  intros s. eexists _, _. split; [|split; [|split]].
  - eapply look_found; vm_compute; reflexivity.
  - eapply look_other; [vm_compute; reflexivity|vm_compute; discriminate|]. eapply look_found; vm_compute; reflexivity.
  - vm_compute. reflexivity.
  - eapply look_other; [vm_compute; reflexivity|vm_compute; discriminate|].
    eapply look_other; [vm_compute; reflexivity|vm_compute; discriminate|]. eapply look_end. vm_compute. reflexivity.
Qed.
Example C99_written_example : exists ss,
  lays_out_table (ep_to_version (ex_v22 34)) [1] ss [ex_mapped; ex_array] /\ Forall written_ok [ex_mapped; ex_array] /\
  ends_last (ep_to_version (ex_v22 34)) [ex_mapped; ex_array] /\
  ep_smbios_len (ex_v22 34) = len (table (map encoded [ex_mapped; ex_array])) /\ NoDup (map shown_handle ss).
Proof.
  eexists. split; [|split; [|split; [|split]]].
  - apply lays_more; [|apply lays_more; [|apply lays_none]].
    + exact (lays_array_mapped _ _ 0 1023 4096 1 0 0).
    + refine (lays_array _ _ 3 3 6 1024 65534 2 0 _). right. split; [reflexivity|vm_compute; discriminate].
  - repeat (apply Forall_cons; [written|]); apply Forall_nil.
  - intros H. exfalso. apply H. reflexivity.
  - vm_compute. reflexivity.
  - repeat constructor; cbn; intuition discriminate.
Qed.

(* Below version 2.2 memory arrays cannot be found by their handle (C69): the array has handle
   4096 in its header and is found under 0. *)
Definition ex_v21 (n : N) : EntryPoint := V2 {|
  v2_signature := 0; v2_checksum := 0; v2_len := 31; v2_major := 2; v2_minor := 1; v2_struct_max := 0;
  v2_revision := 0; v2_formatted := []; v2_dmi_signature := []; v2_dmi_checksum := 0;
  v2_smbios_len := n; v2_smbios_address := 0; v2_smbios_count := 0; v2_bcd_revision := 0 |}.
Theorem C99_old_arrays_refuted : exists c s r, sane s /\ framed (smbios_version s) (buffer s) 0 r /\ handle r = 4096 /\
  looks_up c 4096 s None /\ exists x, looks_up c 0 s (Some x).
Proof.
  exists ex_cfg, (structures (ex_v21 17) (table (map encoded [ex_array]))).
  exists (raw_of (ep_to_version (ex_v21 17)) (encoded ex_array) []). split; [|split; [|split; [reflexivity|split]]].
  - split; [apply all_bytes_dec; vm_compute; reflexivity|]. split; vm_compute; discriminate.
  - refine (framed_encode (ep_to_version (ex_v21 17)) [] (encoded ex_array) [] _). apply encoded_ok. written.
  - eapply look_other; [vm_compute; reflexivity|vm_compute; discriminate|]. eapply look_end. vm_compute. reflexivity.
  - eexists. eapply look_found; vm_compute; reflexivity.
Qed.
Print Assumptions C99_old_arrays_refuted.
