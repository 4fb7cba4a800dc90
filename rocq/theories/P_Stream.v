(* Property C95: the bytes that a hasher receives for a value.
   Vocabulary: M_Stream.v (stream: the bytes of the calls to a hasher, on a machine with 32 or
   64 bits, in either byte order), S_Stream.v (prefix_free, solid, has_records), S_Show.v
   (well_typed), S_Iter.v (sane). *)
From Coq Require Import String.
From Coq Require Import ZArith Lia ZifyBool ZifyNat ZifyN.
From Verif Require Import Base G_Enums M_Raw M_Entry M_Enclosure M_SystemSlots M_GroupAssociations M_SystemEventLog M_Iter M_Hash M_Eq M_Stream G_Eq
  Spec S_Iter S_Hash S_Show S_Stream L_Base L_Same L_Stream L_GStream L_StreamRead L_StreamAll P_Iter P_Show.
Local Open Scope N_scope.

(* Two structures that iterators yield feed the same bytes exactly when they are equal. *)
Theorem C95_told_apart : forall c big s x s' t y t', sane s -> sane t ->
  well_typed SmbiosVersion_parts (smbios_version s) -> well_typed SmbiosVersion_parts (smbios_version t) ->
  next c s = Val (Some (Ok x), s') -> next c t = Val (Some (Ok y), t') ->
  (Structure_stream c big x = Structure_stream c big y <-> Structure_eq x y = true).
Proof.
  intros c big s x s' t y t' HS HT VS VT HX HY. exact (structures_told _ _ _ _ (next_solid _ _ _ _ HS VS HX) (next_solid _ _ _ _ HT VT HY)).
Qed.
Print Assumptions C95_told_apart.
(* This holds for any two structures whose numbers are in range and whose lists hold whole
   records, and those of a table are such. *)
Theorem C95_any_structures : forall c big x y, solid Structure_parts x -> solid Structure_parts y ->
  (Structure_stream c big x = Structure_stream c big y <-> Structure_eq x y = true).
Proof. exact structures_told. Qed.
Print Assumptions C95_any_structures.
Theorem C95_decoded_solid : forall c s x s', sane s -> well_typed SmbiosVersion_parts (smbios_version s) ->
  next c s = Val (Some (Ok x), s') -> solid Structure_parts x.
Proof. exact next_solid. Qed.
Print Assumptions C95_decoded_solid.

(* Apart from enclosures that list contained elements and event logs that list descriptors,
   the bytes of a structure do not even begin with those of another one: also sequences of
   structures, or structures with something after them, can be told apart. *)
Theorem C95_prefix_free : forall c big,
  prefix_free (fun x => solid Structure_parts x /\ ~ has_records x) Structure_eq (Structure_stream c big).
Proof. exact structures_free. Qed.
Print Assumptions C95_prefix_free.
(* The other values that a caller can hold. *)
Theorem C95_other_values : forall c big,
  prefix_free (solid EntryPoint_parts) EntryPoint_eq (fun x => stream c big (EntryPoint_hash x)) /\
  prefix_free (solid Structures_parts) Structures_eq (fun x => stream c big (Structures_hash x)) /\
  prefix_free (solid SmbiosVersion_parts) SmbiosVersion_eq (fun x => stream c big (SmbiosVersion_hash x)) /\
  prefix_free (solid InfoType_parts) InfoType_eq (fun x => stream c big (InfoType_hash x)) /\
  prefix_free (solid StructureStrings_parts) StructureStrings_eq (fun x => stream c big (StructureStrings_hash x)) /\
  prefix_free (solid ContainedElement_parts) ContainedElement_eq (fun x => stream c big (ContainedElement_hash x)) /\
  prefix_free (solid Device_parts) Device_eq (fun x => stream c big (Device_hash x)) /\
  prefix_free (solid GroupItem_parts) GroupItem_eq (fun x => stream c big (GroupItem_hash x)) /\
  prefix_free (solid EventLogTypeDescriptor_parts) EventLogTypeDescriptor_eq (fun x => stream c big (EventLogTypeDescriptor_hash x)) /\
  prefix_free (solid RawStructure_parts) RawStructure_eq (fun x => stream c big (RawStructure_hash x)).
Proof.
  intros c big. split; [|split; [|split; [|split; [|split; [|split; [|split; [|split; [|split]]]]]]]].
  - apply plain_free; [apply EntryPoint_coh|exact entry_plain].
  - apply plain_free; [apply Structures_coh|exact table_plain].
  - apply plain_free; [apply SmbiosVersion_coh|intros x; apply small_plain, SmbiosVersion_small].
  - apply plain_free; [apply InfoType_coh|intros x; apply small_plain, InfoType_small].
  - apply plain_free; [apply StructureStrings_coh|exact strings_plain].
  - apply plain_free; [apply ContainedElement_coh|intros x; apply small_plain, ContainedElement_small].
  - apply plain_free; [apply Device_coh|intros x; apply small_plain, Device_small].
  - apply plain_free; [apply GroupItem_coh|intros x; apply small_plain, GroupItem_small].
  - apply plain_free; [apply EventLogTypeDescriptor_coh|intros x; apply small_plain, EventLogTypeDescriptor_small].
  - apply plain_free; [apply RawStructure_coh|exact raw_plain].
Qed.
Print Assumptions C95_other_values.

(* The contract of `Hash` asks for the same of all values, but the lists of records do not
   write how many there are.  An event log with one descriptor begins the bytes of one with
   two. *)
Definition ex_log_with (number : N) (l : list N) : list N :=
  [15; 23 + len l; 7; 0; 0; 16; 0; 0; 16; 0; 4; 1; 9; 0; 0; 0; 0; 0; 0; 0; 0; number; 2] ++ l ++ [0; 0].
Theorem C95_event_log_refuted : exists x y s t l,
  next ex_cfg (ex_from (ex_log_with 1 [1; 2])) = Val (Some (Ok x), s) /\
  next ex_cfg (ex_from (ex_log_with 2 [1; 2; 8; 4])) = Val (Some (Ok y), t) /\
  Structure_stream ex_cfg false y = Structure_stream ex_cfg false x ++ l /\ Structure_eq x y = false.
Proof.
  do 5 eexists. split; [vm_compute; reflexivity|]. split; [vm_compute; reflexivity|].
  split; [vm_compute; match goal with |- _ = ?b => idtac end|vm_compute; reflexivity].
  instantiate (1 := [2; 0; 0; 0; 0; 0; 0; 0; 8; 4]). reflexivity.
Qed.
Print Assumptions C95_event_log_refuted.
(* The bytes of an enclosure with three records of no bytes begin those of one with a record
   of three bytes. *)
Definition ex_chassis (number size : N) (l : list N) : list N :=
  [3; 21 + len l; 7; 0; 0; 1; 0; 0; 0; 3; 3; 3; 3; 0; 0; 0; 0; 1; 2; number; size] ++ l ++ [0; 0].
Theorem C95_enclosure_refuted : exists x y s t l,
  next ex_cfg (ex_from (ex_chassis 3 0 [])) = Val (Some (Ok x), s) /\
  next ex_cfg (ex_from (ex_chassis 1 3 [0; 0; 5])) = Val (Some (Ok y), t) /\
  Structure_stream ex_cfg false y = Structure_stream ex_cfg false x ++ l /\ Structure_eq x y = false.
Proof.
  do 5 eexists. split; [vm_compute; reflexivity|]. split; [vm_compute; reflexivity|].
  split; [vm_compute; match goal with |- _ = ?b => idtac end|vm_compute; reflexivity].
  instantiate (1 := [5; 1; 3; 0; 0; 0; 0; 0; 0; 0; 0]). reflexivity.
Qed.
Print Assumptions C95_enclosure_refuted.
(* Two pairs of lists of peer devices that make the very same calls to every hasher. *)
Theorem C95_pairs_of_lists_refuted : exists a b a' b',
  Forall (fun p => all_bytes (peer_chunks p) /\ len (peer_chunks p) mod 5 = 0) [a; b; a'; b'] /\
  PeerDevices_hash a ++ PeerDevices_hash b = PeerDevices_hash a' ++ PeerDevices_hash b' /\
  PeerDevices_eq a a' = false /\ PeerDevices_eq b b' = false.
Proof.
  exists {| peer_chunks := [1; 0; 6; 0x10; 8] |}, {| peer_chunks := [2; 0; 7; 0x11; 4] |},
    {| peer_chunks := [1; 0; 6; 0x10; 8; 2; 0; 7; 0x11; 4] |}, {| peer_chunks := [] |}.
  split; [|repeat split; reflexivity].
  repeat constructor; try reflexivity; apply all_bytes_dec; reflexivity.
Qed.
Print Assumptions C95_pairs_of_lists_refuted.

(* two port connectors whose texts are cut differently: as bytes they differ only by the mark
   after each text *)
Definition ex_names (a b : list N) : list N := [8; 9; 42; 0; 1; 0; 2; 31; 255] ++ a ++ [0] ++ b ++ [0; 0].
Example C95_example : exists x y s t,
  sane (ex_from (ex_names [65] [66; 67])) /\ sane (ex_from (ex_names [65; 66] [67])) /\
  well_typed SmbiosVersion_parts (smbios_version (ex_from [])) /\
  next ex_cfg (ex_from (ex_names [65] [66; 67])) = Val (Some (Ok x), s) /\
  next ex_cfg (ex_from (ex_names [65; 66] [67])) = Val (Some (Ok y), t) /\ ~ has_records x /\ ~ has_records y /\
  Structure_stream ex_cfg false x =
    [6; 0; 0; 0; 0; 0; 0; 0; 42; 0; 65; 255; 0; 0; 0; 0; 0; 0; 0; 0; 66; 67; 255; 31; 0; 0; 0; 0; 0; 0; 0; 38; 0; 0; 0; 0; 0; 0; 0] /\
  Structure_stream {| overflow_checks := true; flat_memory := false; pointer_width := W32 |} true y =
    [0; 0; 0; 6; 0; 42; 65; 66; 255; 0; 0; 0; 0; 67; 255; 0; 0; 0; 31; 0; 0; 0; 38].
Proof.
  do 4 eexists. split; [split; [apply all_bytes_dec; vm_compute; reflexivity|split; vm_compute; discriminate]|].
  split; [split; [apply all_bytes_dec; vm_compute; reflexivity|split; vm_compute; discriminate]|].
  split; [repeat constructor; vm_compute; reflexivity|]. split; [vm_compute; reflexivity|]. split; [vm_compute; reflexivity|].
  split; [intros []|]. split; [intros []|]. split; vm_compute; reflexivity.
Qed.
