(* C105: fields that hold a list of stated length, or lie behind one. *)
From Coq Require Import String ZArith Lia ZifyBool ZifyNat ZifyN.
From Verif Require Import Base G_Enums M_Raw M_Iter Spec S_Iter S_Decode S_ShowFields S_Places S_Deciding S_Counted.
From Verif Require Import L_Base L_Places L_PlacesUse L_Counted P_System.
Local Open Scope N_scope.

(* Of two decoded structures that differ at the offsets D only, such a field is the same if
   neither the bytes that state the length of the list nor the bytes of the field are touched. *)
Theorem C105_local : forall c r d D x y name cs p v v', differ_at D (data r) d -> all_bytes (data r) -> all_bytes d ->
  dispatch c r = Val (Ok x) -> dispatch c (with_data d r) = Val (Ok y) ->
  In (name, cs, p) (counted (info r) (data r)) -> untouched D [cs; p] ->
  field_of c x name v -> field_of c y name v' -> v = v'.
Proof. exact counted_local. Qed.
Print Assumptions C105_local.

(* The same for a structure in a table: where it lies behind pre, has the type ty and the
   bytes d behind its header, and those are replaced by d'. *)
Theorem C105_in_tables : forall c v n pre ty h0 h1 d d' rest D x y s t,
  let table e := (pre ++ [ty; 4 + len d; h0; h1] ++ e ++ rest)%list in
  let from e := {| smbios_version := v; smbios_len_ := n; idx := len pre; buffer := table e |} in
  all_bytes (table d) -> all_bytes (table d') -> len (table d) + 260 <= 2 ^ 32 -> differ_at D d d' ->
  next c (from d) = Val (Some (Ok x), s) -> next c (from d') = Val (Some (Ok y), t) ->
  forall name cs p a b, In (name, cs, p) (counted (InfoType_from ty) d) -> untouched D [cs; p] ->
    field_of c x name a -> field_of c y name b -> a = b.
Proof. exact counted_in_tables. Qed.
Print Assumptions C105_in_tables.

(* Every byte of such a field shows: any other value of it, and of no other byte, still gives
   a structure that is decoded, with another value of the field.  (Not of the SKU number: a
   number of a string can be without a string, or the string the same.) *)
Theorem C105_shows : forall c r d k x name cs p, differ_at (eq k) (data r) d -> all_bytes (data r) -> all_bytes d -> d <> data r ->
  dispatch c r = Val (Ok x) -> In (name, cs, p) (counted (info r) (data r)) -> name <> "sku_number"%string ->
  inside (data r) p -> in_place k p ->
  exists y v v', dispatch c (with_data d r) = Val (Ok y) /\ field_of c x name v /\ field_of c y name v' /\ v <> v'.
Proof. exact counted_shows. Qed.
Print Assumptions C105_shows.

(* The bytes behind the last field, and the one between the peer groups of a slot and the slot
   information, change nothing. *)
Theorem C105_unused : forall c r d x, differ_at (unused (info r) (data r)) (data r) d -> all_bytes (data r) -> all_bytes d ->
  dispatch c r = Val (Ok x) ->
  exists y, dispatch c (with_data d r) = Val (Ok y) /\ forall name v v', field_of c x name v -> field_of c y name v' -> v = v'.
Proof. exact unused_same. Qed.
Print Assumptions C105_unused.

(* "The slot information is the byte behind the peer groups", as in the SMBIOS specification,
   is false: that byte is one of those that change nothing. *)
Theorem C105_slot_information_refuted : exists r x, info r = InfoType_SystemSlots /\ dispatch ex_strict r = Val (Ok x) /\
  unused (info r) (data r) (0x13 + 5 * offset_byte 0x12 (data r)) /\
  offset_byte (0x13 + 5 * offset_byte 0x12 (data r)) (data r) = 4 /\
  field_of ex_strict x "slot_information" (As_option (Some (As_number 9))).
Proof.
  exists (ex_struct 3 4 InfoType_SystemSlots ([1; 0xA5; 0x0D; 3; 4; 1; 0; 0x0C; 1; 0; 0; 0; 8; 16; 1] ++ [0; 0; 2; 8; 8] ++ [4; 9; 5; 6; 7]) []).
  eexists. split; [reflexivity|]. split; [vm_compute; reflexivity|]. split; [left; reflexivity|]. split; [reflexivity|].
  apply assoc_field. vm_compute. reflexivity.
Qed.
Print Assumptions C105_slot_information_refuted.

(* A slot with two peer groups, of which one byte changes: the list differs, the three fields
   behind it do not. *)
Example C105_example :
  let l := [1; 0xA5; 0x0D; 3; 4; 1; 0; 0x0C; 1; 0; 0; 0; 8; 16; 2] in
  let tail := [0; 4; 9; 5; 6] in
  let r := ex_struct 3 4 InfoType_SystemSlots (l ++ [0; 0; 2; 8; 8; 0; 0; 3; 16; 4] ++ tail) [] in
  let d := (l ++ [0; 0; 2; 8; 8; 0; 0; 3; 24; 4] ++ tail)%list in
  differ_at (eq 0x1B) (data r) d /\ all_bytes (data r) /\ all_bytes d /\ d <> data r /\
  In ("peer_devices"%string, Bytes 0x12 1, Bytes 0x13 10) (counted (info r) (data r)) /\
  inside (data r) (Bytes 0x13 10) /\ in_place 0x1B (Bytes 0x13 10) /\
  In ("slot_pitch"%string, Bytes 0x12 1, Bytes 0x20 2) (counted (info r) (data r)) /\ untouched (eq 0x1B) [Bytes 0x12 1; Bytes 0x20 2] /\
  exists x y, dispatch ex_strict r = Val (Ok x) /\ dispatch ex_strict (with_data d r) = Val (Ok y) /\ x <> y /\
    field_of ex_strict x "slot_pitch" (As_option (Some (As_tuple "SlotPitch" [As_number 0x0605]))) /\
    field_of ex_strict y "slot_pitch" (As_option (Some (As_tuple "SlotPitch" [As_number 0x0605]))).
Proof.
  split; [exact (replaced_differs 0x1B 24 ([1; 0xA5; 0x0D; 3; 4; 1; 0; 0x0C; 1; 0; 0; 0; 8; 16; 2] ++ [0; 0; 2; 8; 8; 0; 0; 3; 16; 4] ++ [0; 4; 9; 5; 6]) ltac:(lia) ltac:(vm_compute; reflexivity))|].
  split; [apply all_bytes_dec; vm_compute; reflexivity|]. split; [apply all_bytes_dec; vm_compute; reflexivity|].
  split; [discriminate|]. split; [vm_compute; tauto|]. split; [vm_compute; discriminate|]. split; [cbn; lia|].
  split; [vm_compute; tauto|].
  split; [intros q k HI HK <-; cbn in HI; destruct HI as [<-|[<-|[]]]; cbn in HK; lia|].
  do 2 eexists. split; [vm_compute; reflexivity|]. split; [vm_compute; reflexivity|]. split; [discriminate|].
  split; apply assoc_field; vm_compute; reflexivity.
Qed.
(* an enclosure with two contained elements of three bytes: the byte of the SKU number lies at
   1Bh, and a byte more behind it is not used *)
Example C105_unused_example :
  let l := [1; 2; 1; 2; 3; 3; 3; 3; 3; 0; 0; 0; 0; 1; 1; 2; 3; 10; 1; 2; 11; 1; 2; 2] in
  let r := ex_struct 3 1 InfoType_Enclosure (l ++ [5]) [] in
  let d := (l ++ [6])%list in
  In ("sku_number"%string, Bytes 0x13 2, Bytes 0x1B 1) (counted (info r) (data r)) /\
  differ_at (unused (info r) (data r)) (data r) d /\ all_bytes (data r) /\ all_bytes d /\ d <> data r /\
  exists x, dispatch ex_strict r = Val (Ok x) /\ field_of ex_strict x "sku_number" (As_option (Some (As_text [66; 67]))).
Proof.
  split; [vm_compute; tauto|].
  split.
  { split; [reflexivity|]. intros k HK. do 24 (destruct k as [|k]; [reflexivity|]).
    destruct k as [|k]; [exfalso; apply HK; vm_compute; reflexivity|]. destruct k; reflexivity. }
  split; [apply all_bytes_dec; vm_compute; reflexivity|]. split; [apply all_bytes_dec; vm_compute; reflexivity|]. split; [discriminate|].
  eexists. split; [vm_compute; reflexivity|]. apply assoc_field. vm_compute. reflexivity.
Qed.
(* a log with three descriptors in a table *)
Example C105_tables_example :
  let pre := [127; 4; 0; 0; 0; 0] in
  let d l := ([0x10; 0; 0; 0; 0x10; 0; 4; 1; 1; 0; 0; 0; 0; 0; 0; 0; 1; 3; 2] ++ l)%list in
  let table e := (pre ++ [15; 29; 7; 0] ++ e ++ [0; 0])%list in
  let from e := {| smbios_version := {| major := 2; minor := 8 |}; smbios_len_ := 37; idx := len pre; buffer := table e |} in
  let a := d [1; 0; 2; 1; 8; 3] in let b := d [1; 0; 2; 1; 8; 4] in
  all_bytes (table a) /\ all_bytes (table b) /\ 29 = 4 + len a /\ differ_at (eq 0x1C) a b /\
  In ("supported_event_log_type_descriptors"%string, Bytes 0x15 2, Bytes 0x17 6) (counted (InfoType_from 15) a) /\
  exists x y s t, next ex_strict (from a) = Val (Some (Ok x), s) /\ next ex_strict (from b) = Val (Some (Ok y), t) /\ x <> y.
Proof.
  split; [apply all_bytes_dec; vm_compute; reflexivity|]. split; [apply all_bytes_dec; vm_compute; reflexivity|]. split; [reflexivity|].
  split; [exact (replaced_differs 0x1C 4 ([0x10; 0; 0; 0; 0x10; 0; 4; 1; 1; 0; 0; 0; 0; 0; 0; 0; 1; 3; 2] ++ [1; 0; 2; 1; 8; 3]) ltac:(lia) ltac:(vm_compute; reflexivity))|].
  split; [vm_compute; tauto|].
  do 4 eexists. split; [vm_compute; reflexivity|]. split; [vm_compute; reflexivity|discriminate].
Qed.
