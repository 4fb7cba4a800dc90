(* C103: a changed byte changes only the fields it belongs to. *)
From Coq Require Import String ZArith Lia ZifyBool ZifyNat ZifyN.
From Verif Require Import Base G_Enums M_Raw M_Entry M_Iter Spec S_Iter S_Decode S_ShowFields S_Places L_Base L_Places L_PlacesUse P_System.
Local Open Scope N_scope.

(* Of two structures whose bytes differ at the offsets D only, and that are both decoded,
   every field whose places are untouched has the same value. *)
Theorem C103_local : forall c r d D x y name ps v v', differ_at D (data r) d ->
  dispatch c r = Val (Ok x) -> dispatch c (with_data d r) = Val (Ok y) ->
  In (name, ps) (places (version r) (info r)) -> untouched D ps ->
  field_of c x name v -> field_of c y name v' -> v = v'.
Proof. exact field_local. Qed.
Print Assumptions C103_local.

(* The table of places names all fields of a decoded value, in their order, each once. *)
Theorem C103_complete : forall c r x, dispatch c r = Val (Ok x) ->
  exists fields, fields_of c x fields /\ map fst fields = map fst (places (version r) (info r)).
Proof. exact fields_complete. Qed.
Print Assumptions C103_complete.
Theorem C103_distinct : forall v i, NoDup (map fst (places v i)).
Proof. exact names_distinct. Qed.
Print Assumptions C103_distinct.

(* The same for a structure in a table: where it lies behind pre, has the type ty and the
   bytes d behind its header, and those are replaced by d'.  The iterator goes on at the
   same position, too. *)
Theorem C103_in_tables : forall c v n pre ty h0 h1 d d' rest D x y s t,
  let table e := (pre ++ [ty; 4 + len d; h0; h1] ++ e ++ rest)%list in
  let from e := {| smbios_version := v; smbios_len_ := n; idx := len pre; buffer := table e |} in
  all_bytes (table d) -> all_bytes (table d') -> len (table d) + 260 <= 2 ^ 32 -> differ_at D d d' ->
  next c (from d) = Val (Some (Ok x), s) -> next c (from d') = Val (Some (Ok y), t) ->
  idx t = idx s /\
  forall name ps a b, In (name, ps) (places v (InfoType_from ty)) -> untouched D ps ->
    field_of c x name a -> field_of c y name b -> a = b.
Proof. exact next_local. Qed.
Print Assumptions C103_in_tables.

(* No byte of the table of places can be left out: each can change the field, alone. *)
Theorem C103_needed : forall i name ps from count k,
  In (name, ps) (places {| major := 3; minor := 3 |} i) -> In (Bytes from count) ps -> from <= k -> k < from + count ->
  exists c r d x y v v', info r = i /\ version r = {| major := 3; minor := 3 |} /\ differ_at (eq k) (data r) d /\
    dispatch c r = Val (Ok x) /\ dispatch c (with_data d r) = Val (Ok y) /\
    field_of c x name v /\ field_of c y name v' /\ v <> v'.
Proof. exact bytes_needed. Qed.
Print Assumptions C103_needed.

(* It does not follow that the changed structure is decoded: the byte that numbers a string
   can make the whole structure an error. *)
Theorem C103_decoded_refuted : exists c r d x e, differ_at (eq 0x08) (data r) d /\
  dispatch c r = Val (Ok x) /\ dispatch c (with_data d r) = Val (Err e).
Proof.
  exists ex_strict, (ex_struct 3 1 InfoType_BaseBoard [1; 2; 3; 0; 1; 9; 2; 0x34; 0x12; 0x0A] []), [1; 2; 3; 0; 77; 9; 2; 0x34; 0x12; 0x0A].
  do 2 eexists. split; [|split; vm_compute; reflexivity].
  exact (replaced_differs 0x08 77 [1; 2; 3; 0; 1; 9; 2; 0x34; 0x12; 0x0A] ltac:(lia) ltac:(vm_compute; reflexivity)).
Qed.
Print Assumptions C103_decoded_refuted.

(* ------------------------------------------------------------------ examples *)

(* a base board whose chassis handle changes in both bytes *)
Example C103_example :
  let r := ex_struct 3 1 InfoType_BaseBoard [1; 2; 3; 0; 1; 9; 2; 0x34; 0x12; 0x0A] [] in
  let d := [1; 2; 3; 0; 1; 9; 2; 0x78; 0x56; 0x0A] in
  let D := fun k => k = 0x0B \/ k = 0x0C in
  differ_at D (data r) d /\
  exists x y, dispatch ex_strict r = Val (Ok x) /\ dispatch ex_strict (with_data d r) = Val (Ok y) /\
    field_of ex_strict x "chassis_handle" (As_option (Some (As_number 0x1234))) /\
    field_of ex_strict y "chassis_handle" (As_option (Some (As_number 0x5678))) /\
    In ("location_in_chassis"%string, [Bytes 0x0A 1]) (places (version r) (info r)) /\ untouched D [Bytes 0x0A 1] /\
    field_of ex_strict x "location_in_chassis" (As_option (Some (As_text [66; 67]))) /\
    field_of ex_strict y "location_in_chassis" (As_option (Some (As_text [66; 67]))).
Proof.
  split.
  - split; [reflexivity|]. intros k HK. do 7 (destruct k as [|k]; [reflexivity|]).
    destruct k as [|k]; [exfalso; apply HK; left; reflexivity|]. destruct k as [|k]; [exfalso; apply HK; right; reflexivity|].
    destruct k as [|k]; [reflexivity|]. destruct k; reflexivity.
  - do 2 eexists. split; [vm_compute; reflexivity|]. split; [vm_compute; reflexivity|].
    split; [apply assoc_field; vm_compute; reflexivity|]. split; [apply assoc_field; vm_compute; reflexivity|].
    split; [cbn; tauto|]. split; [intros p k [<-|[]] H1 [->|H2]; cbn in H1; lia|].
    split; apply assoc_field; vm_compute; reflexivity.
Qed.
(* the same in a table with a structure in front of it *)
Example C103_tables_example :
  let pre := [127; 4; 0; 0; 0; 0] in
  let rest := [65; 0; 66; 0; 67; 0; 0] in
  let d := [1; 2; 3; 0; 1; 9; 2; 0x34; 0x12; 0x0A] in
  let d' := [1; 2; 3; 0; 1; 9; 2; 0x34; 0x56; 0x0A] in
  let table e := (pre ++ [2; 4 + len d; 7; 0] ++ e ++ rest)%list in
  let from e := {| smbios_version := {| major := 2; minor := 8 |}; smbios_len_ := 27; idx := len pre; buffer := table e |} in
  all_bytes (table d) /\ all_bytes (table d') /\ len (table d) + 260 <= 2 ^ 32 /\ differ_at (eq 0x0C) d d' /\
  exists x y s t, next ex_strict (from d) = Val (Some (Ok x), s) /\ next ex_strict (from d') = Val (Some (Ok y), t) /\
    field_of ex_strict x "chassis_handle" (As_option (Some (As_number 0x1234))) /\
    field_of ex_strict y "chassis_handle" (As_option (Some (As_number 0x5634))) /\ idx s = 27.
Proof.
  split; [apply all_bytes_dec; vm_compute; reflexivity|]. split; [apply all_bytes_dec; vm_compute; reflexivity|].
  split; [vm_compute; discriminate|].
  split; [exact (replaced_differs 0x0C 0x56 [1; 2; 3; 0; 1; 9; 2; 0x34; 0x12; 0x0A] ltac:(lia) ltac:(vm_compute; reflexivity))|].
  do 4 eexists. split; [vm_compute; reflexivity|]. split; [vm_compute; reflexivity|].
  split; [apply assoc_field; vm_compute; reflexivity|]. split; [apply assoc_field; vm_compute; reflexivity|reflexivity].
Qed.
