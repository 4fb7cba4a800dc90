(* C104: the bytes that decide whether a structure can be decoded. *)
From Coq Require Import String ZArith Lia ZifyBool ZifyNat ZifyN.
From Verif Require Import Base G_Enums M_Raw M_Iter Spec S_Iter S_Decode S_ShowFields S_Reworded S_Places S_Deciding.
From Verif Require Import L_Base L_Places L_PlacesUse L_Deciding L_DecidingUse P_System.
Local Open Scope N_scope.

(* Change any bytes of a structure except the deciding ones: decoding gives a value where it
   gave one, fails with the same error, panics or reads outside as before. *)
Theorem C104_outcome : forall c r d D, differ_at D (data r) d -> all_bytes (data r) -> all_bytes d ->
  untouched D (deciding (version r) (info r) (data r)) ->
  same_outcome (dispatch c r) (dispatch c (with_data d r)).
Proof. exact dispatch_outcome. Qed.
Print Assumptions C104_outcome.

(* So a decoded structure is still decoded, and every field whose places (C103) are untouched
   keeps its value. *)
Theorem C104_decoded : forall c r d D x, differ_at D (data r) d -> all_bytes (data r) -> all_bytes d ->
  untouched D (deciding (version r) (info r) (data r)) -> dispatch c r = Val (Ok x) ->
  exists y, dispatch c (with_data d r) = Val (Ok y) /\
    forall name ps v v', In (name, ps) (places (version r) (info r)) -> untouched D ps ->
      field_of c x name v -> field_of c y name v' -> v = v'.
Proof.
  intros c r d D x HD HB HB' U HX. pose proof (dispatch_outcome c r d D HD HB HB' U) as O. rewrite HX in O. unfold same_outcome in O.
  destruct (dispatch c (with_data d r)) as [[y|e]| |] eqn:HY; cbn in O; try contradiction. exists y. split; [reflexivity|].
  intros name ps v v' HI UP FX FY. exact (field_local c r d D x y name ps v v' HD HX HY HI UP FX FY).
Qed.
Print Assumptions C104_decoded.

(* Types without deciding bytes are decoded or not by their length alone: no contents of
   an OEM string list, a language list, a memory error, a mapped address, a pointing device
   or a structure without a decoder make a difference. *)
Theorem C104_length_alone : forall c r d, deciding (version r) (info r) (data r) = [] -> length d = length (data r) ->
  all_bytes (data r) -> all_bytes d -> same_outcome (dispatch c r) (dispatch c (with_data d r)).
Proof.
  intros c r d HE HL HB HB'. apply (dispatch_outcome c r d (fun _ => True)); try assumption.
  - split; [symmetry; exact HL|]. intros k HK. exfalso. apply HK, I.
  - rewrite HE. intros p k [].
Qed.
Print Assumptions C104_length_alone.

(* In a table: where the structure lies behind pre, has the type ty and the bytes d behind
   its header, and those are replaced by d'. *)
Theorem C104_in_tables : forall c v n pre ty h0 h1 d d' rest D,
  let table e := (pre ++ [ty; 4 + len d; h0; h1] ++ e ++ rest)%list in
  let from e := {| smbios_version := v; smbios_len_ := n; idx := len pre; buffer := table e |} in
  all_bytes (table d) -> all_bytes (table d') -> len (table d) + 260 <= 2 ^ 32 -> differ_at D d d' ->
  untouched D (deciding v (InfoType_from ty) d) ->
  same_step (next c (from d)) (next c (from d')).
Proof. exact next_outcome. Qed.
Print Assumptions C104_in_tables.

(* Each deciding byte decides: for every type and every published version there is a structure
   in which each of its deciding bytes alone can turn the outcome. *)
Theorem C104_each_decides : forall v i, In v published ->
  exists c r, info r = i /\ version r = v /\ all_bytes (data r) /\
    forall p k, In p (deciding v i (data r)) -> in_place k p ->
      exists d, differ_at (eq k) (data r) d /\ all_bytes d /\ ~ same_outcome (dispatch c r) (dispatch c (with_data d r)).
Proof. exact each_turns. Qed.
Print Assumptions C104_each_decides.

(* ------------------------------------------------------------------ examples *)

(* an enclosure with one contained element, whose three bytes all change *)
Example C104_example :
  let l := [1; 2; 1; 2; 3; 3; 3; 3; 3; 0; 0; 0; 0; 1; 1; 1; 3] in
  let r := ex_struct 3 1 InfoType_Enclosure (l ++ [10; 1; 2; 2]) [] in
  let d := (l ++ [11; 3; 4; 2])%list in
  let D := fun k => 0x15 <= k /\ k < 0x18 in
  differ_at D (data r) d /\ all_bytes (data r) /\ all_bytes d /\
  untouched D (deciding (version r) (info r) (data r)) /\ In (Bytes 0x18 1) (deciding (version r) (info r) (data r)) /\
  exists x y, dispatch ex_strict r = Val (Ok x) /\ dispatch ex_strict (with_data d r) = Val (Ok y) /\
    field_of ex_strict x "sku_number" (As_option (Some (As_text [66; 67]))) /\
    field_of ex_strict y "sku_number" (As_option (Some (As_text [66; 67]))).
Proof.
  split.
  - split; [reflexivity|]. intros k HK. do 17 (destruct k as [|k]; [reflexivity|]).
    do 3 (destruct k as [|k]; [exfalso; apply HK; cbn; lia|]). destruct k as [|k]; [reflexivity|]. destruct k; reflexivity.
  - split; [apply all_bytes_dec; vm_compute; reflexivity|]. split; [apply all_bytes_dec; vm_compute; reflexivity|].
    split; [intros p k HI H1 H2; vm_compute in HI; repeat destruct HI as [<-|HI]; cbn [in_place] in H1; [lia|lia|lia|lia|contradiction]|].
    split; [vm_compute; tauto|].
    do 2 eexists. split; [vm_compute; reflexivity|]. split; [vm_compute; reflexivity|].
    split; apply assoc_field; vm_compute; reflexivity.
Qed.
(* the same error before and behind a change, in a table: string 9 is missing *)
Example C104_tables_example :
  let pre := [127; 4; 0; 0; 0; 0] in
  let rest := [65; 0; 66; 0; 67; 0; 0] in
  let d := [1; 2; 3; 9; 1; 9; 2; 0x34; 0x12; 0x0A] in
  let d' := [1; 2; 3; 9; 1; 9; 2; 0x34; 0x56; 0x0A] in
  let table e := (pre ++ [2; 4 + len d; 7; 0] ++ e ++ rest)%list in
  let from e := {| smbios_version := {| major := 2; minor := 8 |}; smbios_len_ := 27; idx := len pre; buffer := table e |} in
  all_bytes (table d) /\ all_bytes (table d') /\ len (table d) + 260 <= 2 ^ 32 /\ differ_at (eq 0x0C) d d' /\
  untouched (eq 0x0C) (deciding {| major := 2; minor := 8 |} (InfoType_from 2) d) /\
  exists s t, next ex_strict (from d) = Val (Some (Err (InvalidStringIndex InfoType_BaseBoard 7 9)), s) /\
    next ex_strict (from d') = Val (Some (Err (InvalidStringIndex InfoType_BaseBoard 7 9)), t) /\ idx s = 27 /\ idx t = 27.
Proof.
  split; [apply all_bytes_dec; vm_compute; reflexivity|]. split; [apply all_bytes_dec; vm_compute; reflexivity|].
  split; [vm_compute; discriminate|].
  split; [exact (replaced_differs 0x0C 0x56 [1; 2; 3; 9; 1; 9; 2; 0x34; 0x12; 0x0A] ltac:(lia) ltac:(vm_compute; reflexivity))|].
  split; [intros p k HI H1 H2; vm_compute in HI; repeat destruct HI as [<-|HI]; cbn [in_place] in H1; [lia|lia|contradiction]|].
  do 2 eexists. split; [vm_compute; reflexivity|]. split; [vm_compute; reflexivity|split; reflexivity].
Qed.
(* a pointing device has no deciding bytes *)
Example C104_length_example :
  let r := ex_struct 3 1 InfoType_BuiltInPointingDevice [3; 4; 2] [] in
  deciding (version r) (info r) (data r) = [] /\
  exists x y, dispatch ex_strict r = Val (Ok x) /\ dispatch ex_strict (with_data [0xFF; 0xFF; 0xFF] r) = Val (Ok y) /\ x <> y.
Proof. split; [reflexivity|]. do 2 eexists. split; [vm_compute; reflexivity|]. split; [vm_compute; reflexivity|discriminate]. Qed.
(* the capacity of a memory array decides whether eight bytes more are needed *)
Example C104_decides_example :
  In {| major := 3; minor := 2 |} published /\
  dispatch ex_strict (ex_struct 3 2 InfoType_PhysicalMemoryArray [1; 1; 1; 0; 0; 0; 0x80; 0; 0; 0; 0] []) = Panic /\
  exists x, dispatch ex_strict (ex_struct 3 2 InfoType_PhysicalMemoryArray [1; 1; 1; 1; 0; 0; 0x80; 0; 0; 0; 0] []) = Val (Ok x).
Proof. split; [cbn; tauto|]. split; [vm_compute; reflexivity|]. eexists. vm_compute. reflexivity. Qed.
