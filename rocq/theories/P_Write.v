(* Property C70: what a firmware author writes is what a caller gets.  Vocabulary:
   S_Write.v (the layout of every structure type), S_Iter.v (the table format). *)
From Coq Require Import String.
From Coq Require Import ZArith Lia ZifyBool ZifyNat ZifyN.
From Verif Require Import Base G_Enums M_Raw M_Entry M_Iter.
From Verif Require Import Spec S_Enums S_Iter S_Decode S_System S_Hardware S_Lists S_EventLog S_Memory S_Write.
From Verif Require Import L_Base L_Utf8 L_Decode L_Write P_System P_Iter.
Local Open Scope N_scope.

(* One structure of any type: decoding it gives the value it was written for. *)
Theorem C70_structure_read_back : forall c v w rest s, written_ok w ->
  lays_out v (raw_of v (encoded w) rest) s (w_type w) (w_items w) (w_more w) ->
  dispatch c (raw_of v (encoded w) rest) = Val (Ok s).
Proof. exact read_back. Qed.
Print Assumptions C70_structure_read_back.

(* A whole table: iteration gives exactly the values it was written for, in order,
   and then ends, in every build and whatever follows the table in the buffer. *)
Theorem C70_table_read_back : forall c e rest ss ws,
  lays_out_table (ep_to_version e) rest ss ws -> Forall written_ok ws -> ends_last (ep_to_version e) ws ->
  ep_smbios_len e = len (table (map encoded ws)) -> all_bytes rest ->
  len (table (map encoded ws) ++ rest) + 260 <= 2 ^ 32 ->
  exists s', drains (next c) (structures e (table (map encoded ws) ++ rest)) (map Ok ss) s' /\
             next c s' = Val (None, s').
Proof. exact table_read_back. Qed.
Print Assumptions C70_table_read_back.

(* The strings of a structure are the texts of its fields, then the further strings. *)
Theorem C70_strings_read_back : forall v w rest, written_ok w -> exists s',
  drains (lift_next strings_next) (raw_strings (raw_of v (encoded w) rest)) (texts (w_items w) ++ w_more w) s'.
Proof. exact written_strings. Qed.
Print Assumptions C70_strings_read_back.

(* No table can be read as two different lists of values. *)
Theorem C70_unambiguous : forall v rest ss1 ws1 ss2 ws2,
  lays_out_table v rest ss1 ws1 -> Forall written_ok ws1 -> ends_last v ws1 ->
  lays_out_table v rest ss2 ws2 -> Forall written_ok ws2 -> ends_last v ws2 ->
  all_bytes rest -> len (table (map encoded ws1) ++ rest) + 260 <= 2 ^ 32 ->
  table (map encoded ws1) = table (map encoded ws2) -> ss1 = ss2.
Proof. exact unambiguous. Qed.
Print Assumptions C70_unambiguous.

(* ------------------------------------------------------------------ examples *)

Definition ex_32 : SmbiosVersion := {| major := 3; minor := 2 |}.
Definition ab : text := [65; 66].
Definition cd : text := [67; 195; 164].   (* C and an a with dots *)

Ltac side :=
  solve [apply named_bits_iff; reflexivity|discriminate|unfold from_version; cbn; lia|repeat split; reflexivity
        |cbn; lia].
Tactic Notation "add" constr(ty) uconstr(t) :=
  refine (lays_more ex_32 [] _ _ {| w_type := ty; w_handle := 256 + ty; w_items := _; w_more := _ |} _ t _);
  lazymatch goal with |- lays_out_table _ _ _ _ => idtac | |- _ => side end.

Definition ex_conf : M_Cache.CacheConfiguration := {|
  M_Cache.level := CacheLevel_L1; M_Cache.socketed := false; M_Cache.location := CacheLocation_Internal;
  M_Cache.enabled_at_boot_time := true; M_Cache.operational_mode := CacheOperationalMode_WriteBack |}.

Lemma ab_good : good_string ab.
Proof.
  split; [discriminate|]. split; [cbn; lia|]. apply from_utf8_iff. reflexivity.
Qed.
Lemma cd_good : good_string cd.
Proof.
  split; [discriminate|]. split; [cbn; lia|]. apply from_utf8_iff. reflexivity.
Qed.
Ltac item_fits := first
  [right; exact ab_good|right; exact cd_good|left; reflexivity|apply all_bytes_dec; reflexivity|reflexivity].
Ltac written :=
  split; [reflexivity|]; split; [reflexivity|]; cbn [w_items w_more];
  split; [cbn; repeat (apply Forall_cons; [item_fits|]); apply Forall_nil|];
  split; [repeat (apply Forall_cons; [first [exact ab_good|exact cd_good]|]); apply Forall_nil|];
  split; [vm_compute; discriminate|reflexivity].

(* a table of version 3.2 with one structure of every type, and an End structure *)
Example C70_example : exists ss ws,
  lays_out_table ex_32 [] ss ws /\ Forall written_ok ws /\ ends_last ex_32 ws /\
  map w_type ws = [0; 1; 2; 3; 4; 7; 8; 9; 11; 12; 13; 14; 15; 16; 17; 18; 19; 20; 21; 22; 32; 127] /\
  len (table (map encoded ws)) = 712.
Proof.
  do 2 eexists. split.
  - add 0 (lays_bios ex_32 _ ab cd 0xE000 [] 0x0F 0x1234567890 3 1 2 7 255 255 0x4010).
    add 1 (lays_system ex_32 _ ab cd ab [] [1; 2; 3; 4; 5; 6; 7; 8; 9; 10; 11; 12; 13; 14; 15; 255] 6 cd ab eq_refl).
    add 2 (lays_baseboard ex_32 _ ab cd ab [] cd 9 ab 0x0103 0x0A [0x0104; 0x0107] _).
    add 3 (lays_enclosure ex_32 _ ab 0x83 cd [] ab 3 3 3 2 7 4 1 2 3 [0x83; 0; 1; 0x0A; 1; 9] cd eq_refl).
    add 4 (lays_processor ex_32 _ ab 3 0xFE cd 0xBFEBFBFF000906EA ab 0x8B 100 4000 3600 0x41 1 0x0107 0xFFFF 0xFFFF
             ab cd [] 0xFF 4 8 0xFC 0x0118 300 4 8 _ _).
    add 7 (lays_cache ex_32 _ ab 0x0180 ex_conf 0x8040 0x8040 0x20 0x20 0 6 5 7 0x80000040 0x80000040 _ _ _ _).
    add 8 (lays_port ex_32 _ ab 0 cd 0x12 0x10).
    add 9 (lays_slots ex_32 _ ab 0xA5 0x0D 4 4 1 0x0C 1 0 0xFF 0x18 4 2 [0; 0; 1; 0x20; 8; 1; 0; 2; 0x28; 16] 0 3 8 2450 eq_refl).
    add 11 (lays_oem_strings ex_32 _ [ab; cd; ab]).
    add 12 (lays_options ex_32 _ [cd; ab]).
    add 13 (lays_language ex_32 _ 1 [0; 0; 0; 0; 0; 0; 0; 0; 0; 0; 0; 0; 0; 0; 0] 2 [ab; cd] _ eq_refl).
    add 14 (lays_group ex_32 _ ab [4; 4; 1; 7; 7; 1]).
    add 15 (lays_log ex_32 _ 0x1000 0 0x10 3 1 5 0xFF000000 1 2 2 [1; 3; 0x17; 0] eq_refl _).
    add 16 (lays_array ex_32 _ 3 3 6 0x80000000 0xFFFE 4 0x4000000000 _).
    add 17 (lays_device ex_32 _ 0x0110 0xFFFE 72 64 0x4000 9 0 ab cd 0x1A 0x80 2666 ab cd [] ab 2 0 2400 1200 1200 1200
              3 8 cd 0x80CE 0 0 0 0 0x400000000 0 0 0 0 _ _).
    add 18 (lays_error ex_32 _ 3 3 3 0 0x80000000 0x80000000 0x80000000).
    add 19 (lays_array_mapped ex_32 _ 0xFFFFFFFF 0xFFFFFFFF 0x0110 4 0 0x3FFFFFFFF).
    add 20 (lays_device_mapped ex_32 _ 0xFFFFFFFF 0xFFFFFFFF 0x0111 0x0113 255 1 2 0 0x3FFFFFFFF).
    add 21 (lays_pointing ex_32 _ 7 4 2).
    add 22 (lays_battery ex_32 _ ab cd [] [] ab 2 4400 11100 cd 5 0x1234 0x4E8F ab 10 9).
    add 32 (lays_other ex_32 _ 32 [Raw [0; 0; 0; 0; 0; 0]; U8 0] [] _).
    add 127 (lays_other ex_32 _ 127 [] [] _).
    apply lays_none.
  - split; [repeat (apply Forall_cons; [written|]); apply Forall_nil|].
    split.
    { intros _ front w back E N. revert front w back E N. apply (ends_last_dec _ _ eq_refl). reflexivity. }
    split; [reflexivity|]. vm_compute. reflexivity.
Qed.

(* Some of the bytes: a system structure with a UUID, of version 2.8.  The first three
   parts of the UUID are stored the other way round; the empty text has no string. *)
Definition ex_28 : SmbiosVersion := {| major := 2; minor := 8 |}.
Example C70_example_bytes :
  let w := {| w_type := 1; w_handle := 0x0201;
              w_items := [Ref ab; Ref cd; Ref []; Ref ab; Raw (stored_uuid ex_28 [0; 17; 34; 51; 68; 85; 102; 119; 136; 153; 170; 187; 204; 221; 238; 255]);
                          U8 6; Ref []; Ref cd]; w_more := [] |} in
  written_ok w /\
  lays_out ex_28 (raw_of ex_28 (encoded w) []) (SSystem {|
    M_System.system_handle := 0x0201; M_System.system_manufacturer := ab; M_System.system_product := cd;
    M_System.system_version := []; M_System.system_serial := ab;
    M_System.system_uuid := Some [0; 17; 34; 51; 68; 85; 102; 119; 136; 153; 170; 187; 204; 221; 238; 255];
    M_System.system_wakeup := Some WakeupType_Power_Switch;
    M_System.system_sku := Some []; M_System.system_family := Some cd |}) 1 (w_items w) [] /\
  encode (encoded w) = [1; 27; 1; 2; 1; 2; 0; 3; 51; 34; 17; 0; 85; 68; 119; 102; 136; 153; 170; 187; 204; 221; 238; 255; 6; 0; 4;
    65; 66; 0; 67; 195; 164; 0; 65; 66; 0; 67; 195; 164; 0; 0].
Proof.
  cbv zeta. split; [written|]. split; [|vm_compute; reflexivity].
  exact (lays_system ex_28 _ ab cd [] ab [0; 17; 34; 51; 68; 85; 102; 119; 136; 153; 170; 187; 204; 221; 238; 255] 6 [] cd eq_refl).
Qed.
