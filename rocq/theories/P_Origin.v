(* Property C69: handles and texts come from the structure itself. *)
From Coq Require Import ZArith Lia ZifyBool ZifyNat ZifyN.
From Verif Require Import Base G_Enums M_Raw M_Entry M_System M_PhysicalMemoryArray M_Iter Spec S_Decode S_Iter S_Origin
  L_Base L_Strings L_Array L_Iter L_Origin P_System T_Data P_Iter.
Local Open Scope N_scope.

(* Every decoded structure carries the handle of its header, whatever its type. *)
Theorem C69_handles : forall c r s, dispatch c r = Val (Ok s) ->
  (info r = InfoType_PhysicalMemoryArray -> from_version (version r) 2 2) -> shown_handle s = handle r.
Proof. exact dispatch_handle. Qed.
Print Assumptions C69_handles.

(* Without the exception for old memory arrays this is false: they all get handle 0. *)
Theorem C69_handles_refuted : forall c r, info r = InfoType_PhysicalMemoryArray -> before_version (version r) 2 2 ->
  exists s, dispatch c r = Val (Ok s) /\ shown_handle s = 0.
Proof.
  intros c r I V. unfold dispatch. rewrite I. unfold map_ok. rewrite array_default by exact V.
  eexists. split; reflexivity.
Qed.
Print Assumptions C69_handles_refuted.

(* The handle is the little-endian number in bytes 2 and 3 at the iterator's position. *)
Theorem C69_iterator_handles : forall c s x s', sane s -> next c s = Val (Some (Ok x), s') ->
  (forall a, x <> SPhysicalMemoryArray a) \/ from_version (smbios_version s) 2 2 ->
  exists pre kind l h0 h1 post, buffer s = pre ++ [kind; l; h0; h1] ++ post /\ len pre = idx s /\ shown_handle x = h0 + 256 * h1.
Proof. exact next_handle. Qed.
Print Assumptions C69_iterator_handles.

(* Every text in every field is empty or one of the strings of the same structure:
   no text is taken from the formatted part, from what follows, or made up. *)
Theorem C69_texts : forall c r s, dispatch c r = Val (Ok s) ->
  Forall (fun t => t = [] \/ exists k, string_number (strings r) k t) (shown_texts s).
Proof. exact dispatch_texts. Qed.
Print Assumptions C69_texts.

(* The bytes of every text are a contiguous part of the string area. *)
Theorem C69_texts_inside : forall c r s t, dispatch c r = Val (Ok s) -> In t (shown_texts s) ->
  exists pre post, strings r = pre ++ t ++ post.
Proof.
  intros c r s t H HI. apply dispatch_texts in H. rewrite Forall_forall in H. apply own_text_inside, H, HI.
Qed.
Print Assumptions C69_texts_inside.

(* With the iterator: of the structure at the iterator's position. *)
Theorem C69_iterator_texts : forall c s x s' t, sane s -> next c s = Val (Some (Ok x), s') -> In t (shown_texts x) -> t <> [] ->
  exists r k, framed (smbios_version s) (buffer s) (idx s) r /\ string_number (strings r) k t.
Proof. exact next_texts. Qed.
Print Assumptions C69_iterator_texts.

(* The strings that are read lazily are those of the same structure. *)
Theorem C69_strings : forall c r s a, dispatch c r = Val (Ok s) -> shown_strings s = Some a -> a = strings r.
Proof. exact dispatch_strings. Qed.
Print Assumptions C69_strings.

Example C69_example : exists s, dispatch ex_strict (ex_struct 2 7 InfoType_System ex_system_data []) = Val (Ok s) /\
  shown_handle s = 7 /\ shown_texts s = [[65]; [66; 67]; [68]; []; [65]; [66; 67]].
Proof. eexists. split; [reflexivity|]. split; reflexivity. Qed.
Example C69_old_array_example : exists s, dispatch ex_strict (ex_struct 2 1 InfoType_PhysicalMemoryArray [] []) = Val (Ok s) /\
  shown_handle s = 0 /\ before_version {| major := 2; minor := 1 |} 2 2.
Proof. eexists. split; [reflexivity|]. split; [reflexivity|]. right. split; reflexivity. Qed.
Example C69_strings_example : exists s, dispatch ex_strict (ex_struct 2 7 InfoType_OemStrings [2] []) = Val (Ok s) /\
  shown_strings s = Some [65; 0; 66; 67; 0; 68; 0; 0].
Proof. eexists. split; reflexivity. Qed.
(* the second structure of the firmware dump in the tests *)
Example C69_iterator_example : let s := {| smbios_version := {| major := 2; minor := 7 |}; smbios_len_ := 2736; idx := 42; buffer := dmi_bin |} in
  sane s /\ exists x s', next ex_strict s = Val (Some (Ok x), s') /\ shown_handle x = 1 /\
  map (@List.length N) (shown_texts x) = [17; 20; 40; 4; 4; 4]%nat.
Proof.
  split; [split; [apply all_bytes_dec; vm_compute; reflexivity|split; vm_compute; discriminate]|].
  vm_compute. do 2 eexists. split; [reflexivity|]. split; reflexivity.
Qed.
