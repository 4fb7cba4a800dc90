(* Property C68: the public conversions from byte slices, and the element counter.
   Vocabulary: Spec.v, S_System.v (element_means), S_Hardware.v (device_means). *)
From Coq Require Import String.
From Verif Require Import Base G_Enums M_Raw M_Enclosure M_SystemSlots M_Accessors.
From Verif Require Import Spec S_Enums S_Decode S_System S_Hardware L_Slices P_System P_Lazy.
Local Open Scope N_scope.

(* ContainedElements::count is the number the structure announces; it does not go down
   while the elements are taken; it is the number of elements exactly if the records
   have a length and fit into 255 bytes together (or there are none). *)
Theorem C68_count_exact : forall c r s e l s',
  all_bytes (data r) -> 5 <= len (data r) -> Enclosure_fits c r ->
  Enclosure_try_from c r = Val (Ok s) -> enclosure_contained_elements s = Some e ->
  drains (ContainedElements_next c) e l s' ->
  field_is r 0x13 1 (ContainedElements_count e) /\
  (ContainedElements_count e = len l <->
   ContainedElements_count e = 0 \/ exists m, field_is r 0x14 1 m /\ 0 < m /\ ContainedElements_count e * m < 256).
Proof. exact count_exact. Qed.
Print Assumptions C68_count_exact.
Theorem C68_count_stays : forall c e o e',
  ContainedElements_next c e = Val (o, e') -> ContainedElements_count e' = ContainedElements_count e.
Proof. exact count_stays. Qed.
Print Assumptions C68_count_stays.

(* The count can be wrong: five records of no length, and, in builds that wrap, sixteen
   records of sixteen bytes. *)
Definition ex_elements (count length : N) : RawStructure := ex_struct 2 7 InfoType_Enclosure
  [1; 3; 2; 3; 0; 3; 3; 2; 3; 0; 0; 0; 0; 4; 2; count; length] [].
Theorem C68_count_refuted :
  (forall c, exists s e, Enclosure_try_from c (ex_elements 5 0) = Val (Ok s) /\ enclosure_contained_elements s = Some e /\
    ContainedElements_count e = 5 /\ drains (ContainedElements_next c) e [] e) /\
  (forall c, overflow_checks c = false ->
    exists s e, Enclosure_try_from c (ex_elements 16 16) = Val (Ok s) /\ enclosure_contained_elements s = Some e /\
    ContainedElements_count e = 16 /\ drains (ContainedElements_next c) e [] e).
Proof.
  split.
  - intros [o f]. do 2 eexists. split; [reflexivity|]. split; [reflexivity|]. split; [reflexivity|]. apply drains_nil. reflexivity.
  - intros [o f] H. cbn in H. subst o. do 2 eexists. split; [reflexivity|]. split; [reflexivity|]. split; [reflexivity|].
    apply drains_nil. reflexivity.
Qed.
Print Assumptions C68_count_refuted.
Example C68_count_example : exists s e e', Enclosure_try_from ex_strict ex_enclosure = Val (Ok s) /\
  enclosure_contained_elements s = Some e /\ ContainedElements_count e = 2 /\
  (exists l, drains (ContainedElements_next ex_strict) e l e' /\ len l = 2).
Proof.
  do 3 eexists. split; [reflexivity|]. split; [reflexivity|]. split; [reflexivity|].
  eexists. split; [|shelve]. eapply drains_cons; [reflexivity|]. eapply drains_cons; [reflexivity|]. apply drains_nil. reflexivity.
  Unshelve. reflexivity.
Qed.

(* Device::from takes any slice, and reads five bytes of it: with fewer it reads memory
   that is not in the slice, with more it ignores the rest. *)
Theorem C68_device_overread_exactly : forall p, Device_from p = UB <-> len p < 5.
Proof. exact device_ub. Qed.
Print Assumptions C68_device_overread_exactly.
Theorem C68_device : forall p, 5 <= len p -> exists d, Device_from p = Val d /\ device_means (take 5 p) d.
Proof. exact device_val. Qed.
Print Assumptions C68_device.
Example C68_device_example :
  Device_from [1; 2; 3; 0xFF; 4; 9] = Val {| device_segment_group_number := 0x201; device_bus_number := 3;
    device_device_and_function_number := {| dev := 31; fun_ := 7 |}; device_data_bus_width := 4 |} /\
  Device_from [1; 2; 3; 4] = UB.
Proof. split; reflexivity. Qed.

(* PeerDevices::from takes any slice: its iterator ends if the length is a multiple of
   five, and otherwise reads past the slice after the whole groups. *)
Theorem C68_peers : forall p, exists l e, runs PeerDevices_next (PeerDevices_from p) l e /\ len l = len p / 5 /\
  ((exists s', e = Exhausted s') <-> len p mod 5 = 0) /\ e <> Panicked.
Proof. intros p. exact (C67_peers_count (PeerDevices_from p)). Qed.
Print Assumptions C68_peers.

(* ContainedElement::from takes any slice, and reads three bytes of it; [aft] is the
   memory after the slice. *)
Theorem C68_element_overread_exactly : forall c d aft, ContainedElement_from c d aft = UB <->
  len d < 3 /\ (flat_memory c = false \/ len (d ++ aft) < 3).
Proof. exact element_ub. Qed.
Print Assumptions C68_element_overread_exactly.
Theorem C68_element : forall c d aft, all_bytes d -> 3 <= len d ->
  exists x, ContainedElement_from c d aft = Val x /\ element_means d x.
Proof. exact element_val. Qed.
Print Assumptions C68_element.
Example C68_element_example :
  ContainedElement_from ex_strict [0x91; 1; 2; 3] [] =
    Val {| cel_type := CE_InfoType InfoType_MemoryDevice; cel_minimum := 1; cel_maximum := 2 |} /\
  ContainedElement_from ex_strict [0x91; 1] [2; 3] = UB.
Proof. split; reflexivity. Qed.
