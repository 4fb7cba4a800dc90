(* Property C59: the hand-written equality and hashing obey the contracts of Eq and
   Hash and agree with what the values yield. *)
From Coq Require Import String.
From Coq Require Import ZArith Lia ZifyBool ZifyNat ZifyN.
From Verif Require Import Base G_Enums M_Raw M_Enclosure M_SystemSlots M_SystemEventLog M_Hash Spec S_Hash L_Base L_Slots L_Hash P_System.
Local Open Scope N_scope.

(* == is an equivalence relation. *)
Theorem C59_equivalence :
  equivalence PeerDevices_eq /\ equivalence EventLogTypeDescriptors_eq /\ equivalence ContainedElements_eq.
Proof. split; [exact peers_equivalence|]. split; [exact descriptors_equivalence|exact elements_equivalence]. Qed.
Print Assumptions C59_equivalence.

(* Equal values hash alike. *)
Theorem C59_hash_agrees :
  hash_agrees PeerDevices_eq PeerDevices_hash /\ hash_agrees EventLogTypeDescriptors_eq EventLogTypeDescriptors_hash /\
  hash_agrees ContainedElements_eq ContainedElements_hash.
Proof. split; [apply peers_hash|]. split; [apply descriptors_hash|apply elements_hash]. Qed.
Print Assumptions C59_hash_agrees.
(* Different values feed different calls to the hasher. *)
Theorem C59_hash_separates :
  hash_separates PeerDevices_eq PeerDevices_hash /\ hash_separates EventLogTypeDescriptors_eq EventLogTypeDescriptors_hash /\
  hash_separates ContainedElements_eq ContainedElements_hash.
Proof. split; [apply peers_hash|]. split; [apply descriptors_hash|apply elements_hash]. Qed.
Print Assumptions C59_hash_separates.

(* Lists of peer devices are equal exactly when they yield the same devices. *)
Theorem C59_peers_equal : forall a b, all_bytes (peer_chunks a) -> all_bytes (peer_chunks b) ->
  len (peer_chunks a) mod 5 = 0 -> len (peer_chunks b) mod 5 = 0 ->
  PeerDevices_eq a b = true <-> yield_the_same PeerDevices_next a b.
Proof. exact peers_eq_yield. Qed.
Print Assumptions C59_peers_equal.

(* Lists of descriptors are equal exactly when their bytes are and are cut alike. *)
Theorem C59_descriptors_equal : forall a b, 0 < descriptors_size a -> 0 < descriptors_size b ->
  EventLogTypeDescriptors_eq a b = true <-> descriptors_data a = descriptors_data b /\
   (descriptors_size a = descriptors_size b \/
    (len (descriptors_data a) <= descriptors_size a /\ len (descriptors_data a) <= descriptors_size b)).
Proof. exact descriptors_eq_data. Qed.
Print Assumptions C59_descriptors_equal.
(* Equal lists of descriptors yield the same descriptors ... *)
Theorem C59_descriptors_yield : forall a b l a', 0 < descriptors_size a -> 0 < descriptors_size b ->
  EventLogTypeDescriptors_eq a b = true -> drains (lift_next EventLogTypeDescriptors_next) a l a' ->
  exists b', drains (lift_next EventLogTypeDescriptors_next) b l b'.
Proof. intros a b l a' Ha Hb H D. exact (descriptors_eq_drains a l a' D b Ha Hb H). Qed.
Print Assumptions C59_descriptors_yield.
(* ... but lists that yield the same may differ: here no descriptor is yielded. *)
Theorem C59_descriptors_converse_refuted : exists a b, descriptors_size a = 3 /\ descriptors_size b = 3 /\
  yield_the_same (lift_next EventLogTypeDescriptors_next) a b /\ EventLogTypeDescriptors_eq a b = false.
Proof.
  exists {| descriptors_data := [1; 2; 3]; descriptors_size := 3 |}, {| descriptors_data := [1; 2; 4]; descriptors_size := 3 |}.
  split; [reflexivity|]. split; [reflexivity|]. split; [|reflexivity].
  exists []. do 2 eexists. split; apply drains_nil; reflexivity.
Qed.
Print Assumptions C59_descriptors_converse_refuted.

(* Lists of contained elements are equal exactly when their bytes, the count and the
   record length are. *)
Theorem C59_elements_equal : forall a b,
  (ce_record_length a = 0 -> ce_chunks a = []) -> (ce_record_length b = 0 -> ce_chunks b = []) ->
  ContainedElements_eq a b = true <->
  ce_chunks a = ce_chunks b /\ ce_count a = ce_count b /\ ce_record_length a = ce_record_length b.
Proof. exact elements_eq_data. Qed.
Print Assumptions C59_elements_equal.
(* Equal lists of whole records of at least three bytes yield the same elements ... *)
Theorem C59_elements_yield : forall c a b l a', ContainedElements_eq a b = true ->
  3 <= ce_record_length a -> len (ce_chunks a) mod ce_record_length a = 0 ->
  drains (ContainedElements_next c) a l a' -> exists b', drains (ContainedElements_next c) b l b'.
Proof. intros c a b l a' H H3 HM D. exact (elements_eq_drains c a l a' D b H H3 HM). Qed.
Print Assumptions C59_elements_yield.
(* ... but with shorter records the elements depend on what follows in memory. *)
Theorem C59_short_elements_refuted : exists c a b i j a' b', ContainedElements_eq a b = true /\
  ContainedElements_next c a = Val (Some i, a') /\ ContainedElements_next c b = Val (Some j, b') /\ i <> j.
Proof.
  exists ex_flat, {| ce_chunks := [1; 2]; ce_after := [3]; ce_count := 1; ce_record_length := 2 |},
    {| ce_chunks := [1; 2]; ce_after := [4]; ce_count := 1; ce_record_length := 2 |}.
  do 4 eexists. split; [reflexivity|]. split; [reflexivity|]. split; [reflexivity|]. discriminate.
Qed.
Print Assumptions C59_short_elements_refuted.

Example C59_example :
  let p := {| peer_chunks := [1; 0; 6; 0x10; 8; 2; 0; 7; 0x11; 4] |} in
  let q := {| peer_chunks := [1; 0; 6; 0x10; 8; 2; 0; 7; 0x12; 4] |} in
  all_bytes (peer_chunks p) /\ len (peer_chunks p) mod 5 = 0 /\ PeerDevices_eq p p = true /\ PeerDevices_eq p q = false /\
  PeerDevices_hash p = [WriteUsize 5; WriteBytes [1; 0; 6; 0x10; 8]; WriteUsize 5; WriteBytes [2; 0; 7; 0x11; 4]] /\
  (* cut in twos or in fours *)
  EventLogTypeDescriptors_eq {| descriptors_data := [1; 2; 3; 4]; descriptors_size := 2 |}
    {| descriptors_data := [1; 2; 3; 4]; descriptors_size := 4 |} = false /\
  EventLogTypeDescriptors_eq {| descriptors_data := [1; 2]; descriptors_size := 2 |}
    {| descriptors_data := [1; 2]; descriptors_size := 4 |} = true /\
  ContainedElements_eq {| ce_chunks := [1; 2; 3]; ce_after := []; ce_count := 1; ce_record_length := 3 |}
    {| ce_chunks := [1; 2; 3]; ce_after := [9]; ce_count := 1; ce_record_length := 3 |} = true.
Proof. cbn zeta. split; [apply all_bytes_dec; reflexivity|]. repeat split; reflexivity. Qed.
