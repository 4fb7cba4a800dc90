(* Property C88: which damage of an entry point is noticed.
   Vocabulary: S_Entry.v (first_anchor, declared_length, describes, differ_only_at),
   S_Damage.v (covered, damaged_inside). *)
From Coq Require Import ZArith Lia ZifyBool ZifyNat ZifyN Permutation.
From Verif Require Import Base G_Enums M_Raw M_Entry T_Data Spec S_Entry S_Damage L_Base L_Entry L_Damage P_Entry.
Local Open Scope N_scope.

(* Any number of bytes of an accepted entry point are changed, but not its anchor string and
   its length byte.  The damage goes unnoticed exactly when the sum stays 0 modulo 256 and the
   major version does not fall below 2; the error says what was found. *)
Theorem C88_noticed : forall (b b' : list N) e o,
  let k := kind_of e in let n := declared_length k (drop o b) in
  search b = Val (Ok e) -> first_anchor b o k -> damaged_inside k n o b b' ->
  (2 <= declared_major k (drop o b') -> total (covered n o b') mod 256 = 0 ->
     exists e', search b' = Val (Ok e') /\ kind_of e' = k /\ describes (drop o b') e') /\
  (2 <= declared_major k (drop o b') -> total (covered n o b') mod 256 <> 0 ->
     search b' = Val (Err (BadChecksum (total (covered n o b') mod 256)))) /\
  (declared_major k (drop o b') < 2 -> search b' = Val (Err (TooOldVersion (declared_major k (drop o b'))))).
Proof. exact damaged_verdict. Qed.
Print Assumptions C88_noticed.

(* So bytes in another order are never noticed, as long as the major version stays. *)
Theorem C88_rearranged : forall (b b' : list N) e o,
  let k := kind_of e in let n := declared_length k (drop o b) in
  search b = Val (Ok e) -> first_anchor b o k -> damaged_inside k n o b b' ->
  Permutation (covered n o b') (covered n o b) -> declared_major k (drop o b') = declared_major k (drop o b) ->
  exists e', search b' = Val (Ok e') /\ kind_of e' = k /\ describes (drop o b') e'.
Proof. exact rearranged. Qed.
Print Assumptions C88_rearranged.

(* Nothing but the covered bytes, the anchors before them and the number of bytes that follow
   (modulo 256) has an influence. *)
Theorem C88_elsewhere : forall (b b' : list N) e o,
  let k := kind_of e in let n := declared_length k (drop o b) in
  search b = Val (Ok e) -> first_anchor b o k -> first_anchor b' o k ->
  n <= len (drop o b') mod 256 -> covered n o b' = covered n o b -> search b' = Val (Ok e).
Proof. exact same_covered. Qed.
Print Assumptions C88_elsewhere.

(* A buffer that is cut off before the end of the entry point is rejected; cut off later it is
   accepted with the same result, unless the truncated remaining length is too small (C05). *)
Theorem C88_cut_off : forall (b : list N) e o m,
  let k := kind_of e in let n := declared_length k (drop o b) in
  search b = Val (Ok e) -> first_anchor b o k -> m <= len b ->
  (m < o + n -> exists er, search (take m b) = Val (Err er)) /\
  (o + n <= m -> n <= (m - o) mod 256 -> search (take m b) = Val (Ok e)) /\
  (o + n <= m -> (m - o) mod 256 < n -> search (take m b) = Val (Err (EpBadSize ((m - o) mod 256)))).
Proof. exact cut_off. Qed.
Print Assumptions C88_cut_off.

(* "Every change of one byte of an entry point is noticed" is false of the length byte: one
   more than stored, with 255 in the byte behind, gives the same sum ... *)
Theorem C88_length_byte_refuted : exists (b b' : list N) e e',
  search b = Val (Ok e) /\ search b' = Val (Ok e') /\ first_anchor b 0 FmtV3 /\ differ_only_at 6 b b' /\
  ep_len e = 24 /\ ep_len e' = 25.
Proof.
  exists (entry_v3_bin ++ [255]), (take 6 entry_v3_bin ++ [25] ++ drop 7 entry_v3_bin ++ [255]). do 2 eexists.
  split; [vm_compute; reflexivity|]. split; [vm_compute; reflexivity|].
  split; [apply find_signature_first; vm_compute; reflexivity|].
  split; [apply one_changed; vm_compute; reflexivity|]. split; reflexivity.
Qed.
Print Assumptions C88_length_byte_refuted.

(* ... and of the anchor string: with a damaged anchor the search goes on, and can come up with
   another entry point that stands behind. *)
Theorem C88_anchor_refuted : exists (b b' : list N) e e',
  search b = Val (Ok e) /\ search b' = Val (Ok e') /\ first_anchor b 0 FmtV2 /\ differ_only_at 0 b b' /\
  ep_smbios_len e = 2736 /\ ep_smbios_len e' = 5525.
Proof.
  exists (entry_bin ++ [0] ++ entry_v3_bin), ([94] ++ drop 1 entry_bin ++ [0] ++ entry_v3_bin). do 2 eexists.
  split; [vm_compute; reflexivity|]. split; [vm_compute; reflexivity|].
  split; [apply find_signature_first; vm_compute; reflexivity|].
  split; [apply one_changed; vm_compute; reflexivity|]. split; reflexivity.
Qed.
Print Assumptions C88_anchor_refuted.

(* "An accepted entry point has the intermediate anchor _DMI_ and the intermediate checksum
   that the standard demands" is false: neither is looked at. *)
Theorem C88_intermediate_refuted : exists (b : list N) p,
  search b = Val (Ok (V2 p)) /\ first_anchor b 0 FmtV2 /\
  v2_dmi_signature p <> intermediate_anchor /\ intermediate_sum 0 b <> 0.
Proof.
  exists (take 4 entry_bin ++ [nth 4 entry_bin 0 - 1] ++ take 11 (drop 5 entry_bin) ++ [96] ++ drop 17 entry_bin). eexists.
  split; [vm_compute; reflexivity|]. split; [apply find_signature_first; vm_compute; reflexivity|].
  split; vm_compute; discriminate.
Qed.
Print Assumptions C88_intermediate_refuted.
(* the shipped entry point has both *)
Example C88_intermediate_example : exists p, search entry_bin = Val (Ok (V2 p)) /\
  v2_dmi_signature p = intermediate_anchor /\ intermediate_sum 0 entry_bin = 0.
Proof. eexists. split; [vm_compute; reflexivity|]. split; reflexivity. Qed.

(* the bytes of the table length of the shipped entry point exchanged: not noticed; one of
   them changed: noticed (C07); the version lowered: noticed *)
Definition ex_exchanged : list N := take 22 entry_bin ++ [10; 176] ++ drop 24 entry_bin.
Example C88_example : exists e e', search entry_bin = Val (Ok e) /\ first_anchor entry_bin 0 FmtV2 /\
  damaged_inside FmtV2 31 0 entry_bin ex_exchanged /\ Permutation (covered 31 0 ex_exchanged) (covered 31 0 entry_bin) /\
  search ex_exchanged = Val (Ok e') /\ ep_smbios_len e = 2736 /\ ep_smbios_len e' = 45066.
Proof.
  do 2 eexists. split; [vm_compute; reflexivity|]. split; [apply find_signature_first; vm_compute; reflexivity|].
  split; [apply damage_checked; vm_compute; reflexivity|].
  split; [|split; [vm_compute; reflexivity|split; reflexivity]].
  change (covered 31 0 entry_bin) with (take 22 entry_bin ++ [176; 10] ++ drop 24 entry_bin).
  change (covered 31 0 ex_exchanged) with (take 22 entry_bin ++ [10; 176] ++ drop 24 entry_bin).
  apply Permutation_app_head. apply Permutation_app_tail. apply perm_swap.
Qed.
Definition ex_version : list N := take 6 entry_bin ++ [1] ++ drop 7 entry_bin.
Example C88_version_example : damaged_inside FmtV2 31 0 entry_bin ex_version /\
  search ex_version = Val (Err (TooOldVersion 1)).
Proof. split; [apply damage_checked; vm_compute; reflexivity|vm_compute; reflexivity]. Qed.
Example C88_elsewhere_example : exists e, search ex_buffer = Val (Ok e) /\
  first_anchor ex_buffer 16 FmtV2 /\ first_anchor (repeat 0 16 ++ entry_bin) 16 FmtV2 /\
  covered 31 16 (repeat 0 16 ++ entry_bin) = covered 31 16 ex_buffer /\ search (repeat 0 16 ++ entry_bin) = Val (Ok e).
Proof.
  eexists. split; [vm_compute; reflexivity|]. split; [apply find_signature_first; vm_compute; reflexivity|].
  split; [apply find_signature_first; vm_compute; reflexivity|]. split; reflexivity.
Qed.
Example C88_cut_off_example : len ex_buffer = 50 /\ search (take 46 ex_buffer) = Val (Err (EpBadSize 30)) /\
  search (take 47 ex_buffer) = search ex_buffer /\ search (take 17 ex_buffer) = Val (Err NotFound).
Proof. repeat split; vm_compute; reflexivity. Qed.
