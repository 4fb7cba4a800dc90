(* Property C81: machines of 32 and of 64 bits.  All other theorems are about both: they
   range over every [cfg], and the width is a part of it.  Here the two are compared.
   Vocabulary: S_Builds.v (same_build), S_Iter.v (sane), Spec.v (runs). *)
From Coq Require Import String.
From Coq Require Import ZArith Lia ZifyBool ZifyNat ZifyN.
From Verif Require Import Base G_Enums M_Raw M_Entry M_Bitfield M_Bios M_Enclosure M_Cache M_Strings M_PortableBattery M_Iter M_Use
  Spec S_Builds S_Iter S_Entry S_Use L_Base L_Strings L_Iter L_Use L_Width P_System P_Iter P_Use.
Local Open Scope N_scope.

(* A structure decodes to the same value, or the same error, or not at all. *)
Theorem C81_decoders : forall c c' r, same_build c c' ->
  length_ r = 4 + len (data r) -> length_ r < 256 -> all_bytes (data r) -> dispatch c r = dispatch c' r.
Proof. intros c c' r HS. apply w_dispatch. exact HS. Qed.
Print Assumptions C81_decoders.
(* So does a table: every call of next does the same, and every iteration comes to the
   same end with the same items. *)
Theorem C81_next : forall c c' s, same_build c c' -> sane s -> next c s = next c' s.
Proof. intros c c' s HS. apply w_next. exact HS. Qed.
Print Assumptions C81_next.
Theorem C81_iterations : forall c c' s l e, same_build c c' -> sane s -> runs (next c) s l e -> runs (next c') s l e.
Proof. exact w_runs. Qed.
Print Assumptions C81_iterations.
(* On a machine of 32 bits no table is too large for this: a slice has less than 2^31 bytes. *)
Theorem C81_slices_fit : forall e b, all_bytes b -> len b < 2 ^ 31 -> sane (structures e b).
Proof.
  intros e b HB HL. split; [exact HB|]. cbn. change (2 ^ 31) with 2147483648 in HL.
  split; [discriminate|]. cbv [N.pow Pos.pow]. lia.
Qed.
Print Assumptions C81_slices_fit.

(* The accessors do the same for every position a machine of 32 bits has, below the last
   few that overflow there. *)
Theorem C81_accessors : forall c c' off r, same_build c c' -> len (data r) < 2 ^ 31 ->
  (forall w, 0 < w <= 16 -> off + w <= 2 ^ 32 -> get c w off r = get c' w off r) /\
  (forall size, off + size < 2 ^ 32 -> get_slice c off size r = get_slice c' off size r) /\
  (off < 2 ^ 32 -> get_string c off r = get_string c' off r).
Proof. exact w_accessors. Qed.
Print Assumptions C81_accessors.
(* Those few: 2^32 - 1 is a position in no structure.  On a machine of 64 bits that is an
   error, on a checked one of 32 bits a panic. *)
Theorem C81_accessors_refuted : exists c c' r, same_build c c' /\
  get c 8 0xFFFFFFFF r = Val (Err InvalidSlice) /\ get c' 8 0xFFFFFFFF r = Panic.
Proof.
  exists {| overflow_checks := true; flat_memory := false; pointer_width := W64 |},
    {| overflow_checks := true; flat_memory := false; pointer_width := W32 |}, (ex_struct 2 7 InfoType_System [1; 2] []).
  split; [split; reflexivity|]. split; vm_compute; reflexivity.
Qed.
Print Assumptions C81_accessors_refuted.

(* Collecting positions into a usize: the same below 32, beyond it a machine of 32 bits
   panics, or in an unchecked build sets another bit. *)
Theorem C81_positions : forall c c' ps, same_build c c' -> Forall (fun p => p < 32) ps ->
  from_iter c (usize_bits c) ps = from_iter c' (usize_bits c') ps.
Proof. exact w_positions. Qed.
Print Assumptions C81_positions.
Theorem C81_positions_refuted : exists c c' d, same_build c c' /\
  from_iter c (usize_bits c) [33] = Val (2 ^ 33) /\ from_iter c' (usize_bits c') [33] = Val (2 ^ 1) /\
  pointer_width d = W32 /\ from_iter d (usize_bits d) [33] = Panic.
Proof.
  exists {| overflow_checks := false; flat_memory := false; pointer_width := W64 |},
    {| overflow_checks := false; flat_memory := false; pointer_width := W32 |},
    {| overflow_checks := true; flat_memory := false; pointer_width := W32 |}.
  split; [split; reflexivity|]. repeat split; vm_compute; reflexivity.
Qed.
Print Assumptions C81_positions_refuted.

(* Opening a dump: the same, unless the announced address has more than 32 bits
   (C71_dump_place_refuted). *)
Theorem C81_dumps : forall c c' b, all_bytes b ->
  (forall e, search b = Val (Ok e) -> kind_of e = FmtV2 \/ ep_smbios_address e < 2 ^ 32) -> open_dump c b = open_dump c' b.
Proof. exact w_dumps. Qed.
Print Assumptions C81_dumps.

Definition ex_32bit : cfg := {| overflow_checks := true; flat_memory := false; pointer_width := W32 |}.
(* a group, a table, two positions and the dump of C71 *)
Example C81_example : same_build ex_strict ex_32bit /\
  (exists x, dispatch ex_32bit (ex_struct 2 7 InfoType_GroupAssociations [1; 4; 0; 0] []) = Val (Ok x)) /\
  sane (structures (V3 {| v3_signature := []; v3_checksum := 0; v3_len := 0; v3_major := 3; v3_minor := 2; v3_docrev := 0;
    v3_revision := 0; v3_reserved := 0; v3_smbios_len_max := 14; v3_smbios_address := 0 |}) ex_bytes) /\
  from_iter ex_32bit (usize_bits ex_32bit) [0; 31] = Val 0x80000001 /\
  (exists s, open_dump ex_32bit ex_dump = Val (Ok s)).
Proof.
  split; [split; reflexivity|]. split; [eexists; vm_compute; reflexivity|].
  split; [apply C81_slices_fit; [apply all_bytes_dec; vm_compute; reflexivity|vm_compute; reflexivity]|].
  split; [vm_compute; reflexivity|]. eexists. vm_compute. reflexivity.
Qed.
