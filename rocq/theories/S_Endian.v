(* The same fields with their bytes in the opposite order. *)
From Verif Require Import Base M_Raw M_Entry M_Iter Spec.
Local Open Scope N_scope.

(* x and y are made of the same w bytes, taken from either end *)
Definition reversed (w : nat) (x y : N) : Prop :=
  exists bs, length bs = w /\ all_bytes bs /\ x = little bs /\ y = little (rev bs).

Definition mirrored (e f : EntryPoint) : Prop :=
  match e, f with
  | V2 p, V2 q =>
      reversed 4 (v2_signature p) (v2_signature q) /\
      v2_checksum p = v2_checksum q /\ v2_len p = v2_len q /\ v2_major p = v2_major q /\ v2_minor p = v2_minor q /\
      reversed 2 (v2_struct_max p) (v2_struct_max q) /\
      v2_revision p = v2_revision q /\ v2_formatted p = v2_formatted q /\ v2_dmi_signature p = v2_dmi_signature q /\
      v2_dmi_checksum p = v2_dmi_checksum q /\
      reversed 2 (v2_smbios_len p) (v2_smbios_len q) /\
      reversed 4 (v2_smbios_address p) (v2_smbios_address q) /\
      reversed 2 (v2_smbios_count p) (v2_smbios_count q) /\
      v2_bcd_revision p = v2_bcd_revision q
  | V3 p, V3 q =>
      v3_signature p = v3_signature q /\ v3_checksum p = v3_checksum q /\ v3_len p = v3_len q /\
      v3_major p = v3_major q /\ v3_minor p = v3_minor q /\ v3_docrev p = v3_docrev q /\
      v3_revision p = v3_revision q /\ v3_reserved p = v3_reserved q /\
      reversed 4 (v3_smbios_len_max p) (v3_smbios_len_max q) /\
      reversed 8 (v3_smbios_address p) (v3_smbios_address q)
  | _, _ => False
  end.

Definition mirrored_raw (r t : RawStructure) : Prop :=
  version r = version t /\ info r = info t /\ length_ r = length_ t /\ reversed 2 (handle r) (handle t) /\
  data r = data t /\ strings r = strings t /\ after r = after t.
