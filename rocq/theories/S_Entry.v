(* Specification of the entry point search (SMBIOS 3.x specification, section 5.2),
   used by P_Entry.  It describes byte positions; it does not use the model. *)
From Verif Require Import Base G_Enums M_Raw M_Entry Spec.
Local Open Scope N_scope.

(* "_SM_" and "_SM3_" *)
Definition anchor_string (k : EntryPointFormat) : list N :=
  match k with FmtV2 => [95; 83; 77; 95] | FmtV3 => [95; 83; 77; 51; 95] end.

(* an anchor of kind k at offset o, which is a paragraph boundary *)
Definition anchor_at (b : list N) (o : N) (k : EntryPointFormat) : Prop :=
  o mod 16 = 0 /\ exists rest, drop o b = anchor_string k ++ rest.

Definition first_anchor (b : list N) (o : N) (k : EntryPointFormat) : Prop :=
  anchor_at b o k /\ forall o' k', o' < o -> ~ anchor_at b o' k'.

(* bytes of the fixed layout *)
Definition layout_size (k : EntryPointFormat) : N := match k with FmtV2 => 31 | FmtV3 => 24 end.

(* value of the w bytes at offset o *)
Definition value_at (b : list N) (o w : N) : N := little (take w (drop o b)).

(* entry point length byte and major version byte *)
Definition declared_length (k : EntryPointFormat) (b : list N) : N :=
  match k with FmtV2 => value_at b 5 1 | FmtV3 => value_at b 6 1 end.
Definition declared_major (k : EntryPointFormat) (b : list N) : N :=
  match k with FmtV2 => value_at b 6 1 | FmtV3 => value_at b 7 1 end.

(* e reports exactly what the layout of its kind stores at the start of b *)
Definition describes (b : list N) (e : EntryPoint) : Prop :=
  match e with
  | V2 p =>
    v2_signature p = value_at b 0 4 /\ v2_checksum p = value_at b 4 1 /\
    v2_len p = value_at b 5 1 /\ v2_major p = value_at b 6 1 /\ v2_minor p = value_at b 7 1 /\
    v2_struct_max p = value_at b 8 2 /\ v2_revision p = value_at b 10 1 /\
    v2_formatted p = take 5 (drop 11 b) /\ v2_dmi_signature p = take 5 (drop 16 b) /\
    v2_dmi_checksum p = value_at b 21 1 /\ v2_smbios_len p = value_at b 22 2 /\
    v2_smbios_address p = value_at b 24 4 /\ v2_smbios_count p = value_at b 28 2 /\
    v2_bcd_revision p = value_at b 30 1
  | V3 p =>
    v3_signature p = take 5 b /\ v3_checksum p = value_at b 5 1 /\
    v3_len p = value_at b 6 1 /\ v3_major p = value_at b 7 1 /\ v3_minor p = value_at b 8 1 /\
    v3_docrev p = value_at b 9 1 /\ v3_revision p = value_at b 10 1 /\
    v3_reserved p = value_at b 11 1 /\ v3_smbios_len_max p = value_at b 12 4 /\
    v3_smbios_address p = value_at b 16 8
  end.

Definition kind_of (e : EntryPoint) : EntryPointFormat :=
  match e with V2 _ => FmtV2 | V3 _ => FmtV3 end.

(* b starts with a valid entry point of kind k *)
Definition valid_entry (k : EntryPointFormat) (b : list N) : Prop :=
  (exists rest, b = anchor_string k ++ rest) /\
  layout_size k <= declared_length k b <= len b /\
  2 <= declared_major k b /\
  total (take (declared_length k b) b) mod 256 = 0.

(* The decision table of the search for an anchor of kind k at the start of b:
   the first row that applies gives the result. *)
Inductive verdict (k : EntryPointFormat) (b : list N) :
  result InvalidEntryPointError EntryPoint -> Prop :=
| layout_does_not_fit :
    len b < layout_size k ->
    verdict k b (Err (EpBadSize (len b)))
| declared_too_small :
    layout_size k <= len b ->
    declared_length k b < layout_size k ->
    verdict k b (Err (EpBadSize (declared_length k b)))
| too_old :
    layout_size k <= len b ->
    layout_size k <= declared_length k b ->
    declared_major k b < 2 ->
    verdict k b (Err (TooOldVersion (declared_major k b)))
| remaining_too_small :
    layout_size k <= len b ->
    layout_size k <= declared_length k b ->
    2 <= declared_major k b ->
    len b mod 256 < declared_length k b ->
    verdict k b (Err (EpBadSize (len b mod 256)))
| bad_sum :
    layout_size k <= len b ->
    layout_size k <= declared_length k b ->
    2 <= declared_major k b ->
    declared_length k b <= len b mod 256 ->
    total (take (declared_length k b) b) mod 256 <> 0 ->
    verdict k b (Err (BadChecksum (total (take (declared_length k b) b) mod 256)))
| accepted e :
    layout_size k <= len b ->
    layout_size k <= declared_length k b ->
    2 <= declared_major k b ->
    declared_length k b <= len b mod 256 ->
    total (take (declared_length k b) b) mod 256 = 0 ->
    kind_of e = k -> describes b e ->
    verdict k b (Ok e).

(* b' is b with the byte at position i changed *)
Definition differ_only_at (i : N) (b b' : list N) : Prop :=
  len b' = len b /\ byte_at b' i <> byte_at b i /\ forall j, j <> i -> byte_at b' j = byte_at b j.

(* position i of an entry point belongs to the anchor string or is the length byte *)
Definition anchor_or_length (k : EntryPointFormat) (i : N) : Prop :=
  match k with FmtV2 => i < 4 \/ i = 5 | FmtV3 => i < 5 \/ i = 6 end.
