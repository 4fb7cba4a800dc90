(* The values whose texts the theorems on texts speak about: all numbers within the
   widths of their Rust types. *)
From Coq Require Import String.
From Verif Require Import Base G_Enums M_Raw M_Entry M_Bios M_SystemEventLog S_Text.
Local Open Scope N_scope.

Definition revision_bytes (r : Revision) : Prop := rev_major r < 256 /\ rev_minor r < 256.

Definition smt_small (t : SystemManagementType) : Prop :=
  match t with
  | SMT_OutOfRangeVoltageReserved v | SMT_OutOfRangeTemperatureReserved v | SMT_OutOfRangeFan v | SMT_Reserved v
  | SMT_OutOfRangeSystemManagementProbe v | SMT_OemAssigned v => v < 2 ^ 32
  | _ => True
  end.

Definition vdf_small (t : VariableDataFormatType) : Prop :=
  match t with
  | VDF_None => True
  | VDF_Handle a | VDF_MultipleEvent a | VDF_PostResults a | VDF_Unused a | VDF_OemAssigned a => a < 2 ^ 64
  | VDF_MultipleEventHandle a b => a < 2 ^ 64 /\ b < 2 ^ 64
  | VDF_SystemManagementType t => smt_small t
  | VDF_MultipleEventSystemManagementType t a => smt_small t /\ a < 2 ^ 64
  end.

Definition method_small (m : AccessMethod) : Prop :=
  match m with
  | AM_IndexedIoOne8bitIndexOne8bitData a b | AM_IndexedIoOne16bitIndexOne8bitData a b
  | AM_Available a b | AM_OemSpecific a b => a < 2 ^ 64 /\ b < 2 ^ 64
  | AM_IndexedIoTwo8bitIndexOne8bitData a b c => a < 2 ^ 64 /\ b < 2 ^ 64 /\ c < 2 ^ 64
  | AM_MemoryMappedPhysicaAddress a | AM_GeneralPurposeNonVolatileData a => a < 2 ^ 64
  end.

Definition entry_error_byte (e : InvalidEntryPointError) : Prop :=
  match e with NotFound => True | TooOldVersion v | EpBadSize v | BadChecksum v => v < 256 end.

Definition structure_error_small (e : MalformedStructureError) : Prop :=
  match e with
  | BadSize a b => a < 2 ^ 64 /\ b < 2 ^ 64
  | UnterminatedStrings a => a < 2 ^ 64
  | InvalidStringIndex i h k => (forall t, i = InfoType_Oem t -> t < 256) /\ h < 2 ^ 64 /\ k < 2 ^ 64
  | InvalidSlice => True
  | InvalidFormattedSectionLength i h spec n =>
      (forall t, i = InfoType_Oem t -> t < 256) /\ h < 2 ^ 64 /\ ends_in_digit spec = false /\ n < 2 ^ 64
  end.

