(* What a decoding error claims about the structure it is reported for. *)
From Coq Require Import String.
From Verif Require Import Base G_Enums M_Raw M_Strings Spec S_Lists.
Local Open Scope N_scope.

(* "the length should be <spec> n" is right: the length, header included, differs *)
Definition length_claim (r : RawStructure) (spec : string) (n : N) : Prop :=
  (spec = ""%string /\ 4 + len (data r) <> n) \/
  ((spec = "minimum of "%string \/ spec = "at least"%string) /\ 4 + len (data r) < n).

(* the claims of the three structure types that do not follow this rule *)
Definition special_length_claim (r : RawStructure) (spec : string) (n : N) : Prop :=
  match info r with
  (* the claimed minimum does not count the header *)
  | InfoType_Enclosure => spec = "minimum of "%string /\ n = 5 /\ 4 + len (data r) < 4 + n
  (* the claimed length is the actual length *)
  | InfoType_GroupAssociations => spec = ""%string /\ n = length_ r /\ len (data r) < 1
  (* the claimed length is cut to a byte; without the two fields it is not known *)
  | InfoType_SystemEventLog =>
      (spec = ""%string /\ 4 + len (data r) <> n) \/
      (spec = "17h+(x*y) = "%string /\ exists x y, field_is r 0x15 1 x /\ field_is r 0x16 1 y /\
         4 + len (data r) <> 0x17 + x * y /\ n = (0x17 + x * y) mod 256) \/
      (spec = "minimum of "%string /\ n = 0 /\ 4 + len (data r) < 0x17)
  | _ => length_claim r spec n
  end.

(* where the last field that a structure of the type must have ends (header included);
   0 for types whose decoding does not ask for fields one by one *)
Definition last_field_end (i : InfoType) : N :=
  match i with
  | InfoType_SystemSlots => 0x0C
  | InfoType_SystemConfigurationOptions => 0x05
  | InfoType_SystemEventLog => 0x14
  | InfoType_MemoryDevice => 0x20
  | InfoType_MemoryError32 => 0x17
  | InfoType_MemoryArrayMappedAddress => 0x0F
  | InfoType_MemoryDeviceMappedAddress => 0x13
  | InfoType_BuiltInPointingDevice => 0x07
  | InfoType_PortableBattery => 0x10
  | _ => 0
  end.

Definition accurate (r : RawStructure) (e : MalformedStructureError) : Prop :=
  match e with
  | BadSize _ _ | UnterminatedStrings _ => False
  (* a field is missing *)
  | InvalidSlice => 4 + len (data r) < last_field_end (info r)
  | InvalidStringIndex i h k => i = info r /\ h = handle r /\
      match info r with
      (* the number of strings, when it is not the announced one *)
      | InfoType_SystemConfigurationOptions => exists l, strings_of (strings r) l /\ k <> len l
      | _ => forall t, ~ text_number r k t
      end
  | InvalidFormattedSectionLength i h spec n => i = info r /\ h = handle r /\ special_length_claim r spec n
  end.
