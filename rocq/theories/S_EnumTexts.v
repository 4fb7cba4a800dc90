(* Enumerations whose texts are displayed: used by the theorems on texts. *)
From Coq Require Import String.
From Verif Require Import Base G_Enums S_Enums.
Local Open Scope string_scope.
Local Open Scope N_scope.

(* For an enumeration decoded from a byte: its name and the text shown for a code;
   [alt] tells `{:#}` from `{}`.  The enumerations with codes that share a text are
   not in this list but treated separately. *)
Definition byte_texts (alt : bool) : list (string * (N -> string)) := [
  ("InfoType", fun k => InfoType_display alt (InfoType_from k));
  ("BoardType", fun k => BoardType_display alt (BoardType_from k));
  ("EnclosureType", fun k => EnclosureType_display alt (EnclosureType_from k));
  ("State", fun k => State_display alt (State_from k));
  ("SecurityStatus", fun k => SecurityStatus_display alt (SecurityStatus_from k));
  ("ProcessorUpgrade", fun k => ProcessorUpgrade_display alt (ProcessorUpgrade_from k));
  ("CacheErrorCorrectionType", fun k => CacheErrorCorrectionType_display alt (CacheErrorCorrectionType_from k));
  ("SystemCacheType", fun k => SystemCacheType_display alt (SystemCacheType_from k));
  ("CacheAssociativity", fun k => CacheAssociativity_display alt (CacheAssociativity_from k));
  ("ConnectorType", fun k => ConnectorType_display alt (ConnectorType_from k));
  ("PortType", fun k => PortType_display alt (PortType_from k));
  ("SlotWidth", fun k => SlotWidth_display alt (SlotWidth_from k));
  ("CurrentUsage", fun k => CurrentUsage_display alt (CurrentUsage_from k));
  ("SlotLength", fun k => SlotLength_display alt (SlotLength_from k));
  ("MemoryArrayLocation", fun k => MemoryArrayLocation_display alt (MemoryArrayLocation_from k));
  ("MemoryArrayUse", fun k => MemoryArrayUse_display alt (MemoryArrayUse_from k));
  ("MemoryArrayErrorCorrectionTypes", fun k => MemoryArrayErrorCorrectionTypes_display alt (MemoryArrayErrorCorrectionTypes_from k));
  ("MEErrorType", fun k => MEErrorType_display alt (MEErrorType_from k));
  ("MEErrorGranularity", fun k => MEErrorGranularity_display alt (MEErrorGranularity_from k));
  ("MEErrorOperation", fun k => MEErrorOperation_display alt (MEErrorOperation_from k));
  ("PointingDeviceType", fun k => PointingDeviceType_display alt (PointingDeviceType_from k));
  ("PointingDeviceInterface", fun k => PointingDeviceInterface_display alt (PointingDeviceInterface_from k))
].

(* For an enumeration with a variant Undefined: its name, the codes that have a name,
   and the text shown for a code *)
Definition undefined_texts (alt : bool) : list (string * list N * (N -> string)) := [
  ("BoardType", map fst BoardType_codes, fun k => BoardType_display alt (BoardType_from k));
  ("EnclosureType", map fst EnclosureType_codes, fun k => EnclosureType_display alt (EnclosureType_from k));
  ("State", map fst State_codes, fun k => State_display alt (State_from k));
  ("SecurityStatus", map fst SecurityStatus_codes, fun k => SecurityStatus_display alt (SecurityStatus_from k));
  ("CacheErrorCorrectionType", map fst CacheErrorCorrectionType_codes, fun k => CacheErrorCorrectionType_display alt (CacheErrorCorrectionType_from k));
  ("SystemCacheType", map fst SystemCacheType_codes, fun k => SystemCacheType_display alt (SystemCacheType_from k));
  ("CacheAssociativity", map fst CacheAssociativity_codes, fun k => CacheAssociativity_display alt (CacheAssociativity_from k));
  ("ConnectorType", map fst ConnectorType_codes, fun k => ConnectorType_display alt (ConnectorType_from k));
  ("PortType", map fst PortType_codes, fun k => PortType_display alt (PortType_from k));
  ("SlotType", map fst SlotType_codes_here, fun k => SlotType_display alt (SlotType_from k));
  ("SlotWidth", map fst SlotWidth_codes, fun k => SlotWidth_display alt (SlotWidth_from k));
  ("CurrentUsage", map fst CurrentUsage_codes, fun k => CurrentUsage_display alt (CurrentUsage_from k));
  ("SlotLength", map fst SlotLength_codes, fun k => SlotLength_display alt (SlotLength_from k));
  ("MemoryArrayLocation", map fst MemoryArrayLocation_codes_here, fun k => MemoryArrayLocation_display alt (MemoryArrayLocation_from k));
  ("MemoryArrayUse", map fst MemoryArrayUse_codes, fun k => MemoryArrayUse_display alt (MemoryArrayUse_from k));
  ("MemoryArrayErrorCorrectionTypes", map fst MemoryArrayErrorCorrectionTypes_codes, fun k => MemoryArrayErrorCorrectionTypes_display alt (MemoryArrayErrorCorrectionTypes_from k));
  ("MEErrorType", map fst MEErrorType_codes, fun k => MEErrorType_display alt (MEErrorType_from k));
  ("MEErrorGranularity", map fst MEErrorGranularity_codes, fun k => MEErrorGranularity_display alt (MEErrorGranularity_from k));
  ("MEErrorOperation", map fst MEErrorOperation_codes, fun k => MEErrorOperation_display alt (MEErrorOperation_from k));
  ("PointingDeviceType", map fst PointingDeviceType_codes, fun k => PointingDeviceType_display alt (PointingDeviceType_from k));
  ("PointingDeviceInterface", map fst PointingDeviceInterface_codes, fun k => PointingDeviceInterface_display alt (PointingDeviceInterface_from k))
].
