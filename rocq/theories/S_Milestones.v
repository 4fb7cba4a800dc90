(* Specification for C106: the versions at which the reading of a structure changes. *)
From Verif Require Import Base G_Enums M_Raw M_Strings M_Iter Spec S_Iter S_Versions.
Local Open Scope N_scope.

(* For each type of structure the versions from which on it is read in another way. *)
Definition milestones (i : InfoType) : list (N * N) :=
  match i with
  | InfoType_Bios => [(2, 4); (3, 1)]
  | InfoType_System => [(2, 1); (2, 4); (2, 6)]
  | InfoType_Processor => [(2, 1); (2, 3); (2, 5); (2, 6); (3, 0)]
  | InfoType_Cache => [(2, 1); (2, 2); (3, 2)]
  | InfoType_SystemSlots => [(2, 0); (2, 1); (2, 6); (3, 2)]
  | InfoType_BiosLanguage => [(2, 1)]
  | InfoType_SystemEventLog => [(2, 0); (2, 1)]
  | InfoType_PhysicalMemoryArray => [(2, 2); (2, 8)]
  | InfoType_MemoryError32 => [(2, 1)]
  | InfoType_MemoryArrayMappedAddress => [(2, 1); (2, 7)]
  | InfoType_MemoryDeviceMappedAddress => [(2, 1); (2, 7)]
  | InfoType_BuiltInPointingDevice => [(2, 1)]
  | InfoType_PortableBattery => [(2, 1); (2, 2)]
  | _ => []
  end.

(* 3.0 is also where an End structure starts to end the iteration *)
Definition all_milestones : list (N * N) :=
  [(2, 0); (2, 1); (2, 2); (2, 3); (2, 4); (2, 5); (2, 6); (2, 7); (2, 8); (3, 0); (3, 1); (3, 2)].

(* two versions with none of the milestones ms between them *)
Definition same_side (v w : SmbiosVersion) (ms : list (N * N)) : Prop :=
  forall a b, In (a, b) ms -> (from_version v a b <-> from_version w a b).

(* Structures that the crate does not decode are handed out as they are, and so is the
   structure that a list of languages reads from; these have the announced version in them. *)
Definition renumbered (w : SmbiosVersion) (x : Structure) : Structure :=
  match x with
  | SOther r => SOther (at_version w r)
  | SBiosLanguage l => SBiosLanguage {|
      language_handle := language_handle l;
      language_installable_languages := {|
        il_structure := at_version w (il_structure (language_installable_languages l));
        il_index := il_index (language_installable_languages l) |};
      language_flags := language_flags l;
      language_current_language := language_current_language l |}
  | _ => x
  end.

(* the same course of decoding, but for the version that is carried along *)
Definition renumbered_course (w : SmbiosVersion) (x : out (res Structure)) : out (res Structure) :=
  match x with Val (Ok s) => Val (Ok (renumbered w s)) | _ => x end.

Definition renumbered_item (w : SmbiosVersion) (x : res Structure) : res Structure :=
  match x with Ok s => Ok (renumbered w s) | _ => x end.

(* one step of the iterator *)
Definition renumbered_step (w : SmbiosVersion) (x : out (option (res Structure) * Structures)) : out (option (res Structure) * Structures) :=
  match x with
  | Val (Some y, s') => Val (Some (renumbered_item w y), announcing w s')
  | Val (None, s') => Val (None, announcing w s')
  | Panic => Panic
  | UB => UB
  end.
