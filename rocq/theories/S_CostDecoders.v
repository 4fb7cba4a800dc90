(* The work of decoding a whole table, and of going through the languages of a structure. *)
From Verif Require Import Base G_Enums M_Raw M_Iter M_Strings M_Cost M_CostDecoders Spec.
Local Open Scope N_scope.

(* [labour c s n]: calling next until it answers None (or the program dies) takes n steps,
   the lookups of strings by the decoders counted in *)
Inductive labour (c : cfg) : Structures -> N -> Prop :=
| labour_end s s' : next c s = Val (None, s') -> labour c s (snd (next_counted c s))
| labour_panic s : next c s = Panic -> labour c s (snd (next_counted c s))
| labour_ub s : next c s = UB -> labour c s (snd (next_counted c s))
| labour_item s x s' n : next c s = Val (Some x, s') -> labour c s' n -> labour c s (snd (next_counted c s) + n).

(* [browsing c l n]: calling next on the languages l until it answers None (or the program dies)
   takes n steps *)
Inductive browsing (c : cfg) : InstallableLanguages -> N -> Prop :=
| browsing_end l l' : InstallableLanguages_next c l = Val (None, l') ->
    browsing c l (snd (InstallableLanguages_next_counted c l))
| browsing_panic l : InstallableLanguages_next c l = Panic -> browsing c l (snd (InstallableLanguages_next_counted c l))
| browsing_item l t l' n : InstallableLanguages_next c l = Val (Some t, l') -> browsing c l' n ->
    browsing c l (snd (InstallableLanguages_next_counted c l) + n).

(* how many strings of its structure a decoder looks up at most; counting all of them is once *)
Definition lookups (i : InfoType) : nat :=
  match i with
  | InfoType_Bios => 3
  | InfoType_System => 6
  | InfoType_BaseBoard => 6
  | InfoType_Enclosure => 5
  | InfoType_Processor => 6
  | InfoType_Cache => 1
  | InfoType_PortConnector => 2
  | InfoType_SystemSlots => 1
  | InfoType_SystemConfigurationOptions => 1
  | InfoType_GroupAssociations => 1
  | InfoType_MemoryDevice => 7
  | InfoType_PortableBattery => 7
  | _ => 0
  end%nat.
