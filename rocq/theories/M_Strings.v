(* Model of the structures that are mostly lists of strings:
   /repo/src/structures/011_oem_strings.rs, 012_system_configuration_options.rs and
   013_bios_language.rs *)
From Verif Require Import Base G_Enums M_Raw.
Local Open Scope N_scope.

(* ------------------------------------------------------------------ type 11 *)

(* 011_oem_strings.rs:9-15 `struct OemStrings` *)
Record OemStrings := { oem_handle : N; oem_strings : StructureStrings }.

(* 011_oem_strings.rs:18-24 `OemStrings::try_from` *)
Definition OemStrings_try_from (c : cfg) (r : RawStructure) : out (res OemStrings) :=
  Val (Ok {| oem_handle := handle r; oem_strings := raw_strings r |}).

(* ------------------------------------------------------------------ type 12 *)

(* 012_system_configuration_options.rs:13-19 `struct SystemConfigurationOptions` *)
Record SystemConfigurationOptions := { options_handle : N; options_strings : StructureStrings }.

(* Iterator::count on the strings: number of items before the first None.  One
   call of next per byte is enough; running out of fuel is marked as UB and shown
   unreachable (L_Strings.strings_collect_total). *)
Definition strings_count (r : RawStructure) : out N :=
  match strings_collect (S (length (strings r))) (raw_strings r) with
  | Some l => Val (len l)
  | None => UB
  end.

(* 012_system_configuration_options.rs:22-37 `SystemConfigurationOptions::try_from` *)
Definition SystemConfigurationOptions_try_from (c : cfg) (r : RawStructure) : out (res SystemConfigurationOptions) :=
  let? count := get c 1 0x04 r in
  let! n := strings_count r in
  if negb (count =? n) then
    Val (Err (InvalidStringIndex InfoType_SystemConfigurationOptions (handle r) count))
  else
    Val (Ok {| options_handle := handle r; options_strings := raw_strings r |}).

(* ------------------------------------------------------------------ type 13 *)

(* 013_bios_language.rs:22-27 `struct InstallableLanguages` *)
Record InstallableLanguages := { il_structure : RawStructure; il_index : N }.

(* 013_bios_language.rs:9-20 `struct BiosLanguage` *)
Record BiosLanguage := {
  language_handle : N;
  language_installable_languages : InstallableLanguages;
  language_flags : option N;
  language_current_language : N
}.

(* 013_bios_language.rs:74-79 `InstallableLanguages::new` *)
Definition InstallableLanguages_new (r : RawStructure) : InstallableLanguages :=
  {| il_structure := r; il_index := 1 |}.

(* 013_bios_language.rs:80-87 `Iterator for InstallableLanguages`, next; the index
   is a u8 *)
Definition InstallableLanguages_next (c : cfg) (s : InstallableLanguages) : out (option text * InstallableLanguages) :=
  let! i := u_add c 8 (il_index s) 1 in
  Val (ok (find_string (il_structure s) (il_index s)), {| il_structure := il_structure s; il_index := i |}).

(* 013_bios_language.rs:33-71 `BiosLanguage::try_from`; packed layouts of 18 and 17
   bytes *)
Definition BiosLanguage_try_from (c : cfg) (r : RawStructure) : out (res BiosLanguage) :=
  if version_ge (version r) (version_of 2 1) then
    let! p := read_packed c 18 r in
    Val (Ok {|
      language_handle := handle r;
      language_installable_languages := InstallableLanguages_new r;
      language_flags := Some (at_ 1 1 p);
      language_current_language := at_ 17 1 p
    |})
  else
    let! p := read_packed c 17 r in
    Val (Ok {|
      language_handle := handle r;
      language_installable_languages := InstallableLanguages_new r;
      language_flags := None;
      language_current_language := at_ 16 1 p
    |}).
