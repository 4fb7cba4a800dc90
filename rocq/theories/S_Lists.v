(* What the decoders of types 11 to 14 are to return (SMBIOS 7.12 to 7.15). *)
From Verif Require Import Base G_Enums M_Raw M_Strings M_GroupAssociations Spec S_Enums S_Decode.
Local Open Scope N_scope.

(* l is the list of all strings of the area: its k-th element is string number k *)
Definition strings_of (area : list N) (l : list text) : Prop :=
  forall k t, 0 < k -> (nth_error l (N.to_nat (k - 1)) = Some t <-> string_number area k t).

(* [steps next s l s']: successive calls of next from s answer l and leave s' *)
Inductive steps {S A : Type} (next : S -> out (option A * S)) : S -> list (option A) -> S -> Prop :=
| steps_nil s : steps next s [] s
| steps_cons s o s1 l s' : next s = Val (o, s1) -> steps next s1 l s' -> steps next s (o :: l) s'.

(* --------------------------------------------------- type 13, BIOS language *)

Definition BiosLanguage_area (v : SmbiosVersion) : N := if since v 2 1 then 18 else 17.

Record BiosLanguage_says (r : RawStructure) (s : BiosLanguage) : Prop := {
  _ : language_handle s = handle r;
  _ : when (from_version (version r) 2 1) (field_is r 0x05 1) (language_flags s);
  _ : from_version (version r) 2 1 -> field_is r 0x15 1 (language_current_language s);
  (* the standard has it at 15h in every version, see C32_current_2_0_refuted *)
  _ : before_version (version r) 2 1 -> field_is r 0x14 1 (language_current_language s);
  _ : language_installable_languages s = {| il_structure := r; il_index := 1 |}
}.

(* the iterator over the languages of r, about to look at string number i *)
Definition langs (r : RawStructure) (i : N) : InstallableLanguages := {| il_structure := r; il_index := i |}.

(* ---------------------------------------------- type 14, group associations *)

(* 7.15: an item is a structure type and a handle *)
Definition item_means (rec : list N) (i : GroupItem) : Prop :=
  exists t h0 h1, rec = [t; h0; h1] /\ i = {| gi_type := t; gi_handle := h0 + 256 * h1 |}.
