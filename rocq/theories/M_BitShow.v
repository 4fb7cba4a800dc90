(* Model of the code that `#[derive(Debug)]` writes for the types of /repo/src/bitfield.rs, and
   of the hand-written one for flags; see M_Show for the formatter. *)
From Coq Require Import String.
From Verif Require Import Base M_Raw M_Display M_Bitfield M_BitfieldEq M_Show.
Local Open Scope string_scope.
Local Open Scope N_scope.

Definition show_literal (s : string) : tree := Quoted (str_bytes s).

(* bitfield.rs:20-26 `enum FlagType` *)
Definition FlagType_tree (t : FlagType) : tree :=
  match t with
  | FUnknown => show_unit "Unknown"
  | Significant m d => Call "Significant" [show_literal m; show_literal d]
  | FReserved n => Call "Reserved" [show_literal n]
  end.
(* bitfield.rs:39-41 `struct Position` *)
Definition Position_tree (p : N) : tree := show_wrapped "Position" p.
(* bitfield.rs:160-167 `Debug for Flag`: not derived, and without the type of the flag *)
Definition Flag_tree (f : Flag) : tree :=
  Fields "Flag" [("position", Position_tree (position f)); ("is_set", show_bool (is_set f))].
(* bitfield.rs:31-37 `struct Iter`; a slice is written as a list *)
Definition Iter_tree (it : Iter) : tree :=
  Fields "Iter" [("value", show_int (it_value it)); ("index", show_int (it_index it));
                 ("layout", Items (map FlagType_tree (it_layout it)))].
(* bitfield.rs:43-45 `struct Significants` *)
Definition Significants_tree (it : Iter) : tree := Call "Significants" [Iter_tree it].
(* bitfield.rs:49-55 `struct Reserved` *)
Definition Reserved_tree (r : Reserved) : tree :=
  Fields "Reserved" [("iter", Iter_tree (rv_iter r)); ("desc", show_option show_literal (rv_desc r));
                     ("start", show_int (rv_start r))].
(* bitfield.rs:57-62 `struct ReservedRange`; core writes a `RangeInclusive` that has not been
   used up as an iterator as the two ends with ..= between them *)
Definition ReservedRange_tree (r : ReservedRange) : tree :=
  Fields "ReservedRange" [("description", show_literal (description r));
                          ("range", Words [show_dec (range_start r) ++ "..=" ++ show_dec (range_end r)])].

Definition FlagType_debug_text u alt x : string := print u alt 0 (FlagType_tree x).
Definition Position_debug_text u alt x : string := print u alt 0 (Position_tree x).
Definition Flag_debug_text u alt x : string := print u alt 0 (Flag_tree x).
Definition Iter_debug_text u alt x : string := print u alt 0 (Iter_tree x).
Definition Significants_debug_text u alt x : string := print u alt 0 (Significants_tree x).
Definition Reserved_debug_text u alt x : string := print u alt 0 (Reserved_tree x).
Definition ReservedRange_debug_text u alt x : string := print u alt 0 (ReservedRange_tree x).
