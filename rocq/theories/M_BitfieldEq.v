(* Model of the code that `#[derive(PartialEq, Eq, Hash, Default)]` writes for the types of
   /repo/src/bitfield.rs; see M_Eq for how parts are compared and hashed. *)
From Coq Require Import String Ascii.
From Verif Require Import Base M_Raw M_Hash M_Eq M_Bitfield.
Local Open Scope N_scope.

(* a `&str` of a layout table as its bytes *)
Definition str_bytes (s : string) : text := map N_of_ascii (list_ascii_of_string s).

(* bitfield.rs:20-26 `enum FlagType` *)
Definition FlagType_parts (t : FlagType) : list part :=
  match t with
  | FUnknown => [Tag 0]
  | Significant m d => Tag 1 :: str (str_bytes m) ++ str (str_bytes d)
  | FReserved n => Tag 2 :: str (str_bytes n)
  end.
(* bitfield.rs:28-29 `type Layout`: slices compare and hash their length and their elements *)
Definition Layout_parts (l : Layout) : list part := num Usize (len l) ++ flat_map FlagType_parts l.
(* bitfield.rs:39-41 `struct Position` *)
Definition Position_parts (p : N) : list part := num Usize p.
(* bitfield.rs:11-17 `struct Flag` *)
Definition Flag_parts (f : Flag) : list part :=
  Position_parts (position f) ++ flag (is_set f) ++ FlagType_parts (type_ f).
(* bitfield.rs:31-37 `struct Iter`; [w] is the integer type of the value *)
Definition Iter_parts (w : word) (it : Iter) : list part :=
  num w (it_value it) ++ num Usize (it_index it) ++ Layout_parts (it_layout it).
(* bitfield.rs:49-55 `struct Reserved`; `struct Significants` (bitfield.rs:43-45) is an Iter *)
Definition Reserved_parts (w : word) (r : Reserved) : list part :=
  Iter_parts w (rv_iter r) ++ option_parts (fun s => str (str_bytes s)) (rv_desc r) ++ num Usize (rv_start r).
(* bitfield.rs:57-62 `struct ReservedRange`.  A `RangeInclusive` also has a flag that says
   whether it has been used up as an iterator; in a range that `Reserved` returns it is false. *)
Definition ReservedRange_parts (r : ReservedRange) : list part :=
  str (str_bytes (description r)) ++ num Usize (range_start r) ++ num Usize (range_end r) ++ flag false.

Definition Flag_eq (a b : Flag) : bool := derived_eq (Flag_parts a) (Flag_parts b).
Definition Flag_hash (a : Flag) : list call := derived_hash (Flag_parts a).
Definition FlagType_eq (a b : FlagType) : bool := derived_eq (FlagType_parts a) (FlagType_parts b).
Definition FlagType_hash (a : FlagType) : list call := derived_hash (FlagType_parts a).
Definition Iter_eq (w : word) (a b : Iter) : bool := derived_eq (Iter_parts w a) (Iter_parts w b).
Definition Iter_hash (w : word) (a : Iter) : list call := derived_hash (Iter_parts w a).
Definition Reserved_eq (w : word) (a b : Reserved) : bool := derived_eq (Reserved_parts w a) (Reserved_parts w b).
Definition Reserved_hash (w : word) (a : Reserved) : list call := derived_hash (Reserved_parts w a).
Definition ReservedRange_eq (a b : ReservedRange) : bool := derived_eq (ReservedRange_parts a) (ReservedRange_parts b).
Definition ReservedRange_hash (a : ReservedRange) : list call := derived_hash (ReservedRange_parts a).

(* bitfield.rs:32, 44 and 50, `Default`: every field has its default, an empty slice for the
   layout; [size] is the size of the integer type in bytes *)
Definition Iter_default (size : N) : Iter :=
  {| it_size := size; it_value := 0; it_index := 0; it_layout := [] |}.
Definition Significants_default (size : N) : Iter := Iter_default size.
Definition Reserved_default (size : N) : Reserved :=
  {| rv_iter := Iter_default size; rv_desc := None; rv_start := 0 |}.
