(* Specification for C86: the developer texts of the bit field types. *)
From Coq Require Import String Ascii.
From Verif Require Import Base M_Raw M_Bitfield M_Show Spec S_Text S_Show.
Local Open Scope string_scope.
Local Open Scope N_scope.

(* ------------------------------------------- values that Rust's types can hold *)

(* a `&str`: valid UTF-8 *)
Definition bytes_of (s : string) : list N := map N_of_ascii (list_ascii_of_string s).
Definition rust_str (s : string) : Prop := utf8 (bytes_of s).
Definition rust_usize (n : N) : Prop := n < 2 ^ 64.

Definition rust_flag_type (t : FlagType) : Prop :=
  match t with
  | FUnknown => True
  | Significant m d => rust_str m /\ rust_str d
  | FReserved n => rust_str n
  end.
Definition rust_flag (f : Flag) : Prop := rust_usize (position f) /\ rust_flag_type (type_ f).
(* the value may be of any unsigned integer type *)
Definition rust_iter (it : Iter) : Prop :=
  it_value it < 2 ^ 128 /\ rust_usize (it_index it) /\ Forall rust_flag_type (it_layout it).
Definition rust_reserved (r : Reserved) : Prop :=
  rust_iter (rv_iter r) /\ (forall s, rv_desc r = Some s -> rust_str s) /\ rust_usize (rv_start r).
Definition rust_range (r : ReservedRange) : Prop :=
  rust_str (description r) /\ rust_usize (range_start r) /\ rust_usize (range_end r).

(* ------------------------------------------------------------------ the texts *)

(* the text of a flag type: the case, with its texts in quotes *)
Inductive flag_type_text (u : characters) : FlagType -> string -> Prop :=
| unknown_text : flag_type_text u FUnknown "Unknown"
| significant_text m d a b : literal u (bytes_of m) a -> literal u (bytes_of d) b ->
    flag_type_text u (Significant m d) ("Significant(" ++ a ++ ", " ++ b ++ ")")
| reserved_text n a : literal u (bytes_of n) a -> flag_type_text u (FReserved n) ("Reserved(" ++ a ++ ")").
(* of an iterator: the three fields, numbers in decimal *)
Definition iter_text (u : characters) (it : Iter) (s : string) : Prop :=
  exists v i ts, numeral 10 v (it_value it) /\ numeral 10 i (it_index it) /\
    Forall2 (flag_type_text u) (it_layout it) ts /\
    s = "Iter { value: " ++ v ++ ", index: " ++ i ++ ", layout: [" ++ listed ts ++ "] }".
(* an optional text *)
Inductive option_text (u : characters) : option string -> string -> Prop :=
| none_text : option_text u None "None"
| some_text s a : literal u (bytes_of s) a -> option_text u (Some s) ("Some(" ++ a ++ ")").
Definition reserved_iter_text (u : characters) (r : Reserved) (s : string) : Prop :=
  exists i d n, iter_text u (rv_iter r) i /\ option_text u (rv_desc r) d /\ numeral 10 n (rv_start r) /\
    s = "Reserved { iter: " ++ i ++ ", desc: " ++ d ++ ", start: " ++ n ++ " }".
(* of a range: its description and its two ends *)
Definition range_text (u : characters) (r : ReservedRange) (s : string) : Prop :=
  exists d a b, literal u (bytes_of (description r)) d /\ numeral 10 a (range_start r) /\ numeral 10 b (range_end r) /\
    s = "ReservedRange { description: " ++ d ++ ", range: " ++ a ++ "..=" ++ b ++ " }".
