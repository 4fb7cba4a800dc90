(* Model of /repo/src/structures/014_group_associations.rs *)
From Coq Require Import String.
From Verif Require Import Base G_Enums M_Raw.
Local Open Scope N_scope.

(* 014_group_associations.rs:25-39 `struct GroupItems`, `struct GroupItem` *)
Record GroupItems := { gi_data : list N; gi_index : N }.
Record GroupItem := { gi_type : N; gi_handle : N }.

(* 014_group_associations.rs:14-23 `struct GroupAssociations` *)
Record GroupAssociations := {
  group_handle : N;
  group_group_name : text;
  group_items : GroupItems
}.

(* 014_group_associations.rs:41-59 `GroupAssociations::try_from` *)
Definition GroupAssociations_try_from (c : cfg) (r : RawStructure) : out (res GroupAssociations) :=
  let! size := u_sub c (usize_bits c) (length_ r) 5 in
  let! slice := get_slice c 0x05 size r in
  match slice with
  | None => Val (Err (InvalidFormattedSectionLength InfoType_GroupAssociations (handle r) EmptyString (length_ r)))
  | Some s =>
    let? group_name := get_string c 0x04 r in
    Val (Ok {|
      group_handle := handle r;
      group_group_name := group_name;
      group_items := {| gi_data := s; gi_index := 0 |}
    |})
  end.

(* 014_group_associations.rs:66-78 `Iterator for GroupItems`, next.  The slice has
   three bytes, so first() and u16::try_from_bytes cannot fail. *)
Definition GroupItems_next (s : GroupItems) : option GroupItem * GroupItems :=
  let st := gi_index s in
  let fin := st + 3 in
  match slice_get (gi_data s) st fin with
  | None => (None, s)
  | Some p => (Some {| gi_type := at_ 0 1 p; gi_handle := at_ 1 2 p |}, {| gi_data := gi_data s; gi_index := fin |})
  end.
