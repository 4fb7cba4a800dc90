(* Model of /repo/src/structures/002_baseboard.rs *)
From Verif Require Import Base G_Enums M_Raw.
Local Open Scope N_scope.

(* 002_baseboard.rs:90-102 `struct BaseBoard`; bitflags are their bits *)
Record BaseBoard := {
  baseboard_handle : N;
  baseboard_manufacturer : text;
  baseboard_product : text;
  baseboard_version : text;
  baseboard_serial : text;
  baseboard_asset : option text;
  baseboard_feature_flags : option N;
  baseboard_location_in_chassis : option text;
  baseboard_chassis_handle : option N;
  baseboard_board_type : option BoardType
}.

(* 002_baseboard.rs:74-84 `bitflags! BaseBoardFlags`: from_bits_truncate keeps the
   named bits *)
Definition BaseBoardFlags_truncate (b : N) : N := N.land b 0x1F.

(* `if cond { Some(expr?) } else { None }` *)
Definition some_if {E A} (b : bool) (v : result E A) : out (result E (option A)) :=
  if b then Val (rmap Some v) else Val (Ok None).

(* 002_baseboard.rs:104-161 `BaseBoard::try_from`; packed layout of 10 bytes *)
Definition BaseBoard_try_from (c : cfg) (r : RawStructure) : out (res BaseBoard) :=
  let! p := read_packed c 10 r in
  let? asset := some_if (4 <? len (data r)) (find_string r (at_ 4 1 p)) in
  let feature_flags := if 5 <? len (data r) then Some (BaseBoardFlags_truncate (at_ 5 1 p)) else None in
  let? location := some_if (6 <? len (data r)) (find_string r (at_ 6 1 p)) in
  let chassis_handle := if 7 <? len (data r) then Some (at_ 7 2 p) else None in
  let board_type := if 9 <? len (data r) then Some (BoardType_from (at_ 9 1 p)) else None in
  let? manufacturer := Val (find_string r (at_ 0 1 p)) in
  let? product := Val (find_string r (at_ 1 1 p)) in
  let? version_ := Val (find_string r (at_ 2 1 p)) in
  let? serial := Val (find_string r (at_ 3 1 p)) in
  Val (Ok {|
    baseboard_handle := handle r;
    baseboard_manufacturer := manufacturer;
    baseboard_product := product;
    baseboard_version := version_;
    baseboard_serial := serial;
    baseboard_asset := asset;
    baseboard_feature_flags := feature_flags;
    baseboard_location_in_chassis := location;
    baseboard_chassis_handle := chassis_handle;
    baseboard_board_type := board_type
  |}).
