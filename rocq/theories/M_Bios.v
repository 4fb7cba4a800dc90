(* Model of /repo/src/structures/000_bios.rs.  The LAYOUT tables are in G_Layouts. *)
From Verif Require Import Base G_Enums M_Raw.
Local Open Scope N_scope.

(* 000_bios.rs:55-78 BiosRevision, FirmwareRevision, RomSize *)
Record Revision := { rev_major : N; rev_minor : N }.
Record RomSize := { basic : N; extended : option N }.

(* 000_bios.rs:10-39 `struct Bios`; the Characteristics newtypes are their value *)
Record Bios := {
  bios_handle : N;
  bios_vendor : text;
  bios_bios_version : text;
  bios_starting_address_segment : N;
  bios_release_date : text;
  bios_rom_size : RomSize;
  bios_characteristics : N;
  bios_characteristics_extension_1 : option N;
  bios_characteristics_extension_2 : option N;
  bios_revision : option Revision;
  bios_firmware_revision : option Revision
}.

(* 000_bios.rs:80-208 `Bios::try_from`.  The packed layouts have 22, 20 and 14 bytes. *)
Definition Bios_try_from (c : cfg) (r : RawStructure) : out (res Bios) :=
  if version_ge (version r) (version_of 3 1) then
    let! p := read_packed c 22 r in
    let? vendor := Val (find_string r (at_ 0 1 p)) in
    let? bios_version := Val (find_string r (at_ 1 1 p)) in
    let? release_date := Val (find_string r (at_ 4 1 p)) in
    Val (Ok {|
      bios_handle := handle r;
      bios_vendor := vendor;
      bios_bios_version := bios_version;
      bios_starting_address_segment := at_ 2 2 p;
      bios_release_date := release_date;
      bios_rom_size := {| basic := at_ 5 1 p; extended := Some (at_ 20 2 p) |};
      bios_characteristics := at_ 6 8 p;
      bios_characteristics_extension_1 := Some (at_ 14 1 p);
      bios_characteristics_extension_2 := Some (at_ 15 1 p);
      bios_revision := Some {| rev_major := at_ 16 1 p; rev_minor := at_ 17 1 p |};
      bios_firmware_revision := Some {| rev_major := at_ 18 1 p; rev_minor := at_ 19 1 p |}
    |})
  else if version_ge (version r) (version_of 2 4) then
    let! p := read_packed c 20 r in
    let? vendor := Val (find_string r (at_ 0 1 p)) in
    let? bios_version := Val (find_string r (at_ 1 1 p)) in
    let? release_date := Val (find_string r (at_ 4 1 p)) in
    Val (Ok {|
      bios_handle := handle r;
      bios_vendor := vendor;
      bios_bios_version := bios_version;
      bios_starting_address_segment := at_ 2 2 p;
      bios_release_date := release_date;
      bios_rom_size := {| basic := at_ 5 1 p; extended := None |};
      bios_characteristics := at_ 6 8 p;
      bios_characteristics_extension_1 := Some (at_ 14 1 p);
      bios_characteristics_extension_2 := Some (at_ 15 1 p);
      bios_revision := Some {| rev_major := at_ 16 1 p; rev_minor := at_ 17 1 p |};
      bios_firmware_revision := Some {| rev_major := at_ 18 1 p; rev_minor := at_ 19 1 p |}
    |})
  else
    let! p := read_packed c 14 r in
    let? vendor := Val (find_string r (at_ 0 1 p)) in
    let? bios_version := Val (find_string r (at_ 1 1 p)) in
    let? release_date := Val (find_string r (at_ 4 1 p)) in
    Val (Ok {|
      bios_handle := handle r;
      bios_vendor := vendor;
      bios_bios_version := bios_version;
      bios_starting_address_segment := at_ 2 2 p;
      bios_release_date := release_date;
      bios_rom_size := {| basic := at_ 5 1 p; extended := None |};
      bios_characteristics := at_ 6 8 p;
      bios_characteristics_extension_1 := None;
      bios_characteristics_extension_2 := None;
      bios_revision := None;
      bios_firmware_revision := None
    |}).

(* 000_bios.rs:318-334 `impl From<RomSize> for u64`: unimplemented!() and
   unreachable!() panic.  `basic + 1` is u8 arithmetic, the multiplication and the
   shifts are u64 (a shift drops the bits above 64). *)
Definition RomSize_to_u64 (c : cfg) (s : RomSize) : out N :=
  if negb (basic s =? 0xFF) then
    let! b := u_add c 8 (basic s) 1 in
    u_mul c 64 b (N.shiftl 64 10)
  else match extended s with
  | Some e =>
    let unit := N.land (N.shiftr e 14) 3 in
    let size := N.land e 0x3fff in
    if unit =? 0 then Val (cast 64 (N.shiftl size 20))
    else if unit =? 1 then Val (cast 64 (N.shiftl size 30))
    else Panic
  | None => Panic
  end.
