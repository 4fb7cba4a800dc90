(* Model of /repo/src/structures/001_system.rs *)
From Verif Require Import Base G_Enums M_Raw.
Local Open Scope N_scope.

(* 001_system.rs:47-58 `struct System`.  A uuid::Uuid is its 16 bytes in the order
   Uuid::as_bytes gives them. *)
Record System := {
  system_handle : N;
  system_manufacturer : text;
  system_product : text;
  system_version : text;
  system_serial : text;
  system_uuid : option (list N);
  system_wakeup : option WakeupType;
  system_sku : option text;
  system_family : option text
}.

(* uuid::Uuid::from_bytes keeps the bytes; uuid::Uuid::from_bytes_le reads the
   fields d1 (4 bytes), d2 (2 bytes) and d3 (2 bytes) little endian. *)
Definition uuid_from_bytes (b : list N) : list N := b.
Definition uuid_from_bytes_le (b : list N) : list N :=
  rev (take 4 b) ++ rev (take 2 (drop 4 b)) ++ rev (take 2 (drop 6 b)) ++ drop 8 b.

(* 001_system.rs:75-81 `decode_by_smbios_version` *)
Definition decode_by_smbios_version (b : list N) (v : SmbiosVersion) : list N :=
  if version_lt v (version_of 2 6) then uuid_from_bytes b else uuid_from_bytes_le b.

(* 001_system.rs:60-154 `System::try_from`; packed layouts of 4, 21 and 23 bytes *)
Definition System_try_from (c : cfg) (r : RawStructure) : out (res System) :=
  if version_lt (version r) (version_of 2 1) then
    let! p := read_packed c 4 r in
    let? manufacturer := Val (find_string r (at_ 0 1 p)) in
    let? product := Val (find_string r (at_ 1 1 p)) in
    let? version_ := Val (find_string r (at_ 2 1 p)) in
    let? serial := Val (find_string r (at_ 3 1 p)) in
    Val (Ok {|
      system_handle := handle r;
      system_manufacturer := manufacturer;
      system_product := product;
      system_version := version_;
      system_serial := serial;
      system_uuid := None;
      system_wakeup := None;
      system_sku := None;
      system_family := None
    |})
  else if version_lt (version r) (version_of 2 4) then
    let! p := read_packed c 21 r in
    let? manufacturer := Val (find_string r (at_ 0 1 p)) in
    let? product := Val (find_string r (at_ 1 1 p)) in
    let? version_ := Val (find_string r (at_ 2 1 p)) in
    let? serial := Val (find_string r (at_ 3 1 p)) in
    Val (Ok {|
      system_handle := handle r;
      system_manufacturer := manufacturer;
      system_product := product;
      system_version := version_;
      system_serial := serial;
      system_uuid := Some (decode_by_smbios_version (take 16 (drop 4 p)) (version r));
      system_wakeup := Some (WakeupType_from (at_ 20 1 p));
      system_sku := None;
      system_family := None
    |})
  else
    let! p := read_packed c 23 r in
    let? manufacturer := Val (find_string r (at_ 0 1 p)) in
    let? product := Val (find_string r (at_ 1 1 p)) in
    let? version_ := Val (find_string r (at_ 2 1 p)) in
    let? serial := Val (find_string r (at_ 3 1 p)) in
    let? sku := Val (find_string r (at_ 21 1 p)) in
    let? family := Val (find_string r (at_ 22 1 p)) in
    Val (Ok {|
      system_handle := handle r;
      system_manufacturer := manufacturer;
      system_product := product;
      system_version := version_;
      system_serial := serial;
      system_uuid := Some (decode_by_smbios_version (take 16 (drop 4 p)) (version r));
      system_wakeup := Some (WakeupType_from (at_ 20 1 p));
      system_sku := Some sku;
      system_family := Some family
    |}).
