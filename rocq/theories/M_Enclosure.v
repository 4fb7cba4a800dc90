(* Model of /repo/src/structures/003_enclosure.rs *)
From Coq Require Import String.
From Verif Require Import Base G_Enums M_Raw.
Local Open Scope N_scope.

(* 003_enclosure.rs:133-139 `struct ContainedElements`.  The Chunks iterator is the
   part of the slice it has not yielded; [ce_after] is the memory that follows it. *)
Record ContainedElements := {
  ce_chunks : list N;
  ce_after : list N;
  ce_count : N;
  ce_record_length : N
}.

(* 003_enclosure.rs:157-162 `enum ContainedElementType` *)
Inductive ContainedElementType := CE_BoardType (b : BoardType) | CE_InfoType (i : InfoType).

(* 003_enclosure.rs:141-155 `struct ContainedElement` *)
Record ContainedElement := { cel_type : ContainedElementType; cel_minimum : N; cel_maximum : N }.

(* 003_enclosure.rs:14-53 `struct Enclosure` *)
Record Enclosure := {
  enclosure_handle : N;
  enclosure_manufacturer : text;
  enclosure_chassis_lock : bool;
  enclosure_enclosure_type : EnclosureType;
  enclosure_version : text;
  enclosure_serial_number : text;
  enclosure_asset_tag_number : text;
  enclosure_boot_up_state : option State;
  enclosure_power_supply_state : option State;
  enclosure_thermal_state : option State;
  enclosure_security_status : option SecurityStatus;
  enclosure_oem_defined : option N;
  enclosure_height : option N;
  enclosure_power_cords_number : option N;
  enclosure_contained_elements : option ContainedElements;
  enclosure_sku_number : option text
}.

(* 003_enclosure.rs:504-512 `read_bytes::<T>`, w = size_of::<T>(): value and the
   advanced slice.  The x86 byte order is little endian. *)
Definition read_bytes (w : N) (d : list N) : option (N * list N) :=
  if len d <? w then None else Some (le (take w d), drop w d).

(* 003_enclosure.rs:412-432 `ContainedElements::new`; [aft] is the memory after
   [d].  `count * record_length` is u8 arithmetic. *)
Definition ContainedElements_new (c : cfg) (d aft : list N) : out (option (ContainedElements * list N)) :=
  match read_bytes 1 d with
  | None => Val None
  | Some (count, d1) =>
    match read_bytes 1 d1 with
    | None => Val None
    | Some (record_length, d2) =>
      if (count =? 0) || (record_length =? 0) then
        Val (Some ({| ce_chunks := []; ce_after := []; ce_count := count; ce_record_length := record_length |}, d2))
      else
        let! length := u_mul c 8 count record_length in
        match slice_get d2 0 length with
        | None => Val None
        | Some s =>
          Val (Some ({| ce_chunks := s; ce_after := drop length d2 ++ aft;
                        ce_count := count; ce_record_length := record_length |}, drop length d2))
        end
    end
  end.

(* 003_enclosure.rs:485-494 `impl From<u8> for ContainedElementType` *)
Definition ContainedElementType_from (byte : N) : ContainedElementType :=
  let val := N.land byte 0x7F in
  if N.land byte 0x80 =? 0 then CE_BoardType (BoardType_from val) else CE_InfoType (InfoType_from val).

(* 003_enclosure.rs:462-478 `impl From<&[u8]> for ContainedElement`: reads three
   bytes whatever the length of the record *)
Definition ContainedElement_from (c : cfg) (d aft : list N) : out ContainedElement :=
  let! p := if 3 <=? len d then Val (take 3 d)
            else if flat_memory c && (3 <=? len (d ++ aft)) then Val (take 3 (d ++ aft))
            else UB in
  Val {| cel_type := ContainedElementType_from (at_ 0 1 p);
         cel_minimum := at_ 1 1 p; cel_maximum := at_ 2 1 p |}.

(* 003_enclosure.rs:454-460 `Iterator for ContainedElements`, next.  The chunk size
   is record_length; the empty case was built with usize::MAX but has no chunk. *)
Definition ContainedElements_next (c : cfg) (e : ContainedElements) : out (option ContainedElement * ContainedElements) :=
  match ce_chunks e with
  | [] => Val (None, e)
  | _ :: _ =>
    let chunk := take (ce_record_length e) (ce_chunks e) in
    let rest := drop (ce_record_length e) (ce_chunks e) in
    let! x := ContainedElement_from c chunk (rest ++ ce_after e) in
    Val (Some x, {| ce_chunks := rest; ce_after := ce_after e;
                    ce_count := ce_count e; ce_record_length := ce_record_length e |})
  end.

(* 003_enclosure.rs:164-270 `Enclosure::try_from`.  The and_then chain stores each
   field when it is reached; here each step is a value depending on the previous one. *)
Definition Enclosure_try_from (c : cfg) (r : RawStructure) : out (res Enclosure) :=
  if len (data r) <? 5 then
    Val (Err (InvalidFormattedSectionLength (info r) (handle r) "minimum of " 5))
  else
  let p := take 5 (data r) in
  let extra := drop 5 (data r) in
  let type_byte := at_ 1 1 p in
  let? manufacturer := Val (find_string r (at_ 0 1 p)) in
  let? version_ := Val (find_string r (at_ 2 1 p)) in
  let? serial_number := Val (find_string r (at_ 3 1 p)) in
  let? asset_tag_number := Val (find_string r (at_ 4 1 p)) in
  let boot_up_state := read_bytes 1 extra in
  let power_supply_state := oand_then boot_up_state (fun '(_, d) => read_bytes 1 d) in
  let thermal_state := oand_then power_supply_state (fun '(_, d) => read_bytes 1 d) in
  let security_status := oand_then thermal_state (fun '(_, d) => read_bytes 1 d) in
  let oem_defined := oand_then security_status (fun '(_, d) => read_bytes 4 d) in
  let height := oand_then oem_defined (fun '(_, d) => read_bytes 1 d) in
  let power_cords := oand_then height (fun '(_, d) => read_bytes 1 d) in
  let! contained := match power_cords with
                    | Some (_, d) => ContainedElements_new c d (after r)
                    | None => Val None
                    end in
  let sku := oand_then contained (fun '(_, d) => read_bytes 1 d) in
  let? sku_number := match sku with
                     | Some (n, _) => Val (rmap Some (find_string r n))
                     | None => Val (Ok None)
                     end in
  Val (Ok {|
    enclosure_handle := handle r;
    enclosure_manufacturer := manufacturer;
    enclosure_chassis_lock := negb (N.land type_byte 0x80 =? 0);
    enclosure_enclosure_type := EnclosureType_from (N.land type_byte 0x7F);
    enclosure_version := version_;
    enclosure_serial_number := serial_number;
    enclosure_asset_tag_number := asset_tag_number;
    enclosure_boot_up_state := option_map (fun x => State_from (fst x)) boot_up_state;
    enclosure_power_supply_state := option_map (fun x => State_from (fst x)) power_supply_state;
    enclosure_thermal_state := option_map (fun x => State_from (fst x)) thermal_state;
    enclosure_security_status := option_map (fun x => SecurityStatus_from (fst x)) security_status;
    enclosure_oem_defined := option_map fst oem_defined;
    enclosure_height := option_map fst height;
    enclosure_power_cords_number := option_map fst power_cords;
    enclosure_contained_elements := option_map fst contained;
    enclosure_sku_number := sku_number
  |}).
