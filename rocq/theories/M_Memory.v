(* Model of the small fixed-size structures:
   /repo/src/structures/018_memory_error_32.rs, 019_memory_array_mapped_address.rs,
   020_memory_device_mapped_address.rs and 021_built_in_pointing_device.rs *)
From Coq Require Import String.
From Verif Require Import Base G_Enums M_Raw.
Local Open Scope N_scope.

(* 018_memory_error_32.rs:13-36 `struct MemoryError32` *)
Record MemoryError32 := {
  me_handle : N;
  me_error_type : MEErrorType;
  me_error_granularity : MEErrorGranularity;
  me_error_operation : MEErrorOperation;
  me_vendor_syndrome : N;
  me_memory_array_error_address : N;
  me_device_error_address : N;
  me_error_resolution : N
}.

(* 018_memory_error_32.rs:82-99 `MemoryError32::try_from` *)
Definition MemoryError32_try_from (c : cfg) (r : RawStructure) : out (res MemoryError32) :=
  if version_ge (version r) (version_of 2 1) && negb (length_ r =? 0x17) then
    Val (Err (InvalidFormattedSectionLength InfoType_MemoryError32 (handle r) EmptyString 0x17))
  else
    let? error_type := get c 1 0x04 r in
    let? error_granularity := get c 1 0x05 r in
    let? error_operation := get c 1 0x06 r in
    let? vendor_syndrome := get c 4 0x07 r in
    let? memory_array_error_address := get c 4 0x0B r in
    let? device_error_address := get c 4 0x0F r in
    let? error_resolution := get c 4 0x13 r in
    Val (Ok {|
      me_handle := handle r;
      me_error_type := MEErrorType_from error_type;
      me_error_granularity := MEErrorGranularity_from error_granularity;
      me_error_operation := MEErrorOperation_from error_operation;
      me_vendor_syndrome := vendor_syndrome;
      me_memory_array_error_address := memory_array_error_address;
      me_device_error_address := device_error_address;
      me_error_resolution := error_resolution
    |}).

(* 019_memory_array_mapped_address.rs:13-49 `struct MemoryArrayMappedAddress` *)
Record MemoryArrayMappedAddress := {
  ama_handle : N;
  ama_starting_address : N;
  ama_ending_address : N;
  ama_memory_array_handle : N;
  ama_partition_width : N;
  ama_extended_starting_address : option N;
  ama_extended_ending_address : option N
}.

(* 019_memory_array_mapped_address.rs:51-78 `MemoryArrayMappedAddress::try_from` *)
Definition MemoryArrayMappedAddress_try_from (c : cfg) (r : RawStructure) : out (res MemoryArrayMappedAddress) :=
  let v := version r in
  let bad n := Val (Err (InvalidFormattedSectionLength InfoType_MemoryArrayMappedAddress (handle r) EmptyString n)) in
  if (version_ge v (version_of 2 1) && version_lt v (version_of 2 7)) && negb (length_ r =? 0x0F) then bad 0x0F
  else if version_ge v (version_of 2 7) && negb (length_ r =? 0x1F) then bad 0x1F
  else
    let? starting_address := get c 4 0x04 r in
    let? ending_address := get c 4 0x08 r in
    let? memory_array_handle := get c 2 0x0C r in
    let? partition_width := get c 1 0x0E r in
    let! extended_starting_address := get_ok c 8 0x0F r in
    let! extended_ending_address := get_ok c 8 0x17 r in
    Val (Ok {|
      ama_handle := handle r;
      ama_starting_address := starting_address;
      ama_ending_address := ending_address;
      ama_memory_array_handle := memory_array_handle;
      ama_partition_width := partition_width;
      ama_extended_starting_address := extended_starting_address;
      ama_extended_ending_address := extended_ending_address
    |}).

(* 020_memory_device_mapped_address.rs:13-63 `struct MemoryDeviceMappedAddress` *)
Record MemoryDeviceMappedAddress := {
  dma_handle : N;
  dma_starting_address : N;
  dma_ending_address : N;
  dma_memory_device_handle : N;
  dma_memory_array_mapped_address_handle : N;
  dma_partition_row_position : N;
  dma_interleave_position : N;
  dma_interleaved_data_depth : N;
  dma_extended_starting_address : option N;
  dma_extended_ending_address : option N
}.

(* 020_memory_device_mapped_address.rs:65-95 `MemoryDeviceMappedAddress::try_from` *)
Definition MemoryDeviceMappedAddress_try_from (c : cfg) (r : RawStructure) : out (res MemoryDeviceMappedAddress) :=
  let v := version r in
  let bad n := Val (Err (InvalidFormattedSectionLength InfoType_MemoryDeviceMappedAddress (handle r) EmptyString n)) in
  if (version_ge v (version_of 2 1) && version_lt v (version_of 2 7)) && negb (length_ r =? 0x13) then bad 0x13
  else if version_ge v (version_of 2 7) && negb (length_ r =? 0x23) then bad 0x23
  else
    let? starting_address := get c 4 0x04 r in
    let? ending_address := get c 4 0x08 r in
    let? memory_device_handle := get c 2 0x0C r in
    let? memory_array_mapped_address_handle := get c 2 0x0E r in
    let? partition_row_position := get c 1 0x10 r in
    let? interleave_position := get c 1 0x11 r in
    let? interleaved_data_depth := get c 1 0x12 r in
    let! extended_starting_address := get_ok c 8 0x13 r in
    let! extended_ending_address := get_ok c 8 0x1B r in
    Val (Ok {|
      dma_handle := handle r;
      dma_starting_address := starting_address;
      dma_ending_address := ending_address;
      dma_memory_device_handle := memory_device_handle;
      dma_memory_array_mapped_address_handle := memory_array_mapped_address_handle;
      dma_partition_row_position := partition_row_position;
      dma_interleave_position := interleave_position;
      dma_interleaved_data_depth := interleaved_data_depth;
      dma_extended_starting_address := extended_starting_address;
      dma_extended_ending_address := extended_ending_address
    |}).

(* 021_built_in_pointing_device.rs:15-25 `struct BuiltInPointingDevice` *)
Record BuiltInPointingDevice := {
  pd_handle : N;
  pd_type : PointingDeviceType;
  pd_interface : PointingDeviceInterface;
  pd_number_of_buttons : N
}.

(* 021_built_in_pointing_device.rs:64-82 `BuiltInPointingDevice::try_from` *)
Definition BuiltInPointingDevice_try_from (c : cfg) (r : RawStructure) : out (res BuiltInPointingDevice) :=
  if version_ge (version r) (version_of 2 1) && negb (length_ r =? 0x07) then
    Val (Err (InvalidFormattedSectionLength InfoType_BuiltInPointingDevice (handle r) EmptyString 0x07))
  else
    let? type := get c 1 0x04 r in
    let? interface := get c 1 0x05 r in
    let? number_of_buttons := get c 1 0x06 r in
    Val (Ok {|
      pd_handle := handle r;
      pd_type := PointingDeviceType_from type;
      pd_interface := PointingDeviceInterface_from interface;
      pd_number_of_buttons := number_of_buttons
    |}).
