{"id": "C01", "title": "EntryPoint::search is total and memory safe", "statement": "EntryPoint::search returns Ok or Err for every byte buffer: it never panics and never reads a byte outside the buffer it was given.", "quantifier": "every byte buffer of any length, both overflow-checked and unchecked builds", "why_tests_cant": "There are infinitely many buffers; the function mixes unchecked pointer reads with length tests, and a test only visits the anchors it plants.", "anchors": ["src/lib.rs: EntryPoint::search, find_signature, let_as_struct!"]}
{"id": "C02", "title": "An accepted entry point is genuine", "statement": "If search returns Ok, the returned value was read at the first 16-byte-aligned anchor (_SM_ or _SM3_) of the buffer, its declared length is at least the size of the fixed layout and lies inside the buffer, its major version is at least 2, and the bytes of the declared length sum to 0 modulo 256.", "quantifier": "every byte buffer on which search succeeds", "why_tests_cant": "Soundness of acceptance ranges over all buffers; tests accept a few known-good dumps.", "anchors": ["src/lib.rs: EntryPoint::search, EntryPointV2, EntryPointV3"]}
{"id": "C03", "title": "NotFound means no anchor", "statement": "search returns NotFound exactly when no offset that is a multiple of 16 carries _SM_ or _SM3_ completely inside its own 16-byte paragraph of the buffer.", "quantifier": "every byte buffer", "why_tests_cant": "An iff over all buffers and all offsets.", "anchors": ["src/lib.rs: find_signature, EntryPoint::search"]}
{"id": "C04", "title": "Entry point errors name the defect", "statement": "When an anchor exists, search returns BadSize, TooOldVersion or BadChecksum exactly according to a fixed decision order (fixed layout does not fit; declared length too small; major version below 2; declared length versus remaining length; checksum), and the payload is the offending value.", "quantifier": "every byte buffer with an anchor", "why_tests_cant": "The decision table has overlapping conditions; tests check one representative of each row, not that the rows partition the input space.", "anchors": ["src/lib.rs: EntryPoint::search, InvalidEntryPointError"]}
{"id": "C05", "title": "Valid entry points are accepted (exact boundary)", "statement": "A valid entry point at the first anchor is accepted exactly when the number of bytes remaining from the anchor, modulo 256, is at least the declared length. The unconditional claim 'a valid entry point is always accepted, whatever follows it' is false of this code, because the remaining length is truncated to 8 bits before the comparison.", "quantifier": "every byte buffer whose first anchor starts a valid entry point", "why_tests_cant": "The failing residues depend on the total buffer length modulo 256; the fixtures all happen to be accepted.", "anchors": ["src/lib.rs: EntryPoint::search (sub_buffer.len() as u8)"]}
{"id": "C06", "title": "Search position: paragraphs before the anchor are irrelevant, paragraphs after a bad anchor are never tried", "statement": "Prepending any number of anchor-free 16-byte paragraphs does not change the result of search. If the first anchor is not a valid entry point, search fails even when a valid one follows.", "quantifier": "every byte buffer and every anchor-free prefix whose length is a multiple of 16", "why_tests_cant": "Ranges over all prefixes and suffixes.", "anchors": ["src/lib.rs: EntryPoint::search, find_signature"]}
{"id": "C07", "title": "Single byte corruption of an accepted entry point is detected", "statement": "If search accepts a buffer and one byte inside the declared length of the entry point is changed (other than in the anchor string and the length byte), search no longer returns Ok.", "quantifier": "every accepted buffer, every position inside the checksummed range, every replacement byte", "why_tests_cant": "255 replacements at every position of every valid entry point.", "anchors": ["src/lib.rs: EntryPoint::search"]}
{"id": "C08", "title": "Entry point accessors report the documented offsets", "statement": "After search succeeds, major, minor, revision, smbios_address, smbios_len, and to_version report the little-endian values stored at the offsets of the SMBIOS 2.x and 3.x entry point layouts.", "quantifier": "every accepted buffer, every accessor", "why_tests_cant": "Field offsets in packed structs are only exercised by a few dumps whose fields are mostly zero.", "anchors": ["src/lib.rs: EntryPoint accessors, EntryPointV2, EntryPointV3, SmbiosVersion"]}
{"id": "C09", "title": "Structure iteration is the inverse of the table encoding", "statement": "For every list of structures (type, handle, formatted bytes, string list) encoded one after another in the SMBIOS table format, iterating Structures over the encoded table yields exactly the decoded form of those structures, in order, and then None.", "quantifier": "every list of encodable structures, every trailing content of the buffer (260 bytes less than 4 GiB in all), every version", "why_tests_cant": "Round trip over all tables; tests iterate over four dumps.", "anchors": ["src/lib.rs: Structures::next, Structures::next_raw, RawStructure"]}
{"id": "C10", "title": "Framing soundness", "statement": "Every structure the iterator frames is a contiguous piece of the buffer: a 4-byte header, the formatted bytes up to the declared length, and a string area that ends at the first double NUL at or after the end of the formatted area; the next call starts right after it.", "quantifier": "every buffer of at most 4 GiB less 260 bytes, every iterator state, every framed structure (for larger buffers the claim is refuted)", "why_tests_cant": "Universal over buffers and positions.", "anchors": ["src/lib.rs: Structures::next_raw, find_nulnul"]}
{"id": "C11", "title": "Iteration terminates", "statement": "From every iterator state, repeatedly calling next either stops with a panic or reaches None after at most one call more than the number of remaining table bytes divided by six, plus one for an error; every structure consumes at least six bytes.", "quantifier": "every buffer of at most 4 GiB less 260 bytes (for larger ones the claim is refuted), version and declared table length", "why_tests_cant": "Absence of an endless loop on hostile tables cannot be tested.", "anchors": ["src/lib.rs: Structures::next, Structures::next_raw"]}
{"id": "C12", "title": "Framing errors end the iteration, decoding errors do not", "statement": "After next returns None it returns None forever. After a framing error (declared length runs past the table, or strings not terminated) the following call and all later ones return None. An error while decoding one structure's fields leaves the iterator exactly where a successful decode would have left it.", "quantifier": "every buffer of at most 4 GiB less 260 bytes, every iterator state, every number of further calls", "why_tests_cant": "Quantifies over all continuations.", "anchors": ["src/lib.rs: Structures::next"]}
{"id": "C13", "title": "End-of-table marker", "statement": "For SMBIOS 3.x tables the structure of type 127 is returned and is the last one returned; for 2.x tables iteration does not stop at it and goes on until the declared table length is used up.", "quantifier": "every buffer of at most 4 GiB less 260 bytes, version and position of the marker", "why_tests_cant": "Tests contain one trailing marker each.", "anchors": ["src/lib.rs: Structures::next"]}
{"id": "C14", "title": "When framing panics or reads out of bounds", "statement": "Framing one structure panics or reads outside the buffer exactly when the position is past the buffer, fewer than four bytes remain, the formatted area ends past the buffer but inside the declared table length, or the structure's declared length is below four (and its string area is terminated). In every other state it returns. A table whose declared length exceeds the supplied buffer, or that contains a length below four, can therefore crash the caller.", "quantifier": "every buffer of at most 4 GiB less 260 bytes, every iterator state, both build modes", "why_tests_cant": "The crash set is defined by inequalities between attacker-controlled values.", "anchors": ["src/lib.rs: Structures::next_raw, let_as_struct!"]}
{"id": "C15", "title": "Structures stay within the declared table length", "statement": "The header and the formatted area of every framed structure lie inside the declared table length. The string area is not bounded by it: the claim that nothing past the declared length is ever returned is false of this code.", "quantifier": "every buffer of at most 4 GiB less 260 bytes and every iterator state", "why_tests_cant": "Needs a universal statement and a witness.", "anchors": ["src/lib.rs: Structures::next_raw, find_nulnul"]}
{"id": "C16", "title": "Bytes after the table do not matter", "statement": "If the structures of a table end at or before the declared length, the iteration result does not depend on what follows the table in the buffer. More generally, for any buffer whose iteration ends without an unterminated-strings error, appending bytes changes nothing a caller sees.", "quantifier": "every encoded table, every two continuations of the buffer", "why_tests_cant": "Non-interference relates two executions.", "anchors": ["src/lib.rs: Structures::next_raw"]}
{"id": "C17", "title": "Structure type dispatch", "statement": "The type byte alone decides which variant is produced; types without a decoder are returned as raw structures whose formatted bytes, handle, length and strings are those in the buffer; distinct type bytes give distinct InfoType values.", "quantifier": "every type byte and every raw structure", "why_tests_cant": "Quantifies over all contents for each of 256 types.", "anchors": ["src/lib.rs: Structures::next, InfoType::from, Structure"]}
{"id": "C18", "title": "String lookup", "statement": "find_string(0) is the empty string; find_string(n) is the n-th string of the structure's string area; it fails with InvalidStringIndex carrying that type, handle and index exactly when there is no such string or it (or the terminator) is not there or is not UTF-8.", "quantifier": "every string area, every index", "why_tests_cant": "All string areas and all 256 indices.", "anchors": ["src/lib.rs: RawStructure::find_string, StructureStrings"]}
{"id": "C19", "title": "Returned text is valid UTF-8", "statement": "Every string returned from a structure is non-empty (except for index 0), contains no NUL, is a sub-sequence of the buffer, and is the UTF-8 encoding of a sequence of Unicode scalar values; conversely every such sequence is accepted.", "quantifier": "every string area and every string", "why_tests_cant": "The set of byte sequences is infinite and the boundary cases (overlong forms, surrogates) are many.", "anchors": ["src/lib.rs: StructureStrings::next, core::str::from_utf8"]}
{"id": "C20", "title": "strings() enumerates the string area", "statement": "For a string area built from a list of non-empty, NUL-free UTF-8 strings, strings() yields exactly that list and then None forever. With invalid UTF-8 inside the area the iterator returns None in the middle and then resumes: it is not fused.", "quantifier": "every list of strings; every string area", "why_tests_cant": "Round trip over all lists, plus a behaviour over call sequences.", "anchors": ["src/lib.rs: StructureStrings, RawStructure::strings"]}
{"id": "C21", "title": "Raw field access is bounds checked", "statement": "get::<T>(offset) returns the little-endian value of the bytes offset..offset+size of the structure (offsets counted from the header) exactly when offset is at least 4 and that range lies inside the formatted area, and InvalidSlice when it runs past it; offsets below 4, and offsets so large that the end leaves the range of usize, panic in overflow-checked builds and otherwise give InvalidSlice. It never reads outside.", "quantifier": "every structure, offset and integer width, both build modes, machines of 32 and 64 bits", "why_tests_cant": "All offsets up to 2^64 (2^32 on 32-bit machines) and all lengths.", "anchors": ["src/lib.rs: RawStructure::get, get_slice, TryFromBytes"]}
{"id": "C22", "title": "BIOS information decoding", "statement": "A type 0 structure with at least the bytes its version requires decodes to the fields at the SMBIOS offsets, with version-dependent fields present exactly from the version that introduces them; it fails only on an unresolvable string.", "quantifier": "every version, formatted area and string area", "why_tests_cant": "All field values and versions.", "anchors": ["src/structures/000_bios.rs: Bios::try_from"]}
{"id": "C23", "title": "BIOS ROM size conversion", "statement": "Converting RomSize to u64 gives (basic+1)*64 KiB when basic is not FFh and otherwise the extended size in MiB or GiB; it panics exactly when basic is FFh and the extended size is missing or uses a reserved unit, which firmware data can trigger.", "quantifier": "every basic and extended value", "why_tests_cant": "2^24 inputs and the panic set must be exact.", "anchors": ["src/structures/000_bios.rs: From<RomSize> for u64"]}
{"id": "C24", "title": "System information decoding", "statement": "A type 1 structure decodes to the fields at the SMBIOS offsets; the UUID is byte-for-byte before 2.6 and has its first three fields byte-swapped from 2.6 on; uuid, wake-up type, SKU and family appear exactly from 2.1 and 2.4.", "quantifier": "every version, formatted area and string area", "why_tests_cant": "All UUIDs and versions.", "anchors": ["src/structures/001_system.rs: System::try_from"]}
{"id": "C25", "title": "Baseboard decoding", "statement": "A type 2 structure whose formatted area has at least 10 bytes decodes to the fields at the SMBIOS offsets.", "quantifier": "every formatted area of 10 bytes or more and every string area", "why_tests_cant": "All contents.", "anchors": ["src/structures/002_baseboard.rs: BaseBoard::try_from"]}
{"id": "C26", "title": "Enclosure decoding", "statement": "A type 3 structure decodes to the fields at the SMBIOS offsets, trailing fields present exactly as far as the formatted area reaches (with the contained-element list taking count times record-length bytes before the SKU).", "quantifier": "every formatted area, every element count and record length, every string area", "why_tests_cant": "Variable-length records.", "anchors": ["src/structures/003_enclosure.rs: Enclosure::try_from, ContainedElements::new, read_bytes"]}
{"id": "C27", "title": "Processor decoding", "statement": "A type 4 structure with at least the bytes its version requires decodes to the fields at the SMBIOS offsets, fields being present from the version that introduces them (except characteristics at 2.5, which the code drops); from 2.6 the family FEh is replaced by the 16-bit family, and from 3.0 counts of FFh are replaced by the 16-bit counts.", "quantifier": "every version, formatted area and string area", "why_tests_cant": "Six layouts and substitution rules over all values.", "anchors": ["src/structures/004_processor.rs: Processor::try_from"]}
{"id": "C28", "title": "Cache decoding", "statement": "A type 7 structure with enough bytes decodes to the fields at the SMBIOS offsets; the code reads the 2.1 fields only from 2.2 on and the 3.1 fields only from 3.2 on, and panics for version 2.0, contrary to the specification.", "quantifier": "every version, formatted area and string area", "why_tests_cant": "Version boundaries and the panic set.", "anchors": ["src/structures/007_cache.rs: Cache::try_from"]}
{"id": "C29", "title": "Port connector decoding", "statement": "A type 8 structure with at least 5 formatted bytes decodes to the fields at the SMBIOS offsets.", "quantifier": "every formatted area of at least 5 bytes and every string area", "why_tests_cant": "All contents.", "anchors": ["src/structures/008_port_connector.rs: PortConnector::try_from"]}
{"id": "C30", "title": "System slot decoding", "statement": "A type 9 structure is accepted only with the length its version demands and decodes to the fields at the SMBIOS offsets, with the fields after the peer group list displaced by five bytes per peer; no length or peer count makes it panic or read out of bounds.", "quantifier": "every version, formatted area, peer count and string area", "why_tests_cant": "Data-dependent offsets.", "anchors": ["src/structures/009_system_slots.rs: SystemSlots::try_from, PeerDevices"]}
{"id": "C31", "title": "OEM strings and system configuration options", "statement": "OEM strings decoding always succeeds and exposes the string area; configuration options decoding succeeds exactly when the declared count equals the number of strings and reports InvalidStringIndex with the count otherwise.", "quantifier": "every formatted area and string area", "why_tests_cant": "All counts and areas.", "anchors": ["src/structures/011_oem_strings.rs: OemStrings::try_from", "src/structures/012_system_configuration_options.rs: SystemConfigurationOptions::try_from"]}
{"id": "C32", "title": "BIOS language decoding and enumeration", "statement": "A type 13 structure with enough bytes decodes to the fields at the SMBIOS offsets, and its installable languages iterator yields the strings of the area in order; with fewer than 254 strings the first pass ends, but the 8-bit counter keeps growing, so repeated calls of next overflow it (panic in checked builds, restart in unchecked builds).", "quantifier": "every formatted area, string area and number of calls, both build modes", "why_tests_cant": "Quantifies over call sequences of any length.", "anchors": ["src/structures/013_bios_language.rs: BiosLanguage::try_from, InstallableLanguages::next"]}
{"id": "C33", "title": "Group associations decoding", "statement": "A type 14 structure decodes to its name and the list of (type, handle) items in order, ignoring a trailing partial item; a declared length of 4 panics in overflow-checked builds.", "quantifier": "every length, item list and string area, both build modes", "why_tests_cant": "Item lists of any length.", "anchors": ["src/structures/014_group_associations.rs: GroupAssociations::try_from, GroupItems::next"]}
{"id": "C34", "title": "System event log decoding", "statement": "A type 15 structure is accepted only with the length its version demands; its descriptors are the two-byte records at offset 17h when the descriptor length is 2; the decoder panics exactly when the descriptor length is zero with a matching structure length.", "quantifier": "every version, formatted area, count and descriptor length", "why_tests_cant": "Products of two attacker-controlled bytes.", "anchors": ["src/structures/015_system_event_log/mod.rs: SystemEventLog::try_from, TypeDescriptors"]}
{"id": "C35", "title": "Event log access method", "statement": "Decoding an access method and asking for its address gives back the stored address with the bits the method does not use cleared.", "quantifier": "every method byte and 32-bit address", "why_tests_cant": "2^40 inputs.", "anchors": ["src/structures/015_system_event_log/mod.rs: AccessMethod::new, AccessMethod::address"]}
{"id": "C36", "title": "Event log code conversions round trip", "statement": "Converting a byte to EventLogType or VariableDataFormatType and back gives the same byte, so no code is lost; descriptors round trip through two bytes.", "quantifier": "every byte and pair of bytes", "why_tests_cant": "Range patterns with gaps.", "anchors": ["src/structures/015_system_event_log/log_record_format.rs: EventLogType, VariableDataFormatType"]}
{"id": "C37", "title": "Physical memory array decoding", "statement": "For versions after 2.1 a type 16 structure with enough bytes decodes to the fields at the SMBIOS offsets; shorter areas panic; at exactly 2.1 the decoder ignores the data and returns default values with handle 0; the extended capacity is read only after 2.7.", "quantifier": "every version and formatted area", "why_tests_cant": "Version boundaries and panic set.", "anchors": ["src/structures/016_physical_memory_array.rs: PhysicalMemoryArray::try_from"]}
{"id": "C38", "title": "Memory device decoding", "statement": "A type 17 structure decodes to the fields at the SMBIOS offsets without ever panicking; every structure shorter than 20h bytes is rejected, although lengths 15h to 1Fh are legal for versions 2.1 to 2.7.", "quantifier": "every version, formatted area and string area", "why_tests_cant": "All lengths and contents.", "anchors": ["src/structures/017_memory_device.rs: MemoryDevice::try_from"]}
{"id": "C39", "title": "Memory error, mapped address and pointing device decoding", "statement": "Types 18, 19, 20 and 21 are accepted exactly with the lengths their version demands, decode to the fields at the SMBIOS offsets and never panic or read out of bounds.", "quantifier": "every version and formatted area", "why_tests_cant": "All lengths, versions and contents.", "anchors": ["src/structures/018_memory_error_32.rs", "src/structures/019_memory_array_mapped_address.rs", "src/structures/020_memory_device_mapped_address.rs", "src/structures/021_built_in_pointing_device.rs"]}
{"id": "C40", "title": "Portable battery decoding", "statement": "A type 22 structure is accepted exactly with the lengths its version demands, decodes to the fields at the SMBIOS offsets (falling back to the Smart Battery fields when the string number is zero or unresolvable) and never panics.", "quantifier": "every version, formatted area and string area", "why_tests_cant": "All contents and fallbacks.", "anchors": ["src/structures/022_portable_battery.rs: PortableBattery::try_from"]}
{"id": "C41", "title": "Battery derived values", "statement": "The manufacture date packs to the original 16-bit word and its day and month stay in range; the design capacity conversion equals value times multiplier exactly when that product is below 65536, and panics or wraps otherwise.", "quantifier": "every 16-bit date word; every value and multiplier; both build modes", "why_tests_cant": "2^24 products; overflow boundary.", "anchors": ["src/structures/022_portable_battery.rs: ManufactureDate::new, From<DesignCapacity> for u64"]}
{"id": "C42", "title": "Packed structure reads over-run short structures", "statement": "Decoders that overlay a packed layout (types 0, 1, 2, 4, 7, 8, 13 and contained elements) read only the formatted area exactly when it is at least as long as the layout selected by the version; a shorter formatted area makes them read past it, where with a strict memory model the behaviour is undefined and with a flat one string bytes are taken as field values.", "quantifier": "every version and formatted area length", "why_tests_cant": "All lengths below the layout size for each of the layouts.", "anchors": ["src/lib.rs: let_as_struct!", "src/structures/000_bios.rs", "src/structures/002_baseboard.rs", "src/structures/004_processor.rs", "src/structures/007_cache.rs", "src/structures/008_port_connector.rs", "src/structures/013_bios_language.rs"]}
{"id": "C43", "title": "Decoders that cannot crash", "statement": "Decoding a structure of type 9, 11, 12, 17, 18, 19, 20, 21 or 22 returns Ok or Err for every content: no panic and no out-of-bounds read.", "quantifier": "every version, formatted area and string area, both build modes", "why_tests_cant": "Universal absence of panics.", "anchors": ["src/lib.rs: RawStructure::get, get_slice, get_string"]}
{"id": "C44", "title": "Whole-table safety", "statement": "Iterating a table in which every structure has at least the length its type and version demand (and avoids the listed panic cases) never panics and never reads outside the formatted areas.", "quantifier": "every such table of any number of structures (at most 4 GiB less 260 bytes), every version from 2.1; every buffer of that size", "why_tests_cant": "Composition over unbounded tables.", "anchors": ["src/lib.rs: Structures::next"]}
{"id": "C45", "title": "Bit field enumeration", "statement": "BitField::iter yields every bit position exactly once, in order, each flag telling whether that bit of the value is set and carrying the layout entry of that position; it never indexes outside the layout.", "quantifier": "every value and every layout covering the width", "why_tests_cant": "2^64 values.", "anchors": ["src/bitfield.rs: Iter::next, BitField::iter"]}
{"id": "C46", "title": "Bit field round trip", "statement": "Collecting the positions of the set flags of a value gives the value back; collecting any list of positions below the width sets exactly those bits; a position at or above the width panics (checked) or wraps (unchecked).", "quantifier": "every value and every list of positions", "why_tests_cant": "All subsets of up to 128 bits and lists of any length.", "anchors": ["src/bitfield.rs: FromIterator<Position>"]}
{"id": "C47", "title": "Significant flags", "statement": "significants() yields exactly the set bits whose layout entry is not reserved, in ascending order.", "quantifier": "every value and layout", "why_tests_cant": "All values and layouts.", "anchors": ["src/bitfield.rs: Significants::next"]}
{"id": "C48", "title": "Reserved ranges", "statement": "reserved() yields the maximal runs of equally described reserved bits, in order, for every layout in which no run of length one directly follows another reserved run; without that condition the reported range end is wrong. All layouts shipped in the crate meet the condition.", "quantifier": "every layout", "why_tests_cant": "All layouts.", "anchors": ["src/bitfield.rs: Reserved::next", "src/bitfield.rs: layout! (used throughout src/structures)"]}
{"id": "C49", "title": "Enumerated codes lose no information", "statement": "Decoding an enumerated code byte (or word) is total, gives the value the SMBIOS table names for it, keeps every other code verbatim in Undefined, and maps distinct codes to distinct values, for every enumeration, with exactly these exceptions: slot types 1Fh/20h/24h/25h (U.2 slots, for which the enumeration has names that are never produced) share their value with ABh/B1h/B8h/BEh, memory form factors 00h-08h are shifted by one so that 08h and 09h coincide, memory types 15h-17h share Reserved, and the PC-98/CXL memory array locations are looked for at 0Bh-0Fh instead of A0h-A4h.", "quantifier": "every code value of every enumeration", "why_tests_cant": "Every pair of codes for some forty enumerations, including 16-bit ones.", "anchors": ["src/structures/*.rs: From<u8>, From<u16> impls of the enumerations", "src/lib.rs: InfoType"]}
{"id": "C50", "title": "Packed sub-byte fields", "statement": "Cache configuration and sizes, processor voltage, enclosure type and lock, PCI device/function numbers and slot peer devices split their bits without loss: the fields determine the original byte or word except for documented reserved bits.", "quantifier": "every byte or word", "why_tests_cant": "All words; overlapping masks.", "anchors": ["src/structures/007_cache.rs: CacheConfiguration, CacheSize, CacheSize2", "src/structures/004_processor.rs: Voltage", "src/structures/009_system_slots.rs: DeviceAndFunctionNumber, Device", "src/structures/003_enclosure.rs"]}
{"id": "C51", "title": "Version ordering", "statement": "SmbiosVersion comparison is the lexicographic total order on (major, minor), which is what every version gate relies on.", "quantifier": "every pair and triple of versions", "why_tests_cant": "All pairs.", "anchors": ["src/lib.rs: SmbiosVersion"]}
{"id": "C52", "title": "Layout tables expand as written", "statement": "The description table built by a layout! invocation holds its items in the order written (a reserved item repeated as often as it says, a short text used as both meaning and description) and the Unknown entry in every remaining position up to the announced length.", "quantifier": "every sequence of items and every announced length", "why_tests_cant": "The macro is recursive over item lists of any length and writes the tail before the head.", "anchors": ["src/bitfield.rs: layout!"]}
{"id": "C53", "title": "Displayed names identify codes", "statement": "The text an enumeration displays identifies the code it was decoded from: different codes show different texts, in the plain and in the alternate form, and a code without a name is shown as its decimal numeral. For slot types, where some codes are decoded to the same value, the text identifies the value. For event log types and log header formats only the alternate form identifies the code.", "quantifier": "every pair of byte codes (16-bit codes for processor families), both display forms", "why_tests_cant": "A collision can hide in any pair of codes.", "anchors": ["src/structures/*.rs: impl fmt::Display of the enumerations"]}
{"id": "C54", "title": "Revision text", "statement": "A BIOS or firmware revision is shown as N/A exactly when both bytes are FFh, otherwise as major.minor in decimal, so the text identifies the two bytes.", "quantifier": "every pair of bytes", "why_tests_cant": "All 65536 pairs, including FFh in one byte only.", "anchors": ["src/structures/000_bios.rs: BiosRevision, FirmwareRevision"]}
{"id": "C55", "title": "Date, serial number and device texts", "statement": "A packed manufacture date is shown as YYYY-MM-DD with exactly four, two and two digits, a packed serial number as 0x and hexadecimal digits, a peer device as ssss:bb:dd.f (Width w); each text identifies the stored bytes.", "quantifier": "every 16-bit word, every 5-byte record", "why_tests_cant": "Padding and separators must keep all values apart.", "anchors": ["src/structures/022_portable_battery.rs: ManufactureDate, SerialNumber", "src/structures/009_system_slots.rs: Device"]}
{"id": "C56", "title": "Fixed point texts are exact", "statement": "Voltages and slot pitches, shown through a 32-bit floating point division, display exactly the stored number divided by ten: the text is the IEEE-754 binary32 quotient rounded to one decimal, and although the quotient is inexact the text is exact. (The pitch is documented in 1/100 mm, so the text is ten times too large, and the legacy 5V bit is shown as 5.5V: refuted.)", "quantifier": "every byte and every 16-bit word", "why_tests_cant": "Rounding of the quotient and of the text could combine badly for a single word.", "anchors": ["src/structures/004_processor.rs: Voltage", "src/structures/009_system_slots.rs: SlotPitch"]}
{"id": "C57", "title": "Error messages identify the error", "statement": "Two different errors never display the same message: the text identifies the kind of error, the structure type, handle, offset, index and length in it.", "quantifier": "every pair of errors with values in the range of their types", "why_tests_cant": "Messages are concatenations of numbers and texts that could run together.", "anchors": ["src/lib.rs: InvalidEntryPointError, MalformedStructureError"]}
{"id": "C58", "title": "Event log texts identify their values", "statement": "The 32-bit code of a system management event is recovered from the decoded value and from its text; the alternate texts of variable data formats and access methods identify the value.", "quantifier": "every 32-bit code, every value", "why_tests_cant": "2^32 codes in overlapping ranges.", "anchors": ["src/structures/015_system_event_log/log_record_format.rs", "src/structures/015_system_event_log/mod.rs: AccessMethod"]}
{"id": "C59", "title": "Equality and hashing of lazy lists obey their contracts", "statement": "On peer device lists, event log descriptor lists and contained element lists, == is an equivalence relation, equal values hash alike and different values feed different data to the hasher; peer lists are equal exactly when they yield the same devices, and equal descriptor or element lists yield the same items (element records of fewer than three bytes excepted).", "quantifier": "every pair or triple of values, every partially consumed list", "why_tests_cant": "Relates unboundedly many pairs of byte lists and their iteration.", "anchors": ["src/structures/009_system_slots.rs: PeerDevices", "src/structures/015_system_event_log/mod.rs: SupportedEventLogTypeDescriptors", "src/structures/003_enclosure.rs: ContainedElements"]}
{"id": "C60", "title": "Decoding errors are accurate", "statement": "An error reported for a structure names that structure's type and handle; a string number it complains about has no string, and a length it demands is not the length of the structure. Iteration errors belong to the structure at the iterator's position. (Four messages break this and are exhibited.)", "quantifier": "every structure, table and position", "why_tests_cant": "Every decoder builds its own error values, for unboundedly many malformed structures.", "anchors": ["src/lib.rs: MalformedStructureError", "src/structures/*.rs: try_from"]}
{"id": "C61", "title": "From entry point to structures, end to end", "statement": "Encode an entry point (2.x or 3.x layout, checksums computed) for a version and table length, put it behind any anchor-free paragraphs, and encode a list of structures as the table: search finds the entry point and reports what was encoded, and iterating the table it announces yields exactly the decoded structures. From 3.0 on the announced length may exceed the table if an End structure stops the reader. (Bytes behind the entry point must not bring its distance to the end of the buffer, modulo 256, below its length: C05.)", "quantifier": "every version, table length, address, list of structures, surrounding bytes", "why_tests_cant": "Composes search, checksum, version, length and framing over unboundedly many inputs.", "anchors": ["src/lib.rs: EntryPoint::search, EntryPoint::structures, Structures::next"]}
{"id": "C62", "title": "Builds agree", "statement": "Whatever a build with overflow checks returns without panicking, a build without them returns too; whatever is returned without reading past a structure does not depend on whether such reads are tolerated. This holds for decoders, whole iterations and all derived values; the converse fails.", "quantifier": "every structure, buffer, iterator state and value; every pair of builds", "why_tests_cant": "A test run exercises one build; the claim compares all builds on all inputs.", "anchors": ["src/lib.rs", "src/structures/*.rs", "src/bitfield.rs"]}
{"id": "C63", "title": "Damage stays local", "statement": "Replacing one structure of a table by another of the same size - in particular changing any bytes of its formatted area behind the header - changes that structure's item and nothing else a caller sees: the items before and after it and the way the iteration ends stay the same, unless decoding the new structure crashes. (Where reads past a structure are tolerated, a short structure can show bytes of its neighbour; exhibited.)", "quantifier": "every table, well formed elsewhere or not, every structure in it, every replacement", "why_tests_cant": "Quantifies over all tables and all ways to corrupt one structure.", "anchors": ["src/lib.rs: Structures::next, Structures::next_raw", "src/structures/*.rs: try_from"]}
{"id": "C64", "title": "Position independence and concatenation of tables", "statement": "Putting bytes in front of a table and starting behind them yields the same items, except that the positions named in framing errors move along. Two tables one after the other, the first read to its last byte, yield the items of the first and then those of the second (from version 3 on only if the first has no End structure).", "quantifier": "every table, prefix, and pair of tables", "why_tests_cant": "Relates iterations over unboundedly many buffers.", "anchors": ["src/lib.rs: Structures::next, Structures::next_raw, EntryPoint::structures"]}
{"id": "C65", "title": "A shorter announced length yields a prefix", "statement": "With a smaller announced table length the items are a prefix of those with the larger length, followed at most by one BadSize error for the structure that is cut, and the iteration crashes only where it crashes with the larger length as well. Exactly: the item of a structure is kept if its formatted area ends before the smaller length, even if its strings do not; if only the header fits, the next item is BadSize with the position and length of that structure, and nothing follows; if not even the header fits, the items end with the one before.", "quantifier": "every buffer and every pair of announced lengths", "why_tests_cant": "Quantifies over all buffers and lengths.", "anchors": ["src/lib.rs: Structures::next, Structures::next_raw, EntryPoint::smbios_len"]}
{"id": "C66", "title": "Newer versions only add", "statement": "When the same bytes are decoded in tables that announce an older and a newer SMBIOS version, every field the older version shows is there in the newer version with the same value; the only exceptions are the UUID byte order (2.6), processor family FEh (2.6), core and thread counts of 255 (3.0), the current BIOS language before 2.1 and memory arrays before 2.2. Where the table is cut into structures does not depend on the version.", "quantifier": "every structure, every pair of versions, every table, every build", "why_tests_cant": "Relates two decodings for every byte string and all pairs of versions, not single ones.", "anchors": ["src/lib.rs: Structures::next, Structures::next_raw, SmbiosVersion", "src/structures/*.rs: try_from"]}
{"id": "C67", "title": "Lists inside structures end and stay ended", "statement": "The iterators over group items, peer devices and contained elements yield as many items as there are records left. Once one of these iterators, or one over event log descriptors or bit field flags (all, significant, reserved), has answered None, it answers None on every later call.", "quantifier": "every state of the iterator, including partly consumed ones (event log descriptors: every state that iterating a decoded log reaches), and every build", "why_tests_cant": "Concerns every reachable iterator state and every later call.", "anchors": ["src/structures/014_group_associations.rs: GroupItems", "src/structures/009_system_slots.rs: PeerDevices", "src/structures/003_enclosure.rs: ContainedElements", "src/structures/015_system_event_log/mod.rs: SupportedEventLogTypeDescriptors", "src/bitfield.rs: Iter, Significants, Reserved"]}
{"id": "C68", "title": "Conversions from byte slices and the element counter", "statement": "Device::from, PeerDevices::from and ContainedElement::from accept any byte slice: with at least 5 (resp. 3) bytes they show what the bytes say, and exactly with fewer they read memory outside the slice. ContainedElements::count answers the number the structure announces, does not change while elements are taken, and equals the number of elements exactly when the records have a length and together fit into 255 bytes.", "quantifier": "every byte slice; every decoded enclosure, iteration state and build", "why_tests_cant": "The boundary lengths and the arithmetic of count times length range over all slices and all byte pairs; an over-read is invisible to a test.", "anchors": ["src/structures/009_system_slots.rs: From<&[u8]> for Device, PeerDevices", "src/structures/003_enclosure.rs: From<&[u8]> for ContainedElement, ContainedElements::count"]}
{"id": "C69", "title": "Handles and texts come from the structure itself", "statement": "Every decoded structure of every type carries the handle in its own header, every text in every field is empty or one of the strings stored after the same structure (its bytes are a contiguous part of that string area), and the lazily read strings are those of the same structure. The exception is memory arrays before version 2.2, which all get handle 0.", "quantifier": "every build and memory behaviour, structure type, version, structure and buffer; every field holding a text", "why_tests_cant": "A text or handle taken from a neighbouring structure, or cut short, shows only for particular layouts; the claim covers all types, string areas and positions.", "anchors": ["src/lib.rs: RawStructure::find_string, get_string, strings", "src/lib.rs: Structures::next"]}
{"id": "C70", "title": "A table written from values is read back exactly", "statement": "Take any list of structures of any types, each given by the values of its fields, and write it out as the SMBIOS tables lay it down for the version in use: numbers little endian, texts as string numbers, version dependent parts only from their version on, record lists after their counts, strings after the formatted area. Iterating over that table yields exactly those structures, in order, with every field having the value that was written, and then ends, in every build and whatever bytes follow the table. Hence no table can be read as two different lists of structures.", "quantifier": "every SMBIOS version, every list of structures of all 20 decoded types and of any other type, all field values, texts, record lists and string lists that fit, all bytes after the table, every build and memory behaviour", "why_tests_cant": "Each field of each type has all its values, texts may be anything and be missing, versions switch parts on and off, and one wrong offset or width may show only when neighbouring fields differ.", "anchors": ["src/lib.rs: Structures::next, Structures::next_raw, EntryPoint::structures", "src/lib.rs: RawStructure::get, get_string, find_string", "src/structures/*.rs: try_from of every structure type"]}
{"id": "C71", "title": "The documented ways of use work end to end", "statement": "The two programs the crate documents - reading the entry point file and the table file that Linux offers, and reading a memory dump whose entry point says where the table is - return exactly the structures, field value by field value, that were written into the files, whatever paragraphs come before the entry point and whatever bytes lie between and after. For an arbitrary dump, opening it passes on the error of search, panics exactly when the announced address lies behind the end of the dump, and never reads out of bounds; and if the announced table lies inside the buffer and every structure in it is as long as its type and version demand, the program runs to the end without panic or out-of-bounds read. On a machine of 64 bits, and for 32-bit entry points on every machine, the table is looked for at the announced address; on a machine of 32 bits a longer address is cut, so that other bytes are taken for the table.", "quantifier": "every list of structure values of all types, every SMBIOS version and entry point kind, every prefix without an anchor, every gap and trailing bytes; for safety, every buffer below 4 GiB", "why_tests_cant": "Tests open four fixed dumps; the claim ranges over all contents, positions and lengths, and combines the search, the address arithmetic, the framing and all decoders.", "anchors": ["README.md: EntryPoint::search, structures", "src/lib.rs: EntryPoint::structures, EntryPoint::search, smbios_address", "src/lib.rs: Structures::next"]}
{"id": "C72", "title": "Equality and hashing of whole structures go by what was decoded", "statement": "Two decoded structures compare equal exactly when they are of the same type and every field has the same value (lists: the same records; event log descriptors that hold at most one piece may be announced with different piece sizes). == is an equivalence relation, equal structures make the same calls to a hasher and different ones different calls, so structures can be keys of a map or a set. Entry points, iterators, versions, structure types, strings and the records of lists are equal exactly when they are the same value. The same bytes at different places, in different tables of the same version, decode to equal structures - except where reads past a structure are tolerated.", "quantifier": "every pair of structures of all types, every pair of entry points, iterators, versions, types and records; for copies, every two tables below 4 GiB and every two positions in them", "why_tests_cant": "The derived code must compare and hash every field of every type in the same order, and the hand-written impls inside must fit in; a missed field shows only for values that differ in it alone.", "anchors": ["src/lib.rs: Structure, RawStructure, EntryPoint, Structures, SmbiosVersion, InfoType (derive)", "src/structures/*.rs: derive(Eq, Hash, PartialEq)", "src/structures/003_enclosure.rs: ContainedElements", "src/structures/009_system_slots.rs: PeerDevices", "src/structures/015_system_event_log/mod.rs: EventLogTypeDescriptors"]}
{"id": "C73", "title": "What a decoded structure tells about the bytes it came from", "statement": "For structures written as the standard says (reserved flag bits are zero): two of them decode to equal values exactly when they have the same type, handle, further strings and visible fields. Of twelve types (BIOS, system, enclosure, port connector, OEM strings, configuration options, BIOS language, group associations, memory error, array and device mapped address, pointing device) every field is visible, so nothing that was written is lost; the same holds for every type that is not decoded, byte for byte. Of the other eight exactly these things are lost: contained objects of a base board; of a processor the smaller or larger of two numbers and its characteristics in version 2.5; unused configuration bits of a cache, its speed, error correction, type and associativity in version 2.1 and its second sizes in version 3.1; the byte behind the peer devices of a slot; unused address bits of an event log and the size of descriptors of which there are none; an extended capacity of a memory array that is not referred to or is of version 2.7; Smart Battery fields beside the other ones; and which of two or three numbers with the same name a slot type, form factor or memory type was.", "quantifier": "all versions, all pairs of structures of all types and all field values that can be written, all memory behind them", "why_tests_cant": "A test compares a few structures; that no two different structures are ever confused, apart from the listed fields, ranges over all pairs of all field values.", "anchors": ["src/lib.rs: Structure, Structures::next", "src/structures/*.rs: the structure types and TryFrom<RawStructure>", "src/structures/002_baseboard.rs", "src/structures/004_processor.rs", "src/structures/007_cache.rs", "src/structures/015_system_event_log/mod.rs", "src/structures/022_portable_battery.rs"]}
{"id": "C74", "title": "Flags carry the names the standard gives their bits", "statement": "Iterating a flag word of the crate (BIOS characteristics and its two extension bytes, slot characteristics 1 and 2, BIOS language flags, event log status, POST results) yields for every bit k one flag that tells whether bit k is set and carries the name, or the note on reserved bits, that the SMBIOS standard gives bit k of that word, in the short and the long form. For a decoded structure, bit k is the bit of the number at the offset of that word.", "quantifier": "all values of all eight flag words, all bits, all structures of the four types that have such words", "why_tests_cant": "2^64 values of a word and all contents of a structure; a test looks at a few values.", "anchors": ["src/bitfield.rs: layout!, BitField, Iter", "src/structures/000_bios.rs: impl BitField for Characteristics, CharacteristicsExtension1, CharacteristicsExtension2", "src/structures/009_system_slots.rs: impl BitField for SlotCharacteristics1, SlotCharacteristics2", "src/structures/013_bios_language.rs: impl BitField for LanguageFlags", "src/structures/015_system_event_log/mod.rs: impl BitField for LogStatus", "src/structures/015_system_event_log/log_record_format.rs: impl BitField for PostResults"]}
{"id": "C75", "title": "The text shown for a code is the name the standard gives it", "statement": "Displaying an enumeration decoded from a code (structure, board, enclosure, processor, cache, port, slot, event log, memory, error, pointing device and battery codes, system management types, legacy voltages), plainly or in the alternate form, shows the name that the SMBIOS standard's table gives that code, and for a code without a name the wording for such codes with the code itself as a numeral. The codes for which the text is something else are exactly: processor families 18h, 19h, 1Ah, 1Dh and 30h (footnote marks), port type 12h (PCMCIA Type I2), slot types 1Fh, 20h, 24h and 25h (U.2 not mentioned), memory array locations 0Bh-0Fh and A0h-A4h, cache mode 2 (Values instead of Varies), event log type 05h in the plain form (channel block), legacy voltages with bit 0 set (5.5V). A contained element, an access method and an error message likewise consist of fixed words, the name of the type concerned, and the numbers in decimal or hexadecimal.", "quantifier": "all codes of all enumerations with a display (8, 16 or 32 bits wide), both forms, all access methods and addresses, all errors", "why_tests_cant": "Every code of every enumeration, up to 2^32 system management types and 2^40 access methods, must be right; tests look at the few that occur in sample dumps.", "anchors": ["src/lib.rs: Display for InfoType, InvalidEntryPointError, MalformedStructureError", "src/structures/002_baseboard.rs: Display for BoardType", "src/structures/003_enclosure.rs: Display", "src/structures/004_processor.rs: Display for ProcessorFamily, ProcessorUpgrade, Voltage", "src/structures/007_cache.rs: Display", "src/structures/008_port_connector.rs: Display", "src/structures/009_system_slots.rs: Display", "src/structures/015_system_event_log/mod.rs: Display for AccessMethod, LogHeaderFormat", "src/structures/015_system_event_log/log_record_format.rs: Display", "src/structures/016_physical_memory_array.rs: Display", "src/structures/018_memory_error_32.rs: Display", "src/structures/021_built_in_pointing_device.rs: Display", "src/structures/022_portable_battery.rs: Display for DeviceChemistry"]}
{"id": "C76", "title": "Flags mean the bits the standard gives them", "statement": "For the baseboard features, the legacy processor voltages, the processor characteristics, the SRAM types of a cache, and the type details and operating modes of a memory device, asking a decoded value whether it contains (or intersects) a named flag answers whether the bit that the SMBIOS standard gives that flag is set in the bytes decoded, for every flag and word, and listing the names gives those of the set bits, lowest first; bits without a flag are dropped. The flags are empty, or all, exactly if none, or each, of the bits that have a flag is set, and converting a word without dropping bits succeeds exactly if it has no others. The status of a processor is a code: its socket flag is bit 6, and the bits of CPU_OTHER equal a constant exactly if bits 2:0 are that constant's code. Not so: asking whether a status contains a flag tells the code; listing names ever gives CPU_DISABLED_BY_BIOS or CPU_OTHER; RESERVED of a memory device tells anything; bit 8 of the characteristics is reported.", "quantifier": "all words of all seven flag types; all structures decoded; all flags", "why_tests_cant": "Each of 2^16 words must answer right for every flag; tests look at the words in sample dumps, and overlapping constants only show for particular codes.", "anchors": ["src/structures/002_baseboard.rs: BaseBoardFlags", "src/structures/004_processor.rs: ProcessorStatus, ProcessorCharacteristics, VoltageLegacy", "src/structures/007_cache.rs: CacheSramType", "src/structures/017_memory_device.rs: Detail, OperatingModes"]}
{"id": "C77", "title": "Which values of an enumeration come out of a table", "statement": "For each enumeration, the values that are decoded from some code are exactly: every value the enumeration names, and its value for codes without a name (Undefined, Available, NotUsed, Reserved, Unused, OemSpecific, Oem) carrying a code in its range that has no name; so no named value is dead and no code with a name ever appears as an unnamed one. The exceptions are exactly the four U.2 slot types and the processor family AvailableForAssignment, which never come out. A variable data format from an event log descriptor never carries data. Of the values with parts (voltages, cache sizes, contained element types, access methods, and the dates, serial numbers, capacities and chemistries of batteries) exactly those come out whose numbers have room in their part of the stored byte or word; so a packed battery date need not be a date: months 0 and 13 to 15 and day 0 come out.", "quantifier": "all values of all 39 enumerations and nine types with parts, all codes of 2 to 32 bits", "why_tests_cant": "That a value is never produced, and that an unnamed code never hides a named one, are statements about all codes; tests show single codes.", "anchors": ["src/lib.rs: From<u8> for InfoType", "src/structures: From<u8>/From<u16>/From<u32> of all enumerations", "src/structures/022_portable_battery.rs: ManufactureDate::new, SerialNumber::new, DeviceChemistry::new, DesignCapacity::new", "src/structures/015_system_event_log/mod.rs: AccessMethod::new"]}
{"id": "C78", "title": "Going through a table takes linear work", "statement": "All calls of next that go through a table together look at each byte of the buffer from the current position on at most once in the search for the end of the strings; a structure costs as many steps as its string area has bytes, less one. Looking up a string by number looks at each byte of the string area at most twice, and searching an entry point at each 16-byte paragraph at most once. Exactly: a string that is there costs two steps for each byte of the strings up to it and one for each of their zeros; the search ends with the paragraph of the first anchor, and without an anchor it looks at all paragraphs. The announced table length is no such bound: a table announced with 5 bytes makes the search run through a buffer of any size.", "quantifier": "all buffers, entry points and positions reached by an iteration; all string areas and string numbers; all buffers searched", "why_tests_cant": "A bound on the work of all inputs; a test measures one input.", "anchors": ["src/lib.rs: Structures::next_raw, find_nulnul, RawStructure::find_string, StructureStrings::next, EntryPoint::search, find_signature"]}
{"id": "C79", "title": "What depends on the byte order of the machine", "statement": "Whether an entry point is found, accepted or rejected, and with which error, and how a buffer is cut into structures from a given state, do not depend on the byte order of the machine. The numbers do: on a big-endian machine the wide fields of the entry point and the handle of a structure have their bytes in the opposite order. So the table length of the shipped sample reads 45066 instead of 2736, and going through the sample table then reads past its end where a little-endian machine stops after 69 structures.", "quantifier": "all buffers, all iterator states, both byte orders; the counterexamples are the files shipped with the crate", "why_tests_cant": "Tests run on one machine.", "anchors": ["src/lib.rs: let_as_struct!, EntryPoint::search, EntryPointV2, EntryPointV3, HeaderPacked, Structures::next_raw"]}
{"id": "C80", "title": "Bit field iterators built by hand, and the debug text of a flag", "statement": "A bit field iterator built with any index up to its number of bits yields the flags that iter() yields from that bit on, with their own positions, and then None for ever. With an index past the end it never yields None: every loop over it ends in a panic. The debug text of a flag states its position as a numeral and whether it is set, so that two flags with the same text agree on both; it does not tell whether the bit is meaningful or reserved.", "quantifier": "all values, sizes up to 16 bytes, layouts and indices; all flags, both debug forms", "why_tests_cant": "All indices of all layouts; injectivity of a text is about all pairs of flags.", "anchors": ["src/bitfield.rs: Iter (public fields), Iterator for Iter, Debug for Flag"]}
{"id": "C81", "title": "The width of the machine makes no difference", "statement": "On machines with a 32-bit and with a 64-bit usize, every structure decodes to the same value, error or panic, every call of the iterator does the same, and every iteration over a table below 4 GiB gives the same items and ends the same way; on a 32-bit machine every slice is small enough for that. Raw accessors do the same for every offset whose end is below 2^32, positions below 32 collect to the same usize, and dumps open alike if the announced address has 32 bits. Differences outside: an offset close to 2^32 panics in checked 32-bit builds instead of being an error, and a position from 32 on panics or sets another bit.", "quantifier": "every structure, table, iterator state, offset, list of positions and dump; both build modes, both memory models", "why_tests_cant": "Tests run on one machine, and the claim is about every pair of runs.", "anchors": ["src/lib.rs: RawStructure::get, get_slice, get_string, Structures::next", "src/bitfield.rs: FromIterator<Position> for usize", "src/lib.rs: EntryPoint::structures (example)"]}
{"id": "C82", "title": "The developer texts of errors, and what the documented program prints", "statement": "The `{:?}` text of an error is the variant's name with its fields in parentheses, in order: numbers in decimal, the structure type by name (or Oem and its number), the length phrase in quotes; `{:#?}` is the same with one field per line. Different errors have different texts in both forms. Every error that iteration or search reports has numbers in range and a phrase that is shown unescaped, so the texts of all reported errors are of this form. The documented program prints one line per malformed structure, in table order, and nothing for the others; from its lines the errors can be recovered. If there is no entry point it stops with a line that says why.", "quantifier": "all errors of both types, both debug forms, all iterator states and buffers, all item sequences", "why_tests_cant": "Injectivity is about all pairs of errors; which errors can be reported depends on every decoder and every buffer.", "anchors": ["src/lib.rs: InvalidEntryPointError, MalformedStructureError, InfoType (derive(Debug))", "README.md: example"]}
{"id": "C83", "title": "Equality, hashing and defaults of the bit field types", "statement": "Flags, flag types and reserved ranges compare equal exactly when they are the same value, and make the same calls to a hasher exactly then; so do the three bit field iterators of the same integer type (value, index and table). Two iterators from iter() compare equal exactly when they yield the same flags; this is false of significants() and reserved(). A default-constructed iterator is not an empty one: the first call of next panics, for all three iterators and every integer type. A default iterator compares equal exactly to one for the value 0 at position 0 with an empty table.", "quantifier": "every pair of flags, flag types, ranges and iterators; for yielding, every pair of values and of tables as long as the integer is wide, up to 16 bytes; every build", "why_tests_cant": "pairs of values, tables and texts are unbounded; tests compare a few", "anchors": ["src/bitfield.rs: Flag, FlagType, Iter, Position, Significants, Reserved, ReservedRange (derive PartialEq, Eq, Hash, Default)"]}
{"id": "C84", "title": "Decoding on a big-endian machine", "statement": "On a big-endian machine a structure is decoded as a little-endian machine decodes the structure that has the bytes of its wide packed fields in the opposite order: the words, double words and quad words of BIOS, baseboard, chassis, processor and cache structures. All other types, and the contained elements of a chassis, decode alike on both. Whether a structure decodes, gives an error, panics or is read past its end is the same on both; an iteration from the same state has the same number of items and the same end, and its items correspond one by one. Peer devices are the same but for the segment group, whose bytes are reversed; so a peer device does not turn back into its bytes there. That structures decode alike on every machine is false.", "quantifier": "all framed structures, of every type and version and with any memory behind them; all iterator states over bytes; all peer device lists; every build", "why_tests_cant": "Tests run on one kind of machine, with a few structures.", "anchors": ["src/lib.rs: let_as_struct!, Structures::next", "src/structures/000_bios.rs", "src/structures/002_baseboard.rs", "src/structures/003_enclosure.rs: read_bytes", "src/structures/004_processor.rs", "src/structures/007_cache.rs", "src/structures/009_system_slots.rs: Device, PeerDevices"]}
{"id": "C85", "title": "The developer text of a structure shows the whole value, on one line", "statement": "The `{:?}` text of a decoded structure names the case, the type and every public and private field in the order of declaration; the handle is in decimal and every string is in it in quotes. Two structures have the same text, in either form, exactly when all their fields are the same; hence structures with the same text compare equal, and equal structures have the same text unless they are event logs (refuted there: without descriptors the text still tells their size). Whatever bytes the firmware's strings hold, the text consists of visible characters only: line breaks, control characters, quotes and backslashes are escaped, so `{:?}` is one line and `{:#?}` has exactly the lines of its layout. The texts of entry points, iterators, raw structures, versions, structure types, string lists, contained elements, peer devices, group items and log descriptors tell these values apart as well. Errors write kinds and texts in the same way.", "quantifier": "all structures whose numbers are in range and whose texts are UTF-8, which covers every structure that any iterator over bytes with an 8-bit version number yields; both debug forms; every table of printable and combining characters; every build", "why_tests_cant": "Telling apart is about all pairs of values; the strings of the firmware are arbitrary UTF-8.", "anchors": ["src/lib.rs: Structure, RawStructure, EntryPoint, Structures, SmbiosVersion, StructureStrings, InfoType (derive(Debug))", "src/structures/*.rs (derive(Debug))", "src/structures/003_enclosure.rs: ContainedElements", "src/structures/009_system_slots.rs: PeerDevices", "src/structures/015_system_event_log/mod.rs: SupportedEventLogTypeDescriptors"]}
{"id": "C86", "title": "The developer texts of the bit field types", "statement": "The `{:?}` text of a flag type, a position, a reserved range and of each of the three bit field iterators names the type and all its fields: numbers in decimal, the texts of the layout in quotes, a range as `first..=last`. Two such values have the same text, in either form, exactly when they are the same value, where iterators of one integer type are compared; the integer type itself is not shown (refuted). Whatever texts a layout has, `{:?}` is one line of visible characters and `{:#?}` several of them. This covers the iterators of all bit fields of the crate, at every point of an iteration, and the flags and ranges they yield.", "quantifier": "all flag types, positions, ranges and iterators that Rust's types can hold (texts UTF-8, values below 2^128); both debug forms; every table of printable and combining characters; every build", "why_tests_cant": "Telling apart is about all pairs of values and layouts; the fields of iterators are public, so layouts are arbitrary.", "anchors": ["src/bitfield.rs: FlagType, Iter, Position, Significants, Reserved, ReservedRange (derive(Debug)), Flag (Debug)"]}
{"id": "C87", "title": "The developer text shows each field with its own value, and codes by their names", "statement": "In the `{:?}` and `{:#?}` texts of a decoded structure each field name is followed by the value of that field: numbers in decimal without leading zeros, texts in quotes, byte slices as lists of decimal numbers, a UUID as 32 small hexadecimal digits in groups of 8, 4, 4, 4 and 12, flags as the names of the bits that are set followed by the remaining bits as one hexadecimal number, absent fields as None. The same holds for entry points, iterators, raw structures, versions, string lists, contained elements, peer devices, group items and log descriptors. A value decoded from a code of an enumeration is written with the variant name of that code, together with the code where it has no name of its own. That the text of a processor's status names the status is refuted: for a processor disabled by the BIOS it names two other states.", "quantifier": "all structures that any iterator over bytes with an 8-bit version number yields, and all other values whose numbers are in range and whose texts are UTF-8; all codes of all 37 enumerations; both debug forms; every table of printable and combining characters; every build", "why_tests_cant": "Fields range over all values of their types at once; a swapped or forgotten field shows only for values that differ.", "anchors": ["src/lib.rs: Structure, RawStructure, EntryPoint, Structures, SmbiosVersion, StructureStrings (derive(Debug)), InfoType (From<u8>)", "src/structures/*.rs (derive(Debug), impl From<u8/u16> of the enumerations)", "src/structures/004_processor.rs: ProcessorStatus"]}
{"id": "C88", "title": "Which damage of an entry point is noticed", "statement": "If any number of bytes of an accepted entry point are changed, but not its anchor string and length byte, search still succeeds exactly when the bytes still sum to 0 modulo 256 and the major version is still at least 2, and otherwise reports the sum or the version it found; so bytes in another order are never noticed as long as the major version stays. Bytes elsewhere in the buffer have no influence as long as no earlier anchor appears and enough bytes follow. A buffer cut off before the end of the entry point is rejected; cut off later the result is the same, except where C05 rejects it. That every change of one byte is noticed is false of the length byte and of the anchor string, where the search can come up with a later entry point. That an accepted entry point has the intermediate anchor and checksum of the standard is false too.", "quantifier": "every buffer on which search succeeds; every change of any number of bytes inside the entry point; every other buffer that agrees on its bytes; every cut", "why_tests_cant": "There are 256^n damaged versions of an entry point of n bytes, and any number of buffers around it.", "anchors": ["src/lib.rs:EntryPoint::search", "src/lib.rs:EntryPointV2", "src/lib.rs:EntryPointV3"]}
{"id": "C89", "title": "A table that is cut short", "statement": "If the buffer lacks its last bytes but the announced length stays, structures that end before the cut come out as before. At the structure with the cut: if the cut is in its strings the next item is UnterminatedStrings with its position and the iteration ends; if it is in the formatted area behind the header the call panics; if not even the header is left, the call reads past the buffer. So no item ever shows a structure that is not there as a whole. That a buffer ending between two structures is read like a shorter table is false: the call after the last structure reads past the buffer.", "quantifier": "every buffer, iterator state and position of the cut; builds in which memory past a slice is not readable", "why_tests_cant": "The cut can be at any byte of any table; a test sees one cut of one table.", "anchors": ["src/lib.rs:Structures::next_raw", "src/lib.rs:Structures::next"]}
{"id": "C90", "title": "Structures that are longer than the decoders know", "statement": "When bytes are appended to the formatted area of a structure that decodes (its length byte counting them), as a newer version of the standard does, the longer structure decodes too and every field that had a value keeps it: only fields that were absent can appear, and group associations gain items. Slots and memory devices that already have all their fields do not change at all. This also holds for whole tables in which every structure grows by bytes of its own. It fails in two ways: seven decoders (slots before 3.2, event log, 32-bit memory error, the two mapped addresses, pointing device, battery) refuse any longer structure, and an enclosure that ends before its last field can become undecodable or panic.", "quantifier": "every structure of every type that decodes, every version, every list of appended bytes; every table of such structures; builds in which memory past a slice is not readable", "why_tests_cant": "Firmware of future standards appends unknown bytes; tests only have tables of today's firmware.", "anchors": ["src/lib.rs:Structures::next", "src/structures/003_enclosure.rs", "src/structures/009_system_slots.rs", "src/structures/017_memory_device.rs", "src/structures/014_group_associations.rs", "src/structures/015_system_event_log/mod.rs", "src/structures/018_memory_error_32.rs", "src/structures/019_memory_array_mapped_address.rs", "src/structures/020_memory_device_mapped_address.rs", "src/structures/021_built_in_pointing_device.rs", "src/structures/022_portable_battery.rs"]}
{"id": "C91", "title": "Structures that differ only in their strings", "statement": "Decoding does not look at what strings say. If a structure gets other strings with the same numbers, decoding succeeds, fails or panics as before, an error is the same error, and a value is the same apart from its texts; each text becomes the string with the same number. So changing one string changes only the fields that showed it, also in whole tables. Strings appended behind the others change no field, except that a battery or memory device whose string number had no string now finds one, and system configuration options (which state how many strings they have) become undecodable. Where memory past a slice can be read, a short structure takes its strings for fields.", "quantifier": "every structure of every type, every version, every other string area; every table and every replacement of its strings; builds in which memory past a slice is not readable", "why_tests_cant": "It relates two runs on inputs that differ in any strings; a test has one table.", "anchors": ["src/lib.rs:RawStructure::find_string", "src/lib.rs:RawStructure::get_string", "src/lib.rs:Structures::next", "src/structures/012_system_configuration_options.rs", "src/structures/017_memory_device.rs", "src/structures/022_portable_battery.rs"]}
{"id": "C92", "title": "Every structure is decoded by itself", "statement": "In a well-formed table without an End structure that stops the reader, the item of each structure is the one that a table holding only that structure gives, and iteration comes to the end of the table exactly if each of these decodes. So reordering the structures reorders the items and changes none, leaving a structure out removes its item and changes no other, adding one adds its item at that place, and a structure that occurs twice gives the same item twice. Order does matter when a structure makes its decoder crash, and from version 3 on when one is an End structure: both hide what comes behind.", "quantifier": "every version, every well-formed table, every permutation of its structures, every structure left out or added at every place, any bytes behind the table; builds in which memory past a slice is not readable", "why_tests_cant": "It relates the runs on all rearrangements of a table; tests read fixed tables.", "anchors": ["src/lib.rs:Structures::next", "src/lib.rs:Structures::next_raw", "src/lib.rs:EntryPoint::structures"]}
{"id": "C93", "title": "Default values and what tables decode to", "statement": "The default memory device is not the value of any table: decoding always tells a device set. Apart from its set, exactly the devices with handle 0 that say unknown, none or zero everywhere and end before the fields of version 3.2 decode to it; its type detail is the one flag Unknown. The default memory array is what every memory array up to version 2.1 decodes to, and after that exactly those with handle 0 that say unknown everywhere, have no devices and, from 2.8 on, extended capacity 0. The default BIOS comes out of structures before 2.4 with handle 0, empty texts and zeros, and of no later one. Default bit fields have no flag set and list no significant flags. Default codes are shown as Unknown and, except for the form factor, stand for the code that the standard calls unknown; the default ROM size is 64 KB.", "quantifier": "every structure of types 0, 16 and 17 of every version, every iterator state, every shipped bit field, every code, every build", "why_tests_cant": "That no input decodes to a value, or exactly which inputs do, is a statement about all inputs.", "anchors": ["src/structures/000_bios.rs:Bios", "src/structures/000_bios.rs:RomSize", "src/structures/013_bios_language.rs:LanguageFlags", "src/structures/016_physical_memory_array.rs:PhysicalMemoryArray", "src/structures/017_memory_device.rs:MemoryDevice", "src/structures/017_memory_device.rs:Detail", "src/bitfield.rs:FlagType"]}
{"id": "C94", "title": "What is printed for the flags of a flag word", "statement": "Printing the significant flags of a flag word gives exactly the names of its set bits in ascending order, the short names with {} and the long ones with {:#}; bits that are reserved or left to vendors print nothing. Every named bit can be told from what is printed, except those whose name is Reserved. Printing all flags gives one text per bit that does not depend on the value. With a table of the user's own, a bit the table calls unknown prints Unknown.", "quantifier": "every value of each of the eight flag words, both forms, every user table, every build", "why_tests_cant": "There are 2^64 values of a word; a test prints a few.", "anchors": ["src/bitfield.rs:Flag", "src/bitfield.rs:Significants", "src/bitfield.rs:Iter"]}
{"id": "C95", "title": "Different structures feed different bytes to a hasher", "statement": "Two structures decoded from any tables feed the same bytes to a hasher exactly when they compare equal, on machines with 32 or 64 bits and either byte order. Apart from enclosures that list contained elements and event logs that list descriptors, the bytes of a structure never begin with those of a different one, so sequences of structures can be told apart too; the same holds for entry points, iterators, versions, structure types, string lists, raw structures and single records. For the two exceptions, and for lists of peer devices, it fails: the hand-written hashing of the record lists does not write how many records there are.", "quantifier": "every two tables and structures decoded from them, every other value of the listed types, both widths and byte orders, anything that follows in the hasher", "why_tests_cant": "A test compares a few pairs of values; whether two different values collide, or one is a prefix of the other, is a question about all pairs.", "anchors": ["src/structures/003_enclosure.rs:ContainedElements", "src/structures/009_system_slots.rs:PeerDevices", "src/structures/015_system_event_log/mod.rs:SupportedEventLogTypeDescriptors", "src/structures.rs:RawStructure", "src/lib.rs:Structure"]}
{"id": "C96", "title": "Where reading is in step again after damage", "statement": "If two tables differ in one stretch of bytes and both iterations have come to the same place behind it, everything that follows is the same. If the bytes of some structures read as one structure after damage, that one is seen in place of them and nothing before or behind it changes. In particular a wrong length byte costs only the structures up to the next two zero bytes, and a length byte that is too large but ends inside the structure's own string area changes only that structure. A length byte that is too small can show structures that are not in the table.", "quantifier": "every table, every place and value of the damage, every number of structures before, inside and behind it, every kind of ending of the rest", "why_tests_cant": "The places and values of damage and the tables around it cannot be enumerated.", "anchors": ["src/lib.rs:Structures::next_raw", "src/lib.rs:find_nulnul"]}
{"id": "C97", "title": "What of an entry point the iteration depends on", "statement": "Two accepted entry points, of either format, that announce the same version and table length give the same iteration over every table: format, checksums, revisions, address, largest structure size and number of structures have no influence. The number and the size a 2.x entry point announces are not limits.", "quantifier": "every two entry points, whatever surrounds them, and every table", "why_tests_cant": "The announced values range over all combinations; a test tries the few entry points it has.", "anchors": ["src/lib.rs:EntryPoint::structures", "src/lib.rs:EntryPoint::search", "src/lib.rs:EntryPointV2", "src/lib.rs:EntryPointV3"]}
{"id": "C98", "title": "Decoders that callers write for themselves", "statement": "Code written against the public interface of a raw structure (fields, get for built-in or own types, get_slice, get_string, find_string), in which each question may depend on all answers so far: it never reads outside the structure; if its offsets are at least 4 and its ranges end below 2^32 it never panics and gets the same answers in every build; a panic needs a build with overflow checks and a caller that does not keep to that; it gets the same answers for the same structure bytes wherever they lie; and what it can find out is exactly the public fields and the texts by number. Comparison with == sees more than that: the bytes of texts that are not UTF-8.", "quantifier": "every such client program, with any adaptive choice of questions and any result type, every structure, every build", "why_tests_cant": "The programs that callers write are not part of the crate: they form an infinite family, of which a test is one.", "anchors": ["src/lib.rs:RawStructure", "src/lib.rs:RawStructure::get", "src/lib.rs:RawStructure::get_slice", "src/lib.rs:RawStructure::get_string", "src/lib.rs:RawStructure::find_string", "src/lib.rs:TryFromBytes"]}
{"id": "C99", "title": "Following a handle from one structure to another", "statement": "A loop over the structures of a table that passes over malformed ones and stops at the first structure with a given handle has at most one answer; it is the first structure with that handle among those that can be decoded, whatever lies behind it. What is found is a structure of the table, decoded from its own bytes, with that handle in its header (from version 2.2 on; older memory arrays are found under handle 0 only). In a table written for values with handles of their own, exactly the value with that handle is found, and nothing for other handles, so references between structures can be followed.", "quantifier": "every table and handle, every list of values with distinct handles, every build", "why_tests_cant": "References connect structures anywhere in the table, with any structures, damaged or not, between them.", "anchors": ["src/lib.rs:Structures::next", "src/structures/019_memory_array_mapped_address.rs:MemoryArrayMappedAddress", "src/structures/016_physical_memory_array.rs:PhysicalMemoryArray", "README.md"]}
{"id": "C100", "title": "Several iterators at once, and copies of iterators", "statement": "A program may hold any number of iterators over tables, over the texts or lists inside structures or over flags, call next on them in any order and clone them at any time, deciding on the answers so far: every iterator gives the answers it would give alone, and a clone gives what is left of its original. Over tables that a plain loop goes through, such a program never fails; it fails only where a plain loop over one of its tables fails the same way. Iterators over tables that are equal by == give the same answers; the converse is false.", "quantifier": "every program (any adaptive schedule of next and clone calls), any number of iterators over any tables, every build", "why_tests_cant": "The schedules of calls and clones form an infinite tree of programs.", "anchors": ["src/lib.rs:Structures", "src/lib.rs:StructureStrings", "src/structures/003_enclosure.rs:ContainedElements", "src/structures/009_system_slots.rs:PeerDevices", "src/structures/013_bios_language.rs:InstallableLanguages", "src/structures/014_group_associations.rs:GroupItems", "src/structures/015_system_event_log/mod.rs:SupportedEventLogTypeDescriptors", "src/bitfield.rs:Iter"]}
{"id": "C101", "title": "Decoding a table takes linear work, going through languages does not", "statement": "All calls of next on a table together, cutting structures out and decoding them with every string they look up, take at most 15 steps for each byte of the buffer from the current position on; a call that goes forward takes at most 15 steps for each byte it passes. A decoder looks up at most seven strings, each byte of the string area being looked at at most twice for each; the number for each of the twelve structure types is stated, and no smaller one would do. Going through all strings of a structure takes at most two steps for each byte. Going through the languages of a BIOS language structure looks up each name from the first string on: at most one lookup for each of at most 256 calls, and quadratic in the number of names.", "quantifier": "all buffers, entry points and positions reached by an iteration, all raw structures, string areas and language lists, every build", "why_tests_cant": "A bound on the work of all inputs; a test measures one input.", "anchors": ["src/lib.rs:Structures::next", "src/lib.rs:RawStructure::find_string", "src/structures/*.rs:TryFrom<RawStructure>", "src/structures/013_bios_language.rs:InstallableLanguages"]}
{"id": "C102", "title": "The other methods of the iterators", "statement": "The methods an iterator has besides next give what the items that next yields say: count their number, last the last one, collect all of them in order, find, find_map, position, any and all the first item in question, leaving the iterator right behind it, nth the item with that number (counted from zero), and collecting results all values or the first error. If an item panics or reads out of bounds, so does a method that gets there. On every table below 4 GiB the methods of the structure iterator come to an end, and count does not overflow. On a table written from values they give these values. Looking up a string by its number is nth on the strings. For the languages of a BIOS with 255 strings or more, count, last and collect never end in a build without overflow checks.", "quantifier": "all iterators (any next function, any state), all predicates and closures that return, all item numbers; all tables, buffers and positions below 4 GiB; every build and word size", "why_tests_cant": "The methods are loops over next with no bound on the number of items, for any closure; a test takes one table and one closure.", "anchors": ["src/lib.rs:impl Iterator for Structures", "src/lib.rs:impl Iterator for StructureStrings", "src/lib.rs:RawStructure::find_string", "src/bitfield.rs:impl Iterator for Iter", "src/structures/013_bios_language.rs:impl Iterator for InstallableLanguages"]}
{"id": "C103", "title": "A changed byte changes only the fields it belongs to", "statement": "Every field of a decoded structure comes from certain bytes of it, those at the offsets that the SMBIOS specification gives for it (listed for every field of every type, handles and lists included). If two structures differ in other bytes only and both are decoded, the field has the same value in both; and a table in which the bytes of one structure are changed that way goes on at the same position. For SMBIOS 3.3 no single byte of a listed range of fixed size can be left out: each of them alone can change the field. That the changed structure is decoded at all does not follow (C104 says when it does; C105 has the exact places of the fields behind lists).", "quantifier": "all structures of all types and versions, all replacements of their bytes by as many others, all sets of changed offsets, all fields; all tables below 4 GiB around the structure; every build and word size", "why_tests_cant": "It relates two decodings for every combination of changed bytes; a test compares a few.", "anchors": ["src/lib.rs:impl Iterator for Structures", "src/lib.rs:RawStructure::get", "src/lib.rs:let_as_struct", "src/structures/"]}
{"id": "C104", "title": "The bytes that decide whether a structure can be decoded", "statement": "For every type and version certain bytes decide whether a structure can be decoded: the numbers of the strings it must have, the bytes that say how long a part of it is (contained elements of an enclosure, descriptors of an event log, number of configuration options), and the capacity of a memory array, where 80000000h calls for eight bytes more. Whatever else changes, decoding gives a value where it gave one, the same error where it failed, and panics or reads outside as before; a table goes on at the same position. Together with C103 a change of any other bytes changes just the fields at those bytes. Types without deciding bytes are decoded or not by their length alone. In every published version each deciding byte alone can turn the outcome.", "quantifier": "all structures of all types and versions, all replacements of their bytes by as many others, all sets of changed offsets; all tables below 4 GiB around the structure; every build, word size and memory behaviour; published versions 2.0 to 3.9 for the last part", "why_tests_cant": "It relates two decodings for every combination of changed bytes; a test compares a few.", "anchors": ["src/lib.rs:impl Iterator for Structures", "src/lib.rs:RawStructure::find_string", "src/lib.rs:RawStructure::get_string", "src/structures/003_enclosure.rs", "src/structures/016_physical_memory_array.rs", "src/structures/015_system_event_log/mod.rs", "src/structures/"]}
{"id": "C105", "title": "Fields that hold a list of stated length, or lie behind one", "statement": "Where a structure states itself how long a list in it is (contained elements of an enclosure, peer groups of a slot, descriptors of an event log), the list and the fields behind it come from the bytes that state the length and from the bytes at the offset that length gives, and from no others: if two decoded structures differ elsewhere only, these fields are the same, also in a table. Each byte of the list or field shows: any other value of it still gives a decoded structure, with another value of just that field. Bytes behind the last field change nothing. Nor does the byte behind the peer groups of a slot, which the specification gives to the slot information: that the slot information is read from there is false.", "quantifier": "all enclosures, slots and event logs of all versions, all counts and record lengths (also those whose product does not fit into a byte), all replacements of their bytes by as many others, all sets of changed offsets; all tables below 4 GiB around the structure; every build, word size and memory behaviour", "why_tests_cant": "It relates two decodings for every combination of counts and changed bytes; a test compares a few.", "anchors": ["src/structures/003_enclosure.rs:ContainedElements::new", "src/structures/003_enclosure.rs:Enclosure::try_from", "src/structures/009_system_slots.rs:SystemSlots::try_from", "src/structures/015_system_event_log/mod.rs:SystemEventLog::try_from", "src/lib.rs:RawStructure::get_slice"]}
{"id": "C106", "title": "At which announced versions the reading of a table changes", "statement": "Each type of structure has a list of versions from which on it is decoded in another way. Two announced versions decode every structure of a type alike (same outcome, same error, same value) exactly if none of these lies between them, and go through every table alike exactly if none of any type does; the version itself appears only in structures handed out undecoded and in the list of languages. So 2.9 is read like 2.8, and every version after 3.2, known or not, like 3.2. That the changes are at the versions of the standard is false for caches (3.1) and memory arrays (2.1, 2.7), which are read there as in the version before.", "quantifier": "every pair of announced versions (all major and minor numbers), every type, all structures and tables; every build, word size and memory behaviour", "why_tests_cant": "It covers all pairs of the 65536 versions and all structures; tests use a few published versions.", "anchors": ["src/lib.rs:SmbiosVersion", "src/lib.rs:Structures::next", "src/structures/000_bios.rs:Bios::try_from", "src/structures/001_system.rs:System::try_from", "src/structures/004_processor.rs:Processor::try_from", "src/structures/007_cache.rs:Cache::try_from", "src/structures/009_system_slots.rs:SystemSlots::try_from", "src/structures/013_bios_language.rs:BiosLanguage::try_from", "src/structures/015_system_event_log/mod.rs:SystemEventLog::try_from", "src/structures/016_physical_memory_array.rs:PhysicalMemoryArray::try_from", "src/structures/022_portable_battery.rs:PortableBattery::try_from"]}
{"id": "C107", "title": "Exactly which structures are decoded", "statement": "A structure is decoded to a value (instead of an error, a panic or a read past its end) if and only if it has the length listed for its type and version, every string field listed for them holds zero or the number of a string that is there, and the few further conditions of five types hold: enclosures whose records fit and whose SKU number names a string, caches of 2.1 or later, as many configuration options as stated, event log descriptors that are not empty and take exactly the remaining bytes, and memory arrays that have the extended capacity if they refer to it. No other byte, and no other code, makes a structure fail. The iterator gives a structure exactly if such a one is at its place, and a table is decoded from first to last without an error exactly if all its structures, up to the one that ends it, are such. Where memory is flat, so that reads past the end of a structure find the bytes that follow, the same holds with these bytes counted in for the seven types that are copied as a whole. That structures of the standard's minimum length are decoded is false, within their bounds, for baseboards and for memory devices of 2.1.", "quantifier": "every structure of every type, version and content (any bytes, any strings), every table and position; every build, word size and memory behaviour", "why_tests_cant": "An exact condition has to hold in both directions for all contents of up to 255 bytes, all string areas and all versions; tests show single structures being accepted or rejected.", "anchors": ["src/lib.rs:Structures::next", "src/lib.rs:RawStructure::find_string", "src/lib.rs:RawStructure::get", "src/structures/000_bios.rs:Bios::try_from", "src/structures/001_system.rs:System::try_from", "src/structures/002_baseboard.rs:BaseBoard::try_from", "src/structures/003_enclosure.rs:Enclosure::try_from", "src/structures/004_processor.rs:Processor::try_from", "src/structures/007_cache.rs:Cache::try_from", "src/structures/009_system_slots.rs:SystemSlots::try_from", "src/structures/015_system_event_log/mod.rs:SystemEventLog::try_from", "src/structures/016_physical_memory_array.rs:PhysicalMemoryArray::try_from", "src/structures/017_memory_device.rs:MemoryDevice::try_from", "src/structures/022_portable_battery.rs:PortableBattery::try_from"]}
