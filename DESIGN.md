# Formal model of jcreekmore/dmidecode in Coq

Subject: the Rust crate in /repo (`src/lib.rs`, `src/bitfield.rs`,
`src/structures/**/*.rs`), an SMBIOS table decoder.  Model and proofs: Coq 8.16.1,
`rocq/theories`, logical name `Verif`.  Only Coq's standard library is used.

## How the code is modelled

* **Bytes** are `N`; a byte buffer is `list N`.  Theorems that need the numbers to be
  bytes say so (`all_bytes`); all others hold for arbitrary lists.
* **Slices.**  A `RawStructure` carries its own formatted bytes (`data`) *plus* the memory that
  follows them inside the caller's buffer (`after`), because `let_as_struct!` (lib.rs 69-76)
  copies a packed layout from a slice pointer without looking at the slice length.
* **Outcomes.**  Every function that can panic or execute undefined behaviour returns
  `out A := Val a | Panic | UB`; Rust's `Result` is a separate type `result`.
* **Build configuration.**  `cfg` has three switches over which theorems quantify:
  `pointer_width` (usize has 32 or 64 bits), `overflow_checks` (debug: integer overflow panics; release: it wraps) and
  `flat_memory` (an over-read of a sub-slice that stays inside the caller's buffer either
  yields the following bytes, or is `UB`, as in Rust's strict memory model).  An over-read
  of the caller's buffer itself is always `UB`.
* **Machine integers.**  u8/u16/u32/usize arithmetic that can overflow is written with its
  width.
* **Mutation.**  `&mut self` methods return the new state.  Iterators are modelled by their
  `next` function; what a caller sees is a relation on repeated `next` calls (`drains`, `runs`,
  `seen`), so no fuel appears in the statements.  The few internal loops that need fuel
  (UTF-8 validation, bit field scans, string counting) return `UB` when it runs out, and
  the theorems show that this never happens.
* **UTF-8.**  `core::str::from_utf8` is modelled by an explicit validator, proved
  equivalent to "is the encoding of a list of Unicode scalar values" (C19).
* **Enumerations** (`From<u8>`, `From<u16>`, `Display`, `From<E> for u8`) are generated from the
  Rust source by `tools/gen_enums.py`: a `match` becomes a chain of comparisons, arm by arm in
  source order (`G_Enums.v`).  `layout!` tables are generated by `tools/gen_layouts.py`
  (`G_Layouts.v`); the macro itself is a function in `M_Bitfield.v`.  Both outputs are committed;
  the generators are not needed to build.
* **bitflags!** types are the masked integer (`from_bits_truncate` is `land mask`).  Their constants, and
  `contains`, `intersects` and `iter_names` of the bitflags crate, are in `M_Flags.v`.
* **uuid**: a `Uuid` is its 16 bytes; `from_bytes` keeps them, `from_bytes_le` swaps the first
  4, 2 and 2 (documented behaviour of the uuid crate).
* **Display** implementations produce Coq strings, one character per byte; `{:.1}` of an f32 is
  modelled by rounding the IEEE-754 quotient explicitly (`f32_tenth`, `show_f32_1`); `P_Float.v` proves
  that this quotient is the one of the standard library's IEEE-754 specification
  (`Coq.Floats.SpecFloat`, no axioms) and that the text is its nearest decimal.
* **Hand-written `PartialEq`/`Hash`** (three lists over `slice::Chunks`) are modelled as functions
  on the chunk sequence; `Hash` is the list of writes made to the hasher.
* **Size limits.**  Rust guarantees that slices are shorter than 2^31 or 2^63 bytes, depending on the width of usize.  The iterator keeps
  positions as u32: theorems about iterations that need it assume buffers below 4 GiB - 260
  (`sane`), and `C10_long_string_area` shows what happens beyond.

### Which code is modelled

| Rust | model | remarks |
|---|---|---|
| lib.rs 93-352 entry points | `M_Entry.v` | all of `search`, both layouts, accessors |
| lib.rs 353-443 errors | `M_Entry.v`, `M_Raw.v`, `M_Display.v` | values and `Display` |
| lib.rs 444-580 `Structures` | `M_Iter.v` | `find_nulnul`, `next`, `next_raw`, dispatch |
| lib.rs 581-760 raw structures, strings, `get` | `M_Raw.v` | |
| lib.rs `InfoType` | `G_Enums.v` | generated |
| bitfield.rs | `M_Bitfield.v` | `Iter`, `Significants`, `Reserved`, `FromIterator`, `layout!` |
| 000 to 004, 007 to 009 | `M_Bios` `M_System` `M_BaseBoard` `M_Enclosure` `M_Processor` `M_Cache` `M_PortConnector` `M_SystemSlots` | decoders and derived values |
| 011 to 014 | `M_Strings` `M_GroupAssociations` | |
| 015 | `M_SystemEventLog` | both source files |
| 016 to 022 | `M_PhysicalMemoryArray` `M_MemoryDevice` `M_Memory` `M_PortableBattery` | |
| Display, PartialEq, Hash | `M_Display.v`, `M_Hash.v`, `G_Enums.v` | hand-written ones |
| derived PartialEq, Eq, Hash, Default of bitfield.rs | `M_BitfieldEq.v` | |
| other derived Default, `Default for Detail` | `M_Default.v` | that of memory arrays is in `M_PhysicalMemoryArray.v` |
| derived PartialEq, Eq, Hash | `M_Eq.v`, `G_Eq.v` | of structures and all they contain; generated by `tools/gen_eq.py` |
| derived Debug | `M_Debug.v`, `M_BitShow.v`, `M_Show.v`, `G_Show.v` | of errors; of bitfield.rs; of structures and all they contain (generated by `tools/gen_show.py`), entry points, iterators |
| `Error::source`, small public accessors | `M_Accessors.v` | |
| loops of lib.rs, counted | `M_Cost.v` | the same functions with the number of turns |
| decoders that use strings, `next`, counted | `M_CostDecoders.v` | the same functions with the steps of their lookups |
| provided iterator methods (`core::iter::Iterator`) | `M_Methods.v` | loops over any `next`: `count`, `last`, `collect`, `find`, `find_map`, `position`, `any`, `all`, `nth` |
| entry point and header on either byte order | `M_Endian.v` | |
| packed structures and the iteration on either byte order | `M_EndianDecoders.v` | |
| README.md 25-33, lib.rs 150-163 | `M_Use.v` | the documented programs |

### Not modelled

* derived `Clone` and `Copy`, except of iterators, where a clone has the state of its original (C100).  The error types have no `PartialEq` or `Hash`.
* `LogRecordFormat`, `Datetime`, `LogVariableData` (log_record_format.rs 17-46): types that no
  code constructs or reads.
* Machines whose `usize` has less than 32 bits.
* lifetimes and borrowing, cargo features, test modules, module re-exports (structures/mod.rs).
* Running out of memory or stack: the crate allocates nothing.

## Layout of `rocq/theories`

| files | contents |
|---|---|
| `Base.v` | outcomes, byte lists, little endian, machine arithmetic, slices |
| `M_*.v`, `G_*.v` | the model, one file per Rust source file or group, definitions only |
| `T_Data.v` | the firmware dumps of /repo/tests/data (generated), used in `Example`s only |
| `T_Tests.v` | the 85 unit tests of /repo/src, transcribed assertion by assertion and run on the model (generated by `tools/gen_tests.py`); a check of the fidelity of the model, not a proof |
| `Spec.v`, `S_*.v` | the independent specification: byte layouts, encodings, code tables, texts |
| `L_*.v` | lemmas |
| `P_*.v` | property theorems, each closed by `exact`, with `Print Assumptions`, and `Example`s showing that the hypotheses are met |

Reading guide: the `P_` file of a property, then the `S_` files it names in its header.
The specification files use data types of the model (records, enumerations) but none of its
decoding functions; `S_Enums.v` holds the code tables of the SMBIOS standard, written
independently of the generated model.

## Trusted base

* Coq's kernel (8.16.1), including its virtual machine (`vm_compute`).  `native_compute` is not used.
* `Print Assumptions` answers "Closed under the global context" for every property theorem
  (the build prints it beneath each one).  No axiom is declared, and none of the standard
  library is used by a theorem.  `coqchk` lists entries of `Coq.ssr.ssrunder` (`Under_rel...`) in
  the context: they are parts of a module type of the standard library, loaded with it; no
  theorem rests on them.
* The model's fidelity to the Rust source (each definition cites the lines it models), including
  the generators `tools/gen_enums.py`, `tools/gen_layouts.py`, `tools/gen_eq.py`, `tools/gen_show.py` and `tools/gen_cost.py`.
* The semantics assumed for core (`slice::get`, `chunks`, `chunks_exact`, `split`, `Iterator::nth`,
  `from_le_bytes`, `from_utf8`, integer formatting), bitflags and uuid, as described above.

## Plan per property

Entry point search (C01-C08): `search` is a total function in the model with `out`; C01 by case
analysis on the length tests; C02-C05 from a characterisation of `find_signature` by
induction on the paragraphs, then a decision-table lemma; C06 by induction on the prefix; C07 by
linearity of the byte sum; C08 by computation on symbolic 31/24-byte lists.

Structure iteration (C09-C17): specification `encode : list sstruct -> list N` independent of
the decoder; C09 by induction on the list using a `find_nulnul` lemma; C10, C14, C15 by inversion
of `next_raw`; C11 by a decreasing measure; C12, C13 by case analysis on `next`; C16 as a
corollary of C09 and, for arbitrary buffers, by a simulation between the two iterations in which
only the memory behind the table differs; C17 by exhaustive case analysis on the type byte.

Strings (C18-C20) and raw access (C21): specification by decomposition of the string area
(`prev ++ s ++ 0 :: rest`), proofs by induction on the index / the list; UTF-8 by strong
induction on length against an independent encoder.

Decoders (C22-C42): for each structure type, a relation between raw bytes and decoded
record written with SMBIOS offsets (`X_says`), proved to hold of everything the decoder
returns; the exact set of errors; and the exact conditions under which it returns, panics or
reads too far.

C42, C43, C44: per-decoder exact panic and over-read sets, composed over the iteration by the
framing theorem (`*_exactly`).

Bit fields (C45-C48, C52): induction on bit positions for arbitrary layouts; the shipped layouts
are checked by computation.

Enumerations and packed fields (C49, C50, C53): the domains are finite (256 or 65536 values),
decided by `vm_compute` and lifted to a universally quantified statement; C51 by arithmetic.

Texts (C53-C58): decimal and hexadecimal numerals are proved injective by induction on the
numeral, composed by cutting the text at its first non-digit; the floating point texts by
an exact integer account of the rounding, compared with the IEEE-754 specification of the
standard library (digits of the normalised mantissas, then the two cases of the quotient).

Equality and hashing (C59): both are functions of the chunk sequence; the contracts follow from
the injectivity of the recorded writes.

Errors (C60): inversion of every decoder's error exits against `accurate`, a small
specification of what an error claims.

End to end (C61): composition of the entry point encoder, C04 and C09.

Builds (C62): a simulation relation `carries` between outcomes in two configurations, preserved
by every combinator of the model.

Locality (C63, C64, C65): the decision table of one call (C14) commutes with bytes put in front of
the buffer; up to a position, a call depends only on the bytes before it and, in strict memory, on
those of its own structure.  A replacement, a concatenation and a shorter announcement are
then inductions over the calls.

Where the property as a user would state it is false of the code, the exact condition is proved and
the failing case is proved separately under a name ending in `_refuted`.

All listed properties can be expressed in the model; none is marked not applicable.

Versions (C66): every packed decoder is shown to be one version-free reading of the bytes with
fields masked by the version (`*_form`), so two decodings are compared mask against mask; the other
decoders use the version for the length check only.

Lazy lists (C67): a call that answers None leaves a state in which the next call does the same;
counts by induction over the bytes left.

Slice conversions (C68): the safe public `From<&[u8]>` impls, and `ContainedElements::count` against
the number of elements iterated; direct case analysis and the count lemma of C67.

Origin (C69): S_Origin lists, per type, the handle and the texts a decoded structure shows; one lemma per
decoder, stepping through its binds, shows that each text is a result of `find_string`.

Writing (C70): S_Write gives, for every structure type, the fields a firmware author writes and the value a
caller is to get (the inductive relation `lays_out`), independently of the decoders.  L_Write shows that the
written bytes have every field at its offset, discharges the clauses of each `..._says` specification with
that, and composes the result with C09 for the table.

Documented use (C71): `M_Use.v` states the README's program (two files) and the example of `EntryPoint::structures`
(a dump).  Reading back is C61 and C70 composed, with the announced length as loose as `announces` allows; the
panic set of opening is a case analysis; safety follows from C44 with the invariant that the announced length
either is unchanged or has been set to the position.

Whole structures (C72): a type is a list of parts (`X_parts`: discriminants and fields in the order of the
declaration), derived `==` compares such lists and derived `hash` feeds them to the hasher.  A `codec` is a
listing from which the value can be read back whatever follows it; codecs compose over fields, options and
variants, so one lemma per type (generated, `L_GEq.v`) gives equality and hashing of all of them at once.

What a value shows (C73): `visible` lists, per type, the fields that a value determines.  Every code table is
injective up to the listed twins (C49); so are the packed words on the bits they use.  Per type, equality of the
values is then equality of the visible fields, in every version; the two directions of the claim come out together.

Names of bits (C74): `S_BitNames.v` has the standard's tables keyed by bit number; that each layout follows its
table is a finite check of texts, and C45 gives the rest for every value.

Names of codes (C75): `S_Names.v` has the standard's names keyed by code, the wordings for codes without a name as
fixed parts and numerals, and the codes whose text is something else.  For byte codes the texts are compared one
by one with the rendered tables; processor families and system management types add symbolic ranges.

Flags (C76): `S_Flags.v` has the standard's tables from bits to constants.  Membership of a one-bit constant is a
bit test; listing is an induction over constants with distinct bits.  The decoding theorems (C25, C27, C28, C38)
carry both to structures.  The processor status is a code in three bits, compared with the constants.

Values (C77): one equivalence per enumeration, and one per type whose values have parts, between "decoded from some code" and a case distinction on the
value; from C49 and a finite search for the code of each name, symbolic for the 16- and 32-bit codes.

Work (C78): `M_Cost.v` repeats the loops with a counter; erasure lemmas say they compute what the model
computes.  The turns of a framed structure are those up to its terminator, so that the sum over an
iteration telescopes; errors stop the iteration.  The refuted form builds a buffer of any size.

Byte order (C79): `M_Endian.v` repeats `search` and `next_raw` with the order as a parameter, equal to the model
for little endian.  Both sides take the same branches, as these depend on one-byte fields only.

Decoding on either byte order (C84): `M_EndianDecoders.v` repeats the decoders that copy packed structures with the
order as a parameter, equal to the model for little endian. The specification lists the field widths of the five affected
types; big-endian decoding is shown equal to decoding the structure with these fields respelled, in every build and also
where the packed structure extends past the formatted area. Outcomes (success, error, panic, overread) are compared
call by call, and then carried along a whole iteration.

Hand-made iterators (C80): the lemma behind C45 is already about any position; past the end the flags are
counted down by the layout.  The debug text is split at its numeral.

Machine width (C81): the width is part of `cfg`, so all theorems are about both.  The comparison goes through
the decoders call by call; positions are literals or sums of bytes, and so below 2^32.

Debug texts (C82): derived `Debug` becomes a tree of names and fields, rendered as core's formatter does.
Texts are taken apart from the left: names end at `(` or `,`, numerals at a non-digit, phrases at the quote.
That reported errors are in range goes through the decoders call by call, as for C60.

Bit field types (C83): derived comparison and hashing as lists of parts (as in C72), each shown to be a prefix-free
code of the value; fresh iterators by reading the value and the table off the flags; defaults by evaluation.

Texts of structures (C85): derived `Debug` of every type becomes a function to a tree of names, numbers and quoted
texts (`M_Show.v`, `G_Show.v`; core's formatter, its `str` escapes, bitflags and uuid after their documentation).
The two Unicode tables that decide which characters are escaped are a parameter, so the theorems hold for any
tables.  The text of a tree is taken apart from the left (`print_split`: two trees with the same text followed by
something that can follow a value are the same tree); then the trees of each type are shown to determine the parts
that `==` compares.  That decoded values are in the range of their types goes through the decoders call by call.

Texts of the bit field types (C86): as C85, with `M_BitShow.v`; which values occur by following the three `next`.

Fields in texts (C87): `S_ShowFields.v` says for each type which fields it has and what kind of thing each is, and an
inductive relation says how things of each kind are written; the proof goes through the fields one by one.
`S_ShowCodes.v` holds the names of the codes, written from the `From` blocks of the source by `tools/gen_showcodes.py`;
the tables are compared with the decoders code by code (all 256, or 65536 with one range argument).

Damaged entry points (C88): the decision table of C04 applied to a buffer that agrees with an accepted one outside the
checked bytes; `S_Damage.v` says which bytes those are.  The sum is invariant under permutations.

Cut tables (C89): two iterators whose buffers agree up to a point (as in C63) see the same structures up to there; the
call at the cut is looked up in the decision table of C14.

Longer structures (C90): `S_Longer.v` says, type by type, which fields must stay the same and which may appear.  Each
decoder is followed field by field: reading a field inside the old data gives the same bytes in the longer data, and
the length tests can only go from absent to present.  Tables follow with the theorem that an encoded table is drained.

Other strings (C91): two runs of each decoder are compared step by step; only string lookups differ, and these find
strings under the same numbers.  `S_Reworded.v` says what a structure is without its texts.

Order (C92): by C09's round trip the items of a table are the decoded structures, and decoding does not see what
comes behind a structure (C16), so the items of a table are those of its one-structure tables; permuting, adding and
removing then are facts about lists.

Defaults (C93): `M_Default.v` models the remaining `Default` implementations; each theorem instantiates the exact
characterisation of the decoder (C22, C37, C38) with the default value.

Printed flags (C94): `S_BitPrint.v` reads the texts off the tables of names of C74; `L_BitPrint.v` shows that each layout is the table written out, so that filtering the flags and printing them gives the texts of the set bits.

Bytes of a hash (C95): `M_Stream.v` turns the calls of C59/C72 into bytes, `S_Stream.v` says what it means that no value begins with another. `L_Stream.v` reads numbers, texts and slices back from the bytes; `L_GStream.v` (written by tools/gen_eq.py) shows for every type that equal beginnings lead to the same fields next; `L_StreamRead.v` and `L_StreamAll.v` read whole structures back, with the last list of an enclosure or event log read up to the end of the bytes.

Reading on after damage (C96): both iterations at the same place see the same rest, since iteration depends only on the bytes from there on (runs_same_rest of C63); the damaged bytes are one structure in the sense of C10, and a string area without its front is a string area.

Entry point and iteration (C97): follows from the round trip of entry points (C61).

Clients of raw structures (C98): a client is an inductive tree (question, continuation on the answer), run against the model of the public methods; induction on the tree. The characterisation of what can be found out is an equivalence.

Following handles (C99): the loop as a relation on the iterator; from the handles of C69 and the read-back of written tables (C70).

Schedules (C100): a program is an inductive tree of next and clone calls run on a list of iterator states; simulation against the list of answer sequences, by induction on the tree. That tables and lists have such sequences follows from C12 and C67.

Work of decoding (C101): M_CostDecoders.v (written by tools/gen_cost.py) repeats the twelve decoders that use strings in a monad that counts steps; L_CostDecoders.v proves that forgetting the count gives the decoder, and bounds the count lookup by lookup; the whole iteration by induction over the calls.

Other iterator methods (C102): M_Methods.v models the provided methods of core::iter::Iterator over any next, since the ten impl blocks define next only; L_Methods.v proves by induction over the items what each gives; P_Methods.v applies it to tables, written tables, strings and languages.

Fields and bytes (C103): S_Places.v has the table of offsets and the relation between the two structures; L_Places.v proves relational rules for the readers and runs both decodings side by side for each decoder; L_PlacesUse.v carries it over to tables and finds a witness for every single byte.

Deciding bytes (C104): S_Deciding.v has the table and the relation between outcomes; L_Deciding.v runs both decodings side by side for each decoder; L_DecidingUse.v carries it over to the iterator and finds, for each type and published version, one structure in which every deciding byte turns the outcome.

Lists of stated length (C105): S_Counted.v has the offsets as functions of the length bytes; L_Counted.v compares two structures through what the decoders are proved to say (C26, C30, C34) and takes from C104 that the changed one is decoded.

Milestones (C106): S_Milestones.v has the list of versions per type; L_Milestones.v turns every comparison of versions in the decoders into the question whether a milestone has been reached, reduces each version to one of the spans between milestones, and for each two spans of a type finds a structure that is decoded differently.

Acceptance (C107): S_Accepted.v has one table of lengths, one of string fields and the further conditions; L_Accepted.v derives them, type by type, from the exact conditions for panics, for reads past the end and for errors, and goes from there to the iterator and to whole tables.

## Defects of the code that the theorems exhibit

* a valid entry point is rejected when the bytes from it to the end of the buffer, modulo 256, are
  fewer than its length (C05)
* a structure length below 4, or a table length larger than the buffer, panics (C14)
* strings may extend past the declared table (C15)
* with buffers over 4 GiB positions wrap: endless iteration, strings cut (C10, C11, refuted forms)
* default-constructed bit field iterators panic on the first `next` (C83)
* short structures make the packed decoders read past the slice: undefined behaviour (C42, C26)
* converting a ROM size panics on firmware data (C23); processor characteristics are dropped at
  2.5 (C27); cache fields at 2.1 and 3.1, panic at 2.0 (C28); BIOS language at 2.0 (C32)
* `installable_languages` wraps or panics when polled past its end (C32)
* group associations of length 4 underflow (C33); event log descriptors ignore their own length
  and a zero length panics (C34)
* memory arrays at 2.1 decode to defaults, with handle 0 (also C69); extended capacity ignored at 2.7 (C37)
* legal memory devices shorter than 20h are rejected; device set is never `None` (C38)
* batteries: an absent string is not reported as such (C40); the capacity product overflows (C41)
* `strings()` is not fused (C20); version pairs are cut to 8 bits (C51)
* `Reserved` misreports one-bit runs after another reserved run (C48); BIOS characteristics bits 0
  and 1 count as significant (C47)
* form factor codes are shifted, memory array location codes are wrong, U.2 slots are decoded as
  plain PCI Express slots (C49)
* texts that are not the standard's: "PCMCIA Type I2", "Values with Memory Address", "I/O channel block",
  footnote marks in processor families (C75), 5.5V for 5V (C56, C75)
* texts: slot pitch ten times too large, legacy 5V shown as 5.5V (C56); plain event log texts
  collide (C53)
* processor status is a code but its constants are flags: 3 "contains" enabled, and two names are never listed;
  "128-bit capable" is dropped; `RESERVED` of memory devices has no bits (C76)
* packed battery dates with month 0 or 13 to 15 or day 0 are handed out as dates (C77)
* five names are never decoded: four U.2 slot types and `AvailableForAssignment` (C77)
* the work of an iteration is not bounded by the announced length (C78)
* big-endian machines read reversed numbers, and then past the table (C79); the wide fields of types 0, 2, 3, 4 and 7 and
  the segment groups of peer devices come out reversed, and a peer device does not turn back into its bytes (C84)
* a bit field iterator with an index past the end panics instead of ending (C80)
* the documented way to open a dump cuts a 64-bit table address to 32 bits on 32-bit machines, and takes other
  bytes for the table (C71)
* four error messages state wrong numbers (C60)
* where memory past the end can be read, a short structure shows bytes of its neighbour (C63)
* the safe conversions of `Device` and `ContainedElement` read outside short slices;
  `ContainedElements::count` can differ from the number of elements (C68)
* descriptor lists that yield the same items may compare unequal (C59)
* the intermediate anchor `_DMI_` and checksum of a 2.x entry point are not checked; a changed length byte or anchor
  can go unnoticed (C88)
* a buffer that ends between two structures, but is announced with more, is read past its end (C89)
* seven decoders refuse a structure with appended fields; an enclosure without its last field can become undecodable, or
  panic, when bytes are appended (C90)
* a string appended to a battery whose date had a number without a string changes its date; appended to system
  configuration options it makes them undecodable (C91)
* one structure with a crashing decoder hides all structures behind it, so what is seen depends on their order (C92)
* the default form factor is decoded from code 1, which the standard calls other (C93)
* the hand-written `Hash` of the lists of contained elements, peer devices and event log descriptors (003_enclosure.rs:447-453, 009_system_slots.rs:857-861, 015_system_event_log/mod.rs:368-372) feeds the records without their number, against the clause on prefix collisions of the contract of `Hash`: the bytes of one event log can begin those of another, and two different pairs of lists of peer devices can make exactly the same calls (C95_event_log_refuted, C95_enclosure_refuted, C95_pairs_of_lists_refuted).
* a structure with a length byte that is too small can make structures appear that are not in the table (C96)
* the number and the largest size of structures that a 2.x entry point announces are ignored (C97)
* two raw structures that no caller can tell apart by reading may differ by `==`: the bytes of a text that is not UTF-8, and all texts behind it, are compared but cannot be read (C98)
* references to memory arrays cannot be followed below version 2.2: all of them are found under handle 0 and none under its own (C99, a consequence of C69)
* Going through `InstallableLanguages` starts at the first string for each name: work is quadratic in the number of names (C101_languages_linear_refuted), while the string area alone would allow one pass (C101_strings).
* `count`, `last` and `collect` on the languages of a BIOS with 255 strings or more never return in a build without overflow checks (C102_languages_refuted).
* the developer text of a processor's status writes a code as bits: `CPU_ENABLED | CPU_DISABLED_BY_USER` for a
  processor that the BIOS disabled (C87)

## Testing the theorems against wrong programs

`tools/mutate.py` edits one line of a model file in a scratch copy (boundary shifted, comparison or
connective flipped, constant changed, arguments swapped, branch or update dropped) and
rechecks every dependent file, recording which lemmas and theorems fail.  `tools/seedlog.py`
turns its answers into `seeded/LOG.jsonl`.  Edits no theorem noticed were either shown
to compute the same function (noted in the log) or led to a tightened or new theorem.
