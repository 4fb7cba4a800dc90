{
 "C05": "Exact acceptance boundary proved; the unconditional claim is refuted with a witness (the remaining length is truncated to 8 bits).",
 "C14": "The exact panic and over-read sets are proved; 'framing never crashes' is refuted with witnesses.",
 "C15": "Header and formatted area proved inside; 'strings stay inside' is refuted with a witness.",
 "C16": "Proved for encoded tables and for every buffer whose iteration does not end in an unterminated-strings error; without that hypothesis it is refuted.",
 "C20": "Round trip and enumeration proved; 'the iterator is fused' is refuted.",
 "C23": "Exact panic set proved; 'never panics' is refuted with a structure a table can contain.",
 "C25": "The chassis handle is read by a packed read that may leave the formatted area: refuted for short areas.",
 "C27": "Characteristics at exactly 2.5 are dropped by the code: stated as _refuted.",
 "C28": "Fields at exactly 2.1 and 3.1 are dropped by the code: stated as _refuted.",
 "C32": "The current language at 2.0 is read from the 2.1 position, and the languages iterator is not fused: stated as _refuted.",
 "C33": "A declared length of 4 underflows: stated as _refuted.",
 "C34": "Descriptors ignore the declared descriptor size: stated as _refuted.",
 "C37": "Version 2.1 and the extended capacity at 2.7 are not decoded: stated as _refuted.",
 "C38": "Short legal structures are rejected and the device set is never absent: stated as _refuted.",
 "C40": "'Absent text is reported as absent' is refuted.",
 "C41": "Exact for products below 65536; refuted above.",
 "C42": "Exact over-read sets, in both memory models; 'only own bytes are read' is refuted, also by a firmware dump of the test suite.",
 "C47": "Exact with respect to the layout; two bits the standard reserves are shown as significant (refuted).",
 "C48": "Exact reports proved for every layout; the maximal-run reading is refuted in general and proved for all shipped layouts.",
 "C49": "One theorem per enumeration; FormFactor and MemoryArrayLocation differ from the standard (exact sets proved, equality refuted).",
 "C51": "Building a version from a pair cuts both numbers to eight bits, so the order of pairs is not kept (refuted).",
 "C53": "Plain texts of event log types and header formats collide (refuted); alternate texts are injective.",
 "C56": "Exact tenths proved for every value; the quotient is the binary32 quotient of the standard library's IEEE-754 specification; the unit of pitches and the legacy 5V text are wrong (refuted).",
 "C59": "The converse for descriptors and the statement for element records below three bytes are refuted.",
 "C60": "All errors except four kinds are accurate; the four are exhibited as _refuted.",
 "C61": "The C05 boundary appears as a hypothesis on what follows the entry point.",
 "C62": "The converse direction is refuted.",
 "C63": "Proved where reads past a structure are undefined; where they are tolerated it is refuted with a witness.",
 "C64": "The concatenation needs that no End structure stops a version 3 reader; without it, refuted.",
 "C72": "Proved, with the exact equality relation; 'copies decode to equal structures' is proved for strict memory and refuted where reads past a structure are tolerated.",
 "C73": "Proved, with the exact list of fields that a value shows for every type; that nothing is ever lost is refuted for the eight types of which something is.",
 "C75": "Proved, with the exact list of codes whose text is not the standard's; that every text is the standard's is refuted.",
 "C76": "Proved for all words; the four expectations that are false are refuted. The operations of the bitflags crate are modelled after its documentation.",
 "C77": "Proved for every enumeration and for the types whose values have parts; that every name can come out, and that packed dates are dates, are refuted.",
 "C78": "Proved for counting versions of the loops, which are proved to compute what the model computes; that the announced length bounds the work is refuted.",
 "C79": "Proved for entry points and structure headers; that the numbers are the same on every machine is refuted. C84 is about the decoders.",
 "C80": "Proved; that iteration from any index ends, and that the debug text tells everything about a flag, are refuted.",
 "C81": "Proved; that accessors agree on offsets close to 2^32, and positions from 32 on, is refuted.",
 "C82": "Proved. What derive(Debug) and core's formatter do is modelled; escaping of characters above 7Fh is not (no text in an error has any).",
 "C83": "Proved; that iterators yielding the same significant flags compare equal, and that a default iterator is empty, are refuted.",
 "C84": "Proved; that structures decode alike on every machine, and that peer devices round-trip on a big-endian one, are refuted.",
 "C85": "Proved for any tables of printable and combining characters; that equal structures always have the same text is refuted (event logs without descriptors). core's formatter, bitflags and uuid are modelled after their documentation.",
 "C86": "Proved for any tables of printable and combining characters and any layout; that the text tells the integer type is refuted. core's formatter is modelled after its documentation.",
 "C87": "Proved for both forms and all enumerations; that the text of a processor's status names the status is refuted. core's formatter, bitflags and uuid are modelled after their documentation.",
 "C88": "Proved; two expectations about single bytes and the one about the intermediate anchor and checksum are refuted.",
 "C89": "Proved; that a cut between two structures is harmless is refuted. With readable memory past the slice, short structures can show other bytes (C63).",
 "C90": "Proved; that longer structures are always taken is refuted for seven types and for incomplete enclosures.",
 "C91": "Proved; that appended strings never change anything, and that strings are never taken for fields where memory past a slice is readable, are refuted.",
 "C92": "Proved for reads that stay inside their slice; that order never matters is refuted for crashing structures and for End structures from version 3 on.",
 "C93": "Proved; that the default form factor is the one the standard calls unknown is refuted.",
 "C94": "Proved; that bits 0 and 1 of the BIOS characteristics can be told apart from what is printed is refuted.",
 "C95": "Proved; that enclosures with contained elements, event logs with descriptors and pairs of lists of peer devices are free of prefix collisions is refuted.",
 "C96": "Proved; that a wrong length byte can only hide structures is refuted.",
 "C97": "Proved; that the announced number and size of structures are limits is refuted.",
 "C98": "Proved for all client programs as trees of questions and continuations; that == sees no more than what can be read is refuted.",
 "C99": "Proved; that memory arrays below version 2.2 are found by their handle is refuted.",
 "C100": "Proved for programs as trees of calls; that iterators with the same answers are equal is refuted. derive(Clone) is modelled as copying the state.",
 "C101": "Proved on counting versions of the decoders that are proved to return what the decoders return; that languages take linear work is refuted. Steps are bytes looked at by the searches for string ends and by the UTF-8 check; reading fields of fixed size is not counted.",
 "C102": "The provided methods of core::iter::Iterator are modelled as loops over next; that they always come to an end is refuted for the languages. Closures that panic or do not return are not modelled.",
 "C103": "Fields behind a list of variable size (contained elements, SKU of an enclosure, peer devices and what follows them, log type descriptors, group items) are given as all bytes from an offset on; C103_needed speaks about the ranges of fixed size. The languages of type 13 keep the whole structure, so that this field depends on all its bytes.",
 "C104": "The place of the SKU number of an enclosure depends on two other deciding bytes; their product is taken in one byte, as the code does without overflow checks (with them the decoder panics when it does not fit).",
 "C105": "Sharpens C103 for the fields that are given there as all bytes from an offset on. That every byte shows is not claimed of the SKU number, which is the number of a string. The length bytes themselves are deciding bytes of C104 for enclosures and logs.",
 "C106": "C66 says what a newer version may add; C106 says exactly between which versions anything changes at all.",
 "C107": "Puts the three kinds of failure of C22-C44 together into one condition for success."
}
