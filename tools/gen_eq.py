#!/usr/bin/env python3
"""Writes the parts that `#[derive(PartialEq, Eq, Hash)]` compares and hashes, type by type.

For every type below it reads the declaration in /repo/src (the order of the fields, their
widths, the order of the variants) and the type in rocq/theories that models it, checks that
the names agree, and emits the function that lists the parts of a value in the order of the
declaration.  With the argument `proofs` or `stream` it emits the lemmas about them instead.
usage: gen_eq.py > rocq/theories/G_Eq.v; gen_eq.py proofs > rocq/theories/L_GEq.v;
       gen_eq.py stream > rocq/theories/L_GStream.v
"""
import re, sys, glob, os
sys.argv, MODE = sys.argv[:1], (sys.argv[1] if len(sys.argv) > 1 else 'model')
REPO = '/repo/'
TH = os.path.join(os.path.dirname(os.path.abspath(__file__)), '../rocq/theories/')
src = open(os.path.join(os.path.dirname(os.path.abspath(__file__)), 'gen_enums.py')).read()
ns = {}
exec(src[src.index("S = 'src"):src.index('def block')], ns)
ENUMS = ns['ENUMS']
S = 'src/structures/'
LOG = S + '015_system_event_log/'
BIG = {c for _, _, c in ENUMS}          # enumerations with at most one integer in a variant
TYPES = ENUMS + [
    ('src/lib.rs', 'SmbiosVersion', 'SmbiosVersion'),
    ('src/lib.rs', 'RawStructure', 'RawStructure'),
    ('src/lib.rs', 'StructureStrings', 'StructureStrings'),
    (S+'000_bios.rs', 'BiosRevision', 'Revision'),
    (S+'000_bios.rs', 'RomSize', 'RomSize'),
    (S+'000_bios.rs', 'Bios', 'Bios'),
    (S+'001_system.rs', 'System', 'System'),
    (S+'002_baseboard.rs', 'BaseBoard', 'BaseBoard'),
    (S+'003_enclosure.rs', 'ContainedElementType', 'ContainedElementType'),
    (S+'003_enclosure.rs', 'ContainedElement', 'ContainedElement'),
    (S+'003_enclosure.rs', 'Enclosure', 'Enclosure'),
    (S+'004_processor.rs', 'Voltage', 'Voltage'),
    (S+'004_processor.rs', 'Processor', 'Processor'),
    (S+'007_cache.rs', 'CacheConfiguration', 'CacheConfiguration'),
    (S+'007_cache.rs', 'CacheSize', 'CacheSize'),
    (S+'007_cache.rs', 'CacheSize2', 'CacheSize2'),
    (S+'007_cache.rs', 'Cache', 'Cache'),
    (S+'008_port_connector.rs', 'PortConnector', 'PortConnector'),
    (S+'009_system_slots.rs', 'DeviceAndFunctionNumber', 'DeviceAndFunctionNumber'),
    (S+'009_system_slots.rs', 'Device', 'Device'),
    (S+'009_system_slots.rs', 'SystemSlots', 'SystemSlots'),
    (S+'011_oem_strings.rs', 'OemStrings', 'OemStrings'),
    (S+'012_system_configuration_options.rs', 'SystemConfigurationOptions', 'SystemConfigurationOptions'),
    (S+'013_bios_language.rs', 'InstallableLanguages', 'InstallableLanguages'),
    (S+'013_bios_language.rs', 'BiosLanguage', 'BiosLanguage'),
    (S+'014_group_associations.rs', 'GroupItems', 'GroupItems'),
    (S+'014_group_associations.rs', 'GroupItem', 'GroupItem'),
    (S+'014_group_associations.rs', 'GroupAssociations', 'GroupAssociations'),
    (LOG+'log_record_format.rs', 'SystemManagementType', 'SystemManagementType'),
    (LOG+'log_record_format.rs', 'VariableDataFormatType', 'VariableDataFormatType'),
    (LOG+'mod.rs', 'EventLogTypeDescriptor', 'EventLogTypeDescriptor'),
    (LOG+'mod.rs', 'AccessMethod', 'AccessMethod'),
    (LOG+'mod.rs', 'SystemEventLog', 'SystemEventLog'),
    (S+'016_physical_memory_array.rs', 'PhysicalMemoryArray', 'PhysicalMemoryArray'),
    (S+'017_memory_device.rs', 'MemoryDevice', 'MemoryDevice'),
    (S+'018_memory_error_32.rs', 'MemoryError32', 'MemoryError32'),
    (S+'019_memory_array_mapped_address.rs', 'MemoryArrayMappedAddress', 'MemoryArrayMappedAddress'),
    (S+'020_memory_device_mapped_address.rs', 'MemoryDeviceMappedAddress', 'MemoryDeviceMappedAddress'),
    (S+'021_built_in_pointing_device.rs', 'BuiltInPointingDevice', 'BuiltInPointingDevice'),
    (S+'022_portable_battery.rs', 'ManufactureDate', 'ManufactureDate'),
    (S+'022_portable_battery.rs', 'SerialNumber', 'SerialNumber'),
    (S+'022_portable_battery.rs', 'DesignCapacity', 'DesignCapacity'),
    (S+'022_portable_battery.rs', 'DeviceChemistry', 'DeviceChemistry'),
    (S+'022_portable_battery.rs', 'PortableBattery', 'PortableBattery'),
    ('src/lib.rs', 'Structure', 'Structure'),
    ('src/lib.rs', 'Structures', 'Structures'),
    ('src/lib.rs', 'EntryPointV2', 'EntryPointV2'),
    ('src/lib.rs', 'EntryPointV3', 'EntryPointV3'),
    ('src/lib.rs', 'EntryPoint', 'EntryPoint'),
]
# model-only fields, and fields of the three types with a hand-written PartialEq and Hash
NOT_RUST = {'after'}
HAND = {'ContainedElements': 'Elements', 'PeerDevices': 'Peers', 'EventLogTypeDescriptors': 'Descriptors'}
# names that differ
RENAMED = {'length_': 'length', 'smbios_len_': 'smbios_len', 'v3_reserved': '_reserved', 'log_descriptors': 'supported_event_log_type_descriptors',
  'bios_characteristics_extension_1': 'bios_characteristics_exttension_1', 'bios_characteristics_extension_2': 'bios_characteristics_exttension_2', 'array_use': 'r#use',
  'dev': '0', 'fun_': '1'}

# ------------------------------------------------------------------ Rust side
def rust_text(f):
    t = open(REPO + f).read()
    return t.split('#[cfg(test)]')[0]
def nocomment(b):
    b = re.sub(r'//[^\n]*', '', b)
    return re.sub(r'#\[[^\]]*\]', '', b)
def split_top(t):
    out, d, cur = [], 0, ''
    for c in t:
        if c in '([{<': d += 1
        if c in ')]}>': d -= 1
        if c == ',' and d == 0: out.append(cur.strip()); cur = ''
        else: cur += c
    if cur.strip(): out.append(cur.strip())
    return [x for x in out if x]
def rust_type(f, name):
    t = rust_text(f)
    m = re.search(r'(#\[derive\(([^)]*)\)\]\s*(?:#\[[^\]]*\]\s*)*)(?:pub )?(struct|enum) ' + name + r'(<[^>]*>)?\s*([({])', t)
    first = t[:m.start(1)].count('\n') + 1
    i = m.end() - 1; d = 0; j = i
    while True:
        if t[j] in '({': d += 1
        if t[j] in ')}':
            d -= 1
            if d == 0: break
        j += 1
    last = t[:j].count('\n') + 1
    der = {x.strip() for x in m.group(2).split(',')}
    assert {'PartialEq', 'Eq', 'Hash'} <= der, name
    body = nocomment(t[i+1:j])
    items = split_top(body)
    where = f'{f}:{first}-{last}'
    if m.group(3) == 'struct':
        if t[i] == '(': return where, 'struct', [(str(k), re.sub(r'^pub ', '', x)) for k, x in enumerate(items)]
        return where, 'struct', [tuple(y.strip() for y in re.sub(r'^pub(\(crate\))? ', '', x).split(':', 1)) for x in items]
    vs = []
    for x in items:
        mm = re.match(r'(\w+)\s*(?:\((.*)\)|\{(.*)\})?$', x, re.S)
        n, tup, st = mm.groups()
        if tup is not None: fs = split_top(tup)
        elif st is not None: fs = [y.split(':', 1)[1].strip() for y in split_top(st)]
        else: fs = []
        vs.append((n, fs))
    return where, 'enum', vs
WIDTH = {}
for g in glob.glob(REPO + 'src/**/*.rs', recursive=True):
    t = open(g).read()
    for n, w in re.findall(r'struct (\w+): (u\d+)', t): WIDTH[n] = w
    for n, w in re.findall(r'struct (\w+)\((?:pub )?(u\d+|usize)\);', t): WIDTH[n] = w
WIDTH = {k: v for k, v in WIDTH.items()}
for w in ['u8', 'u16', 'u32', 'u64', 'usize']: WIDTH[w] = w

# ------------------------------------------------------------------- Coq side
coq = ''.join(open(f).read() for f in sorted(glob.glob(TH + 'G_Enums.v') + [x for x in glob.glob(TH + 'M_*.v')]))
coq = re.sub(r'\(\*.*?\*\)', '', coq, flags=re.S)
def coq_type(name):
    m = re.search(r'Record ' + name + r'(?: : Type)? := \{(.*?)\}\.', coq, re.S)
    if m:
        return 'record', [(a.strip(), b.strip()) for a, b in (x.split(':', 1) for x in m.group(1).split(';') if x.strip())]
    m = re.search(r'Inductive ' + name + r'(?: : Type)? :=(.*?)\.\n', coq, re.S)
    cs = []
    for x in m.group(1).split('|'):
        x = x.strip()
        if not x: continue
        n = x.split()[0]
        args = []
        for ns_, ty in re.findall(r'\(([^:()]*):([^()]*)\)', x):
            args += [(a, ty.strip()) for a in ns_.split()]
        cs.append((n, args))
    return 'inductive', cs

def clean(r):
    return re.sub(r'<\'\w+>', '', r).replace('crate::baseboard::', '').replace('crate::', '').replace('uuid::', '').strip()
def encoder(r, c):
    """(function that lists the parts, name of its lemma) for Rust type r modelled by c"""
    r = clean(r)
    m = re.match(r'Option<(.*)>$', r)
    if m:
        assert c.startswith('option '), (r, c)
        e, l, o = encoder(m.group(1), c[7:].strip('() '))
        return f'(option_parts {e})', f'(option_codec {l})', o
    if c == 'N':
        return f'(num {WIDTH[r].upper() if WIDTH[r] != "usize" else "Usize"})', f'(num_codec {WIDTH[r].upper() if WIDTH[r] != "usize" else "Usize"})', False
    if c == 'bool': assert r == 'bool'; return 'flag', 'flag_codec', False
    if c == 'text': assert re.match(r"&'\w+ str$", r), r; return 'str', 'str_codec', False
    if c == 'list N':
        assert re.match(r"&'\w+ \[u8\]$|\[u8; \d\]$|Uuid$", r), r
        return 'slice', 'slice_codec', False
    if c in HAND: return HAND[c].lower(), HAND[c].lower() + '_codec', c in ('PeerDevices', 'EventLogTypeDescriptors')
    assert any(c == k for _, _, k in TYPES), (r, c)
    assert any(c == k and (r == n or (r, c) == ('FirmwareRevision', 'Revision')) for _, n, k in TYPES), (r, c)
    return f'{c}_parts', f'{c}_codec', c in OPEN
OPEN = set()
SMALL = set()        # types without slices, usize and lazy lists
def is_small(l):
    ns = re.findall(r'(\w+)_codec', l)
    return 'Usize' not in l and all(n in ('num', 'flag', 'str', 'option') or n in SMALL for n in ns)
def small(t):
    t = t.replace('_coh', '_small')
    return re.sub(r'\(num_small (\w+)\)', r'(num_small \1 eq_refl)', t)
# types whose equality is not that of all fields of the model; their lemmas are in L_Same.v
SPECIAL = {'RawStructure', 'InstallableLanguages', 'BiosLanguage', 'Enclosure', 'SystemEventLog', 'SystemSlots', 'Structure'}

def out(*a): print(*a)

if MODE == 'model':
    out('''(* Generated by tools/gen_eq.py from /repo/src; do not edit by hand.
   For every type with a derived `PartialEq` and `Hash`: the parts of a value, in the
   order of the declaration, which is the order in which the derived code compares
   and hashes them.  The discriminant of a variant is its place in the declaration. *)
From Coq Require Import String.
From Verif Require Import Base G_Enums M_Raw M_Entry M_Bios M_System M_BaseBoard M_Enclosure M_Processor M_Cache
  M_PortConnector M_SystemSlots M_Strings M_GroupAssociations M_SystemEventLog M_PhysicalMemoryArray M_MemoryDevice
  M_Memory M_PortableBattery M_Iter M_Hash M_Eq.
Local Open Scope N_scope.
''')
elif MODE == 'stream':
    out('''(* Generated by tools/gen_eq.py; do not edit by hand.  The parts of two values of a type
   are of the same kinds up to the first difference. *)
From Coq Require Import String.
From Verif Require Import Base G_Enums M_Raw M_Entry M_Bios M_System M_BaseBoard M_Enclosure M_Processor M_Cache
  M_PortConnector M_SystemSlots M_Strings M_GroupAssociations M_SystemEventLog M_PhysicalMemoryArray M_MemoryDevice
  M_Memory M_PortableBattery M_Iter M_Hash M_Eq G_Eq L_GEq L_Stream.
Local Open Scope N_scope.
''')
else:
    out('''(* Generated by tools/gen_eq.py; do not edit by hand.  The parts of a value determine
   it, and so do the calls they make on the hasher. *)
From Coq Require Import String.
From Verif Require Import Base G_Enums M_Raw M_Entry M_Bios M_System M_BaseBoard M_Enclosure M_Processor M_Cache
  M_PortConnector M_SystemSlots M_Strings M_GroupAssociations M_SystemEventLog M_PhysicalMemoryArray M_MemoryDevice
  M_Memory M_PortableBattery M_Iter M_Hash M_Eq G_Eq L_Eq.
Local Open Scope N_scope.
''')

for f, rn, cn in TYPES:
    where, kind, rust = rust_type(f, rn)
    ck, cq = coq_type(cn)
    if cn in BIG:
        assert [n for n, _ in rust] == [n[len(cn)+1:] for n, _ in cq], cn
        ws = {fs[0] for _, fs in rust if fs}
        w = (ws.pop() if ws else 'u8').upper()
        assert not ws and all(len(a) <= 1 for _, a in cq)
        wild = '_' if any(not a for _, a in cq) else None
        if MODE == 'model':
            out(f'(* {where} `enum {rn}` *)')
            out(f'Definition {cn}_tag (x : {cn}) : N :=\n  match x with')
            for k, (n, a) in enumerate(cq): out(f'  | {n}{" _" * len(a)} => {k}')
            out('  end.')
            out(f'Definition {cn}_value (x : {cn}) : option N :=\n  match x with')
            for n, a in cq:
                if a: out(f'  | {n} v => Some v')
            out('  | _ => None\n  end.')
            out(f'Definition {cn}_parts (x : {cn}) : list part := variant_parts {w} ({cn}_tag x) ({cn}_value x).\n')
        elif MODE == 'stream':
            out(f'Lemma {cn}_coh : coh {cn}_parts.')
            out(f'Proof. apply (variant_coh {w} {cn}_tag {cn}_value {cn}_has); intros []; reflexivity. Qed.')
            out(f'Lemma {cn}_small : small {cn}_parts.')
            out(f'Proof. apply (variant_small {w}). reflexivity. Qed.\n')
            SMALL.add(cn)
        else:
            out(f'Definition {cn}_back (k v : N) : {cn} :=\n  match k with')
            for k, (n, a) in enumerate(cq[:-1]): out(f'  | {k} => {n}{" v" * len(a)}')
            n, a = cq[-1]
            out(f'  | _ => {n}{" v" * len(a)}\n  end.')
            hs = [str(k) for k, (n, a) in enumerate(cq) if a]
            out(f'Definition {cn}_has (k : N) : bool :=\n  match k with')
            if hs: out('  | ' + ' | '.join(hs) + ' => true')
            out('  | _ => false\n  end.')
            out(f'Lemma {cn}_codec : codec {cn}_parts eq.')
            out(f'Proof. apply (variant_codec {w} {cn}_tag {cn}_value {cn}_back {cn}_has); intros []; reflexivity. Qed.\n')
        continue
    if kind == 'struct':
        cq = [(n, t) for n, t in cq if n not in NOT_RUST]
        assert len(cq) == len(rust), (cn, len(cq), len(rust))
        fs = []
        for (rf, rt), (cf, ct) in zip(rust, cq):
            ok = RENAMED.get(cf) == rf or cf == rf or cf.endswith('_' + rf.rstrip('_')) or cf.endswith('_' + rf)
            assert ok, (cn, rf, cf)
            e, l, o = encoder(rt, ct)
            fs.append((cf, e, l, o))
        if fs[-1][3]: OPEN.add(cn)
        if MODE == 'model':
            out(f'(* {where} `struct {rn}` *)')
            out(f'Definition {cn}_parts (x : {cn}) : list part :=\n  ' + ' ++\n  '.join(f'{e} ({cf} x)' for cf, e, _, _ in fs) + '.\n')
        elif MODE == 'stream':
            term = None
            for cf, e, l, o in reversed(fs):
                here = f'(on_coh {cf} {l.replace("codec", "coh")})'
                term = here if term is None else f'(then_coh {here}\n  {term})'
            out(f'Lemma {cn}_coh : coh {cn}_parts.')
            out(f'Proof. exact {term}. Qed.')
            if all(is_small(l) for _, _, l, _ in fs):
                SMALL.add(cn)
                term = term.replace('_coh', '_small').replace('(num_small Usize)', 'bug')
                out(f'Lemma {cn}_small : small {cn}_parts.')
                out(f'Proof. exact {small(term)}. Qed.')
            out('')
        elif cn not in SPECIAL:
            assert not any(o for *_, o in fs), cn
            term = None
            for cf, e, l, o in reversed(fs):
                here = f'(on_codec {cf} {l})'
                term = here if term is None else f'(then_codec {here}\n  {term})'
            out(f'Lemma {cn}_codec : codec {cn}_parts eq.')
            out(f'Proof. record_codec {term}. Qed.\n')
    else:
        # a small enumeration with any payload
        def same_name(c, r): return c == r or c.endswith('_' + r) or c == 'S' + r or c == r + '_2'
        assert len(rust) == len(cq) and all(same_name(c, r) for (r, _), (c, _) in zip(rust, cq)), cn
        vs = []
        for (r, rts), (c, args) in zip(rust, cq):
            ps, ls, rest = [], [], list(zip(rts, args))
            if rts and rts[0] == '[u8; 2]':            # AccessMethod: index : [u8; 2]
                ps, ls = [f'slice [{args[0][0]}; {args[1][0]}]'], ['slice_codec']
                rest = list(zip(rts[1:], args[2:]))
            else: assert len(rts) == len(args), (cn, c)
            for rt, (a, ct) in rest:
                e, l, o = encoder(rt, ct)
                ps.append(f'{e} {a}'); ls.append(l)
                if o: OPEN.add(cn)
            vs.append((c, [a for a, _ in args], ps, ls))
        if MODE == 'model':
            out(f'(* {where} `enum {rn}` *)')
            out(f'Definition {cn}_parts (x : {cn}) : list part :=\n  match x with')
            for k, (c, a, ps, _) in enumerate(vs):
                out(f'  | {" ".join([c] + a)} => Tag {k} :: ' + (' ++ '.join(ps) if ps else '[]'))
            out('  end.\n')
        elif MODE == 'stream':
            ls = sorted({l.replace('codec', 'coh') for v in vs for l in v[3]})
            ap = ''.join(f'|apply {l}' for l in ls)
            out(f'Lemma {cn}_coh : coh {cn}_parts.')
            out(f'Proof.\n  intros a b l m H. destruct a, b; cbn [{cn}_parts app]; (apply tag_coh; [reflexivity|reflexivity|intros E; try discriminate E]);')
            out(f'    rewrite <- ?app_assoc; repeat first [exact H{ap}].\nQed.')
            if all(is_small(l) for v in vs for l in v[3]):
                SMALL.add(cn)
                ap = ''.join(f'|apply {small(l)}' for l in ls)
                out(f'Lemma {cn}_small : small {cn}_parts.')
                out(f'Proof. intros []; cbn [{cn}_parts]; (constructor; [reflexivity|]); repeat first [apply Forall_app; split{ap}|constructor]. Qed.')
            out('')
        elif cn not in SPECIAL:
            out(f'Definition {cn}_tag (x : {cn}) : N :=\n  match x with')
            for k, (c, a, ps, _) in enumerate(vs): out(f'  | {" ".join([c] + ["_"] * len(a))} => {k}')
            out('  end.')
            out(f'Definition {cn}_body (x : {cn}) : list part :=\n  match x with')
            for k, (c, a, ps, _) in enumerate(vs): out(f'  | {" ".join([c] + a)} => ' + (' ++ '.join(ps) if ps else '[]'))
            out('  end.')
            ls = sorted({l for v in vs for l in v[3]})
            out(f'Lemma {cn}_codec : codec {cn}_parts eq.')
            out(f'Proof.\n  apply (codec_ext (fun x => Tag ({cn}_tag x) :: {cn}_body x)); [intros []; reflexivity|].')
            out(f'  apply cases_codec; [intros a b ->; reflexivity|].')
            out(f'  intros [] [] E; try discriminate E; clear E; cbn [{cn}_body]; (split; intros l m);')
            rw = '|'.join(f'rewrite (proj{i} {l})' for l in ls for i in (1, 2))
            out(f'    rewrite <- ?app_assoc; repeat first [{rw}]; case_done.')
            out('Qed.\n')
if MODE == 'model':
    out('(* `==` and `hash` of the types a caller gets from the library *)')
    for cn in ['Structure', 'RawStructure', 'InfoType', 'SmbiosVersion', 'EntryPoint', 'Structures', 'StructureStrings', 'ContainedElement',
               'Device', 'GroupItem', 'EventLogTypeDescriptor']:
        out(f'Definition {cn}_eq (a b : {cn}) : bool := derived_eq ({cn}_parts a) ({cn}_parts b).')
        out(f'Definition {cn}_hash (a : {cn}) : list call := derived_hash ({cn}_parts a).')
