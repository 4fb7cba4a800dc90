#!/usr/bin/env python3
"""Writes what `#[derive(Debug)]` tells the formatter, type by type.

Reads the declarations in /repo/src (names of types, variants and fields, in order) and the
types in rocq/theories that model them, like gen_eq.py, and emits for each type the function
from a value to its `tree` (M_Show).  With the argument `proofs` it emits the lemmas about them.
usage: gen_show.py > rocq/theories/G_Show.v; gen_show.py proofs > rocq/theories/L_GShow.v
"""
import re, sys, os
MODE_ = sys.argv[1] if len(sys.argv) > 1 else 'model'
HERE = os.path.dirname(os.path.abspath(__file__))
src = open(os.path.join(HERE, 'gen_eq.py')).read()
ns = {'__file__': os.path.join(HERE, 'gen_eq.py')}
sys.argv = sys.argv[:1]
exec(src[:src.index("if MODE == 'model':")], ns)
TYPES, BIG, rust_text, nocomment, split_top, coq_type, clean, NOT_RUST, RENAMED, WIDTH, HAND, REPO, S = (
    ns[k] for k in 'TYPES BIG rust_text nocomment split_top coq_type clean NOT_RUST RENAMED WIDTH HAND REPO S'.split())
import glob
FLAGS, WRAP = set(), set()
for g in glob.glob(REPO + 'src/**/*.rs', recursive=True):
    t = open(g).read()
    for n, w in re.findall(r'struct (\w+): (u\d+)', t): FLAGS.add(n)
    for n, w in re.findall(r'#\[derive\([^)]*Debug[^)]*\)\]\s*pub struct (\w+)\((?:pub )?(u\d+|usize)\);', t): WRAP.add(n)
# BiosRevision and FirmwareRevision have one model
TYPES = [x for x in TYPES if x[1] != 'BiosRevision']
i = [x[1] for x in TYPES].index('RomSize')
TYPES[i:i] = [(S+'000_bios.rs', 'BiosRevision', 'Revision'), (S+'000_bios.rs', 'FirmwareRevision', 'Revision')]
NEEDS = {'ContainedElements'}           # types whose text depends on the machine

def name_of(rn, cn): return rn if cn == 'Revision' else cn
def rust_decl(f, name):
    t = rust_text(f)
    m = re.search(r'(#\[derive\(([^)]*)\)\]\s*(?:#\[[^\]]*\]\s*)*)(?:pub )?(struct|enum) ' + name + r'(<[^>]*>)?\s*([({])', t)
    first = t[:m.start(1)].count('\n') + 1
    i = m.end() - 1; d = 0; j = i
    while True:
        if t[j] in '({': d += 1
        if t[j] in ')}':
            d -= 1
            if d == 0: break
        j += 1
    last = t[:j].count('\n') + 1
    assert 'Debug' in {x.strip() for x in m.group(2).split(',')}, name
    items = split_top(nocomment(t[i+1:j]))
    where = f'{f}:{first}-{last}'
    def field(x):
        a, b = re.sub(r'^pub(\(crate\))? ', '', x).split(':', 1)
        return a.strip(), b.strip()
    if m.group(3) == 'struct':
        if t[i] == '(': return where, 'tuple', [(str(k), re.sub(r'^pub ', '', x)) for k, x in enumerate(items)]
        return where, 'struct', [field(x) for x in items]
    vs = []
    for x in items:
        mm = re.match(r'(\w+)\s*(?:\((.*)\)|\{(.*)\})?$', x, re.S)
        n, tup, st = mm.groups()
        if tup is not None: vs.append((n, 'tuple', [(None, y) for y in split_top(tup)]))
        elif st is not None: vs.append((n, 'struct', [field(y) for y in split_top(st)]))
        else: vs.append((n, 'unit', []))
    return where, 'enum', vs

def show(r, c):
    """function to a tree, and its lemma"""
    r = clean(r)
    m = re.match(r'Option<(.*)>$', r)
    if m:
        assert c.startswith('option '), (r, c)
        e, l, n = show(m.group(1), c[7:].strip('() '))
        return f'(show_option {e})', f'(option_sound _ _ {l})', n
    if c == 'N':
        w = WIDTH[r].upper() if WIDTH[r] != 'usize' else 'Usize'
        if r in FLAGS: return f'(show_flags "{r}" {r}_constants)', f'(flags_sound "{r}" {r}_constants {w} eq_refl)', False
        if r in WRAP: return f'(show_wrapped "{r}")', f'(wrapped_sound "{r}" {w} eq_refl)', False
        assert r in ('u8', 'u16', 'u32', 'u64', 'usize'), r
        return 'show_int', f'(int_sound {w})', False
    if c == 'bool': return 'show_bool', 'bool_sound', False
    if c == 'text': return 'Quoted', 'str_sound', False
    if c == 'list N':
        if r == 'Uuid': return 'show_uuid', 'uuid_sound', False
        return 'show_bytes', 'bytes_sound', False
    if c in HAND:
        if c in NEEDS: return f'({c}_tree c)', f'({HAND[c].lower()}_sound c)', True
        return f'{c}_tree', f'{HAND[c].lower()}_sound', False
    n = name_of(r, c)
    if c in NEEDS: return f'({n}_tree c)', f'({n}_sound c)', True
    return f'{n}_tree', f'{n}_sound', False

def out(*a): print(*a)
if MODE_ == 'model':
    out('''(* Generated by tools/gen_show.py from /repo/src; do not edit by hand.
   For every type with a derived `Debug`: what it tells the formatter, the names of the type
   or variant and of its fields, and the fields, in the order of the declaration. *)
From Coq Require Import String.
From Verif Require Import Base G_Enums M_Raw M_Entry M_Bios M_System M_BaseBoard M_Enclosure M_Processor M_Cache
  M_PortConnector M_SystemSlots M_Strings M_GroupAssociations M_SystemEventLog M_PhysicalMemoryArray M_MemoryDevice
  M_Memory M_PortableBattery M_Iter M_Flags M_Eq G_Eq M_Show.
Local Open Scope string_scope.
Local Open Scope N_scope.
''')
else:
    out('''(* Generated by tools/gen_show.py; do not edit by hand.  What a value tells the formatter
   determines the parts that == compares. *)
From Coq Require Import String.
From Verif Require Import Base G_Enums M_Raw M_Entry M_Bios M_System M_BaseBoard M_Enclosure M_Processor M_Cache
  M_PortConnector M_SystemSlots M_Strings M_GroupAssociations M_SystemEventLog M_PhysicalMemoryArray M_MemoryDevice
  M_Memory M_PortableBattery M_Iter M_Flags M_Eq G_Eq M_Show G_Show S_Show L_Show.
Local Open Scope string_scope.
Local Open Scope N_scope.
''')
for f, rn, cn in TYPES:
    where, kind, rust = rust_decl(f, rn)
    ck, cq = coq_type(cn)
    name = name_of(rn, cn)
    if cn in BIG:
        assert [n for n, *_ in rust] == [n[len(cn)+1:] for n, _ in cq], cn
        if MODE_ == 'model':
            out(f'(* {where} `enum {rn}` *)')
            out(f'Definition {cn}_name (x : {cn}) : string :=\n  match x with')
            for (r, *_), (n, a) in zip(rust, cq): out(f'  | {n}{" _" * len(a)} => "{r}"')
            out('  end.')
            out(f'Definition {cn}_tree (x : {cn}) : tree := show_variant ({cn}_name x) ({cn}_value x).\n')
        else:
            ws = {fs[0][1] for _, _, fs in rust if fs}
            w = (ws.pop() if ws else 'u8').upper()
            out(f'Definition {cn}_names : list string := [' + '; '.join(f'"{r}"' for r, *_ in rust) + '].')
            out(f'Lemma {cn}_sound : sound {cn}_tree {cn}_parts.')
            out(f'Proof. apply (variant_sound {w} {cn}_name {cn}_tag {cn}_value {cn}_names); [intros []; reflexivity|reflexivity]. Qed.\n')
        continue
    if kind in ('struct', 'tuple'):
        cq = [(n, t) for n, t in cq if n not in NOT_RUST]
        assert len(cq) == len(rust), cn
        fs, needs = [], False
        for (rf, rt), (cf, ct) in zip(rust, cq):
            ok = RENAMED.get(cf) == rf or cf == rf or cf.endswith('_' + rf.rstrip('_')) or cf.endswith('_' + rf)
            assert ok, (cn, rf, cf)
            e, l, n = show(rt, ct)
            needs |= n
            fs.append((re.sub('^r#', '', rf), cf, e, l))
        if needs: NEEDS.add(cn)
        cp, ca = (' (c : cfg)', ' c') if needs else ('', '')
        if MODE_ == 'model':
            out(f'(* {where} `struct {rn}` *)')
            if kind == 'struct':
                body = f'Fields "{rn}"\n    [' + ';\n     '.join(f'("{rf}", {e} ({cf} x))' for rf, cf, e, _ in fs) + ']'
            else:
                body = f'Call "{rn}" [' + '; '.join(f'{e} ({cf} x)' for rf, cf, e, _ in fs) + ']'
            out(f'Definition {name}_tree{cp} (x : {cn}) : tree :=\n  {body}.\n')
        else:
            term = None
            k = 'field' if kind == 'struct' else 'arg'
            for rf, cf, e, l in reversed(fs):
                nm, pl = (f' "{rf}"', ' eq_refl') if kind == 'struct' else ('', '')
                term = f'(last_{k}{nm} {cf} _ _ {l}{pl})' if term is None else f'(then_{k}{nm} {cf} _ _ _ _ {l}{pl}\n  {term})'
            out(f'Lemma {name}_sound{cp} : sound ({name}_tree{ca}) {cn}_parts.')
            out(f'Proof. exact ({"fields" if kind == "struct" else "call"}_sound "{rn}" _ _ {term} eq_refl). Qed.\n')
    else:
        def same_name(c, r): return c == r or c.endswith('_' + r) or c == 'S' + r or c == r + '_2'
        assert len(rust) == len(cq) and all(same_name(c, r[0]) for r, (c, _) in zip(rust, cq)), cn
        vs, needs = [], False
        for (r, k, rts), (c, args) in zip(rust, cq):
            ps, rest, ls = [], list(zip(rts, args)), []
            if rts and rts[0][1] == '[u8; 2]':
                ps = [(rts[0][0], f'show_bytes [{args[0][0]}; {args[1][0]}]')]; ls = ['bytes_sound']
                rest = list(zip(rts[1:], args[2:]))
            else: assert len(rts) == len(args), (cn, c)
            for (rf, rt), (a, ct) in rest:
                e, l, n = show(rt, ct)
                needs |= n
                ps.append((rf, f'{e} {a}')); ls.append(l)
            if k == 'unit': body = f'show_unit "{r}"'
            elif k == 'tuple': body = f'Call "{r}" [' + '; '.join(p for _, p in ps) + ']'
            else: body = f'Fields "{r}" [' + '; '.join(f'("{rf}", {p})' for rf, p in ps) + ']'
            vs.append((c, [a for a, _ in args], body, ls, k))
        if needs: NEEDS.add(cn)
        cp, ca = (' (c : cfg)', ' c') if needs else ('', '')
        if MODE_ == 'model':
            out(f'(* {where} `enum {rn}` *)')
            out(f'Definition {name}_tree{cp} (x : {cn}) : tree :=\n  match x with')
            for c, a, b, _, _ in vs: out(f'  | {" ".join([c] + a)} => {b}')
            out('  end.\n')
        else:
            out(f'Lemma {name}_sound{cp} : sound ({name}_tree{ca}) {cn}_parts.')
            if cn in ('Structure', 'EntryPoint'):
                pat = '[' + '|'.join('s' for _ in vs) + ']'
                out('Proof.\n  split.')
                out(f'  - intros {pat} H; apply Forall_inv_tail in H;\n    [' + '\n    |'.join(f'exact (neat_call1 "{r[0]}" _ eq_refl (proj1 {v[3][0]} s H))' for v, r in zip(vs, rust)) + '].')
                out(f'  - intros x y HX HY E. assert (N := f_equal tree_name E).')
                out(f'    destruct x as {pat}, y as {pat.replace("s", "t")}; cbn [tree_name {name}_tree] in N; try discriminate N; clear N;\n    [' +
                    '\n    |'.join(f'exact (told_call1 {k} "{r[0]}" _ _ s t (proj2 {v[3][0]}) HX HY E)' for k, (v, r) in enumerate(zip(vs, rust))) + '].')
                out('Qed.\n')
                continue
            ls = sorted({l for v in vs for l in v[3]})
            out('Proof.\n  split.')
            out(f'  - intros []; unfold well_typed; cbn [{name}_tree {cn}_parts]; intros H; enum_neat; ' + 'first [' + '|'.join(f'apply {l}; assumption' for l in ls) + '].' )
            out(f'  - intros [] []; unfold well_typed; cbn [{name}_tree {cn}_parts]; intros H1 H2 E; try discriminate E; enum_told; ' + 'first [' + '|'.join(f'apply {l}; assumption' for l in ls) + '].')
            out('Qed.\n')
if MODE_ == 'model':
    out('''(* `{:?}` and, with [alt], `{:#?}` of the types a caller gets from the library *)''')
    for cn in ['RawStructure', 'InfoType', 'SmbiosVersion', 'EntryPoint', 'Structures', 'StructureStrings', 'ContainedElement',
               'Device', 'GroupItem', 'EventLogTypeDescriptor']:
        out(f'Definition {cn}_debug_text (u : characters) (alt : bool) (x : {cn}) : string := print u alt 0 ({cn}_tree x).')
    out(f'Definition Structure_debug_text (u : characters) (c : cfg) (alt : bool) (x : Structure) : string := print u alt 0 (Structure_tree c x).')
else:
    out('''(* the value that an integer is turned into is one that the type can hold *)
Ltac from_fits := intros H; repeat match goal with |- context [if ?b then _ else _] => destruct b; [repeat constructor|] end;
  repeat constructor; exact H.''')
    g = open(os.path.join(HERE, '../rocq/theories/G_Enums.v')).read()
    for f, rn, cn in TYPES:
        if cn not in BIG: continue
        where, kind, rust = rust_decl(f, rn)
        ws = {fs[0][1] for _, _, fs in rust if fs}
        if not ws:
            out(f'Lemma {cn}_fits x : Forall fits_type ({cn}_parts x). Proof. destruct x; repeat constructor. Qed.')
            continue
        w = int(ws.pop()[1:])
        assert f'Definition {cn}_from ' in g, cn
        out(f'Lemma {cn}_fits n : n < 2 ^ {w} -> Forall fits_type ({cn}_parts ({cn}_from n)). Proof. unfold {cn}_from. from_fits. Qed.')
    out('Ltac enum_fits :=\n  lazymatch goal with')
    for f, rn, cn in TYPES:
        if cn in BIG: out(f'  | |- Forall fits_type ({cn}_parts _) => apply {cn}_fits')
    out('  end.')
