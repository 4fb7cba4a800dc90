#!/usr/bin/env python3
"""Transliterates the `layout!` tables of the BitField impls in /repo/src/structures.
usage: gen_layouts.py [repo] > rocq/theories/G_Layouts.v"""
import re, sys, os
REPO = sys.argv[1] if len(sys.argv) > 1 else '/repo'
S = 'src/structures/'
FILES = ['000_bios.rs', '009_system_slots.rs', '013_bios_language.rs',
         '015_system_event_log/mod.rs', '015_system_event_log/log_record_format.rs']
BITS = {'u8': 1, 'u16': 2, 'u32': 4, 'u64': 8}
TOK = re.compile(r'\s*(?:"((?:[^"\\]|\\.|\\\n)*)"|(:)|(\d+)|(,))', re.S)

def coqstr(s):
    s = re.sub(r'\\\n\s*', '', s).replace('\\"', '"').replace('\\n', '\n')
    return '"' + s.replace('"', '""') + '"'

o = ['(* Generated by tools/gen_layouts.py from /repo/src/structures; do not edit by',
     '   hand.  One definition per `impl BitField`: the items of its `layout!`, and the',
     '   size in bytes of its value type. *)',
     'From Coq Require Import String.', 'From Verif Require Import Base M_Bitfield.',
     'Local Open Scope string_scope.', 'Local Open Scope N_scope.', '']
names = []
for f in FILES:
    src = open(os.path.join(REPO, S + f)).read()
    t = src.find('#[cfg(test)]\nmod tests')
    src = src[:t]
    for m in re.finditer(r"impl BitField<'_> for (\w+) \{\s*type Size = (\w+);.*?layout!\(\s*length = (\d+);", src, re.S):
        name, ty, length = m.groups()
        pos = m.end()
        items = []
        while True:
            while True:
                c = re.compile(r'\s*//[^\n]*').match(src, pos)
                if not c: break
                pos = c.end()
            e = re.compile(r'\s*\)').match(src, pos)
            if e: break
            toks = []
            while True:
                k = TOK.match(src, pos)
                assert k, src[pos:pos+80]
                pos = k.end()
                if k.group(4): break
                toks.append(k)
            if len(toks) == 1: items.append('Short ' + coqstr(toks[0].group(1)))
            elif len(toks) == 2: items.append('Long %s %s' % (coqstr(toks[0].group(1)), coqstr(toks[1].group(1))))
            else: items.append('Res %s %s' % (coqstr(toks[0].group(1)), toks[2].group(3)))
        a, b = src.count('\n', 0, m.start()) + 1, src.count('\n', 0, pos) + 1
        o.append('(* %s%s:%d-%d `impl BitField for %s` *)' % (S, f, a, b + 2, name))
        o.append('Definition %s_size : N := %d.' % (name, BITS[ty]))
        o.append('Definition %s_layout : Layout := layout %s [' % (name, length))
        o.append(';\n'.join('  ' + i for i in items))
        o.append('].\n')
        names.append(name)
o.append('(* every layout of the crate: size in bytes and table *)')
o.append('Definition all_layouts : list (N * Layout) := [')
o.append(';\n'.join('  (%s_size, %s_layout)' % (n, n) for n in names))
o.append('].')
print('\n'.join(o))
