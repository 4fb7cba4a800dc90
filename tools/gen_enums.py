#!/usr/bin/env python3
"""Transliterates the enum tables of /repo/src into Gallina.

For every enum listed in ENUMS it emits
  * the inductive type (from `pub enum X`),
  * `X_from` (from `impl From<uN> for X`): the match arms, in order,
    as a chain of comparisons,
  * `X_to` when there is an `impl From<X> for u8`,
  * `X_display` (from `impl fmt::Display for X`): the match arms, in order.
The generated file is committed; the generator is only needed again when the
source changes.  usage: gen_enums.py [repo] > rocq/theories/G_Enums.v
"""
import re, sys, os

REPO = sys.argv[1] if len(sys.argv) > 1 else '/repo'
S = 'src/structures/'
# (file, rust name, coq name)
ENUMS = [
    ('src/lib.rs', 'InfoType', 'InfoType'),
    (S+'001_system.rs', 'WakeupType', 'WakeupType'),
    (S+'002_baseboard.rs', 'BoardType', 'BoardType'),
    (S+'003_enclosure.rs', 'EnclosureType', 'EnclosureType'),
    (S+'003_enclosure.rs', 'State', 'State'),
    (S+'003_enclosure.rs', 'SecurityStatus', 'SecurityStatus'),
    (S+'004_processor.rs', 'ProcessorType', 'ProcessorType'),
    (S+'004_processor.rs', 'ProcessorFamily', 'ProcessorFamily'),
    (S+'004_processor.rs', 'ProcessorUpgrade', 'ProcessorUpgrade'),
    (S+'007_cache.rs', 'CacheLevel', 'CacheLevel'),
    (S+'007_cache.rs', 'CacheLocation', 'CacheLocation'),
    (S+'007_cache.rs', 'CacheOperationalMode', 'CacheOperationalMode'),
    (S+'007_cache.rs', 'CacheErrorCorrectionType', 'CacheErrorCorrectionType'),
    (S+'007_cache.rs', 'SystemCacheType', 'SystemCacheType'),
    (S+'007_cache.rs', 'CacheAssociativity', 'CacheAssociativity'),
    (S+'008_port_connector.rs', 'ConnectorType', 'ConnectorType'),
    (S+'008_port_connector.rs', 'PortType', 'PortType'),
    (S+'009_system_slots.rs', 'SlotType', 'SlotType'),
    (S+'009_system_slots.rs', 'SlotWidth', 'SlotWidth'),
    (S+'009_system_slots.rs', 'CurrentUsage', 'CurrentUsage'),
    (S+'009_system_slots.rs', 'SlotLength', 'SlotLength'),
    (S+'015_system_event_log/log_record_format.rs', 'EventLogType', 'EventLogType'),
    (S+'015_system_event_log/mod.rs', 'LogHeaderFormat', 'LogHeaderFormat'),
    (S+'016_physical_memory_array.rs', 'MemoryArrayLocation', 'MemoryArrayLocation'),
    (S+'016_physical_memory_array.rs', 'MemoryArrayUse', 'MemoryArrayUse'),
    (S+'016_physical_memory_array.rs', 'MemoryArrayErrorCorrectionTypes', 'MemoryArrayErrorCorrectionTypes'),
    (S+'017_memory_device.rs', 'ErrorGranularity', 'MDErrorGranularity'),
    (S+'017_memory_device.rs', 'ErrorOperation', 'MDErrorOperation'),
    (S+'017_memory_device.rs', 'ErrorType', 'MDErrorType'),
    (S+'017_memory_device.rs', 'FormFactor', 'FormFactor'),
    (S+'017_memory_device.rs', 'MemoryTechnology', 'MemoryTechnology'),
    (S+'017_memory_device.rs', 'Type', 'MemoryType'),
    (S+'018_memory_error_32.rs', 'ErrorType', 'MEErrorType'),
    (S+'018_memory_error_32.rs', 'ErrorGranularity', 'MEErrorGranularity'),
    (S+'018_memory_error_32.rs', 'ErrorOperation', 'MEErrorOperation'),
    (S+'021_built_in_pointing_device.rs', 'Type', 'PointingDeviceType'),
    (S+'021_built_in_pointing_device.rs', 'Interface', 'PointingDeviceInterface'),
]

def block(src, start):
    """text between the braces opening at or after `start`, string aware"""
    i = src.index('{', start)
    depth, j, instr = 0, i, False
    while True:
        c = src[j]
        if instr:
            if c == '\\': j += 1
            elif c == '"': instr = False
        elif c == '"': instr = True
        elif c == '{': depth += 1
        elif c == '}':
            depth -= 1
            if depth == 0: return i, j, src[i+1:j]
        j += 1

def strip_comments(t):
    return re.sub(r'(?m)^\s*//.*$', '', t)

def split_arms(t):
    """top-level `pat => expr` arms"""
    arms, depth, instr, cur, k = [], 0, False, '', 0
    while k < len(t):
        c = t[k]
        if instr:
            cur += c
            if c == '\\': k += 1; cur += t[k]
            elif c == '"': instr = False
        elif c == '"': instr = True; cur += c
        elif c in '({': depth += 1; cur += c
        elif c in ')}':
            depth -= 1; cur += c
            if c == '}' and depth == 0 and '=>' in cur:
                arms.append(cur); cur = ''
        elif c == ',' and depth == 0:
            if cur.strip(): arms.append(cur)
            cur = ''
        else: cur += c
        k += 1
    if cur.strip(): arms.append(cur)
    out = []
    for a in arms:
        p, e = a.split('=>', 1)
        out.append((p.strip(), e.strip()))
    return out

def num(s): return int(s.replace('_', ''), 0)

def lit(s):
    num(s)
    return s.replace('_', '')

def line(src, pos): return src.count('\n', 0, pos) + 1

def variant(e, rust):
    """Self::A / X::A / Self::A(v) -> (A, payload|None)"""
    m = re.fullmatch(r'(?:Self|%s)::(\w+)(?:\((\w+)\))?' % rust, e)
    assert m, e
    return m.group(1), m.group(2)

def coqstr(s): return '"' + s.replace('"', '""') + '"'

def rust_unescape(s):
    s = re.sub(r'\\\n\s*', '', s)          # line continuation
    return s.replace('\\"', '"').replace('\\\\', '\\')

FMT = {'': 'show_dec', ':#X': 'show_hex_alt', ':X': 'show_hex'}

def fmt_expr(e):
    """write!(f, "...{v}...") -> Coq string expression"""
    e = e.strip()
    while e.startswith('{'): e = e[1:e.rindex('}')].strip()
    m = re.fullmatch(r'write!\(\s*f,\s*"((?:[^"\\]|\\.|\\\n)*)"\s*\)', e, re.S)
    assert m, e
    s = rust_unescape(m.group(1))
    parts, pos = [], 0
    for mm in re.finditer(r'\{(\w+)(:[^}]*)?\}', s):
        if mm.start() > pos: parts.append(coqstr(s[pos:mm.start()]))
        parts.append('%s %s' % (FMT[mm.group(2) or ''], mm.group(1)))
        pos = mm.end()
    if pos < len(s): parts.append(coqstr(s[pos:]))
    return ' ++ '.join(parts) if parts else '""'

def main():
    o = []
    w = o.append
    w('(* Generated by tools/gen_enums.py from /repo/src; do not edit by hand.')
    w('   Every definition cites the lines it transliterates.  A `match` with')
    w('   literal, range or binding patterns becomes a chain of comparisons in the')
    w('   same order.  Where the Rust match is exhaustive without a wildcard (the')
    w('   scrutinee is a u8 or u16) the last arm is the final `else`.')
    w('   `unreachable!()` becomes [Panic].  The boolean argument of `X_display` is')
    w('   the formatter\'s alternate flag (`{:#}`). *)')
    w('From Coq Require Import String.')
    w('From Verif Require Import Base.')
    w('Local Open Scope string_scope.')
    w('Local Open Scope N_scope.')
    w('')
    for (f, rust, coq) in ENUMS:
        # blank out comment lines (doc comments contain quotes), keep the numbering
        src = re.sub(r'(?m)^[ \t]*//.*$', '', open(os.path.join(REPO, f)).read())
        # cut the test module
        t = src.find('#[cfg(test)]\nmod tests')
        body_src = src if t < 0 else src[:t]
        # enum
        m = re.search(r'pub enum %s \{' % rust, body_src)
        i, j, b = block(body_src, m.start())
        b = strip_comments(b)
        b = re.sub(r'#\[[^\]]*\]', '', b)
        vs = []
        for v in [x.strip() for x in b.split(',') if x.strip()]:
            mm = re.fullmatch(r'(\w+)(\(u\d+\))?', v)
            assert mm, v
            vs.append((mm.group(1), bool(mm.group(2))))
        w('(* %s:%d-%d `enum %s` *)' % (f, line(src, m.start()), line(src, j), rust))
        w('Inductive %s : Type :=' % coq)
        for v, p in vs:
            w('| %s_%s%s' % (coq, v, ' (v : N)' if p else ''))
        o[-1] += '.'
        w('')
        names = dict(vs)
        # From<uN>
        ms = [x for x in re.finditer(r'impl From<(u8|u16|u32)> for %s \{' % rust, body_src)]
        for m in ms:
            i, j, b = block(body_src, m.start())
            if 'match' not in b: continue
            mi = b.index('match')
            _, _, arms_t = block(b, mi)
            var = re.search(r'match (\w+)', b).group(1)
            arms = split_arms(strip_comments(arms_t))
            panics = any('unreachable!' in e for _, e in arms)
            rng = '%s:%d-%d' % (f, line(src, m.start()), line(src, j))
            w('(* %s `impl From<%s> for %s` *)' % (rng, m.group(1), rust))
            w('Definition %s_from (byte : N) : %s :=' % (coq, ('out ' + coq) if panics else coq))
            for k, (p, e) in enumerate(arms):
                last = k == len(arms) - 1
                bind = None
                mm = re.fullmatch(r'(\w+)\s*@\s*(.*)', p, re.S)
                if mm: bind, p = mm.group(1), mm.group(2)
                conds = []
                wild = False
                if re.fullmatch(r'[a-z_]\w*', p):
                    wild = True
                    if p != '_': bind = p
                else:
                    for alt in p.split('|'):
                        alt = alt.strip()
                        mm = re.fullmatch(r'(\w+)\s*\.\.=\s*(\w+)', alt)
                        if mm: conds.append('((%s <=? byte) && (byte <=? %s))' % (lit(mm.group(1)), lit(mm.group(2))))
                        else: conds.append('(byte =? %s)' % lit(alt))
                if 'unreachable!' in e:
                    val = 'Panic'
                else:
                    a, pay = variant(e, rust)
                    assert a in names
                    val = '%s_%s' % (coq, a)
                    if names[a]:
                        if pay in (bind, var): val += ' byte'
                        else: val += ' %s' % lit(pay)
                    else: assert pay is None
                    if panics: val = 'Val ' + val
                if last:
                    if not wild: val += ' (* %s *)' % p
                    w('  %s.' % val)
                else:
                    assert not wild
                    w('  if %s then %s else' % (' || '.join(conds), val))
            w('')
        # From<X> for u8
        m = re.search(r'impl From<%s> for u8 \{' % rust, body_src)
        if m:
            i, j, b = block(body_src, m.start())
            _, _, arms_t = block(b, b.index('match'))
            w('(* %s:%d-%d `impl From<%s> for u8` *)' % (f, line(src, m.start()), line(src, j), rust))
            w('Definition %s_to (x : %s) : N :=' % (coq, coq))
            w('  match x with')
            for p, e in split_arms(strip_comments(arms_t)):
                a, pay = variant(p, rust)
                w('  | %s_%s%s => %s' % (coq, a, ' ' + pay if pay else '', e if pay and e == pay else lit(e)))
            w('  end.')
            w('')
        # Display
        m = re.search(r'impl fmt::Display for %s \{' % rust, body_src)
        if m:
            i, j, b = block(body_src, m.start())
            _, _, arms_t = block(b, b.index('match'))
            w('(* %s:%d-%d `impl fmt::Display for %s` *)' % (f, line(src, m.start()), line(src, j), rust))
            w('Definition %s_display (alt : bool) (x : %s) : string :=' % (coq, coq))
            arms = split_arms(strip_comments(arms_t))
            paired = any(p.startswith('(') for p, _ in arms)
            w('  match alt, x with' if paired else '  match x with')
            for p, e in arms:
                pre = ''
                if paired:
                    mm = re.fullmatch(r'\(\s*(true|false|_),\s*(.*)\)', p, re.S)
                    pre, p = mm.group(1) + ', ', mm.group(2).strip().rstrip(',')
                a, pay = variant(p, rust)
                e2 = e.strip()
                while e2.startswith('{'): e2 = e2[1:e2.rindex('}')].strip()
                if e2.startswith('if is_alt'):
                    i1, j1, b1 = block(e2, 0)
                    i2, j2, b2 = block(e2, j1 + 1)
                    ex = 'if alt then %s else %s' % (fmt_expr(b1), fmt_expr(b2))
                else: ex = fmt_expr(e2)
                w('  | %s%s_%s%s => %s' % (pre, coq, a, ' ' + pay if pay else '', ex))
            w('  end.')
            w('')
    print('\n'.join(o))

main()
