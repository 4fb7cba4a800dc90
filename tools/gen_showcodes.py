#!/usr/bin/env python3
"""Writes S_ShowCodes.v from the `impl From<uN> for` blocks of /repo/src: for each enumeration
the codes, and the name of the variant that each of them becomes."""
import re, glob, sys
names = {('017_memory_device.rs', n): m for n, m in [('ErrorGranularity', 'MDErrorGranularity'), ('ErrorOperation', 'MDErrorOperation'), ('ErrorType', 'MDErrorType'), ('Type', 'MemoryType')]}
names |= {('018_memory_error_32.rs', n): 'ME' + n for n in ['ErrorGranularity', 'ErrorOperation', 'ErrorType']}
names |= {('021_built_in_pointing_device.rs', 'Type'): 'PointingDeviceType', ('021_built_in_pointing_device.rs', 'Interface'): 'PointingDeviceInterface'}
skip = {'ContainedElementType', 'Voltage', 'CacheConfiguration', 'CacheSize', 'CacheSize2', 'SlotCharacteristics1', 'SlotCharacteristics2',
        'DeviceAndFunctionNumber', 'SlotPitch', 'VariableDataFormatType', 'PostResults', 'SystemManagementType', 'LogStatus'}
limits = {'ProcessorFamily': '65536', 'CacheLevel': '8', 'CacheLocation': '4', 'CacheOperationalMode': '4'}
out = []
listed = []
for f in sorted(glob.glob('/repo/src/**/*.rs', recursive=True)):
    s = open(f).read()
    base = f.split('/')[-1]
    for m in re.finditer(r'impl From<(u\d+)> for (\w+) \{\n(.*?)\n\}\n', s, re.S):
        if m.group(2) in skip or (m.group(1), m.group(2)) == ('u8', 'ProcessorFamily'):
            continue
        name = names.get((base, m.group(2)), m.group(2))
        line = s[:m.start()].count('\n') + 1
        rows, other = [], None
        for a in [l.strip().rstrip(',') for l in m.group(3).split('\n') if '=>' in l]:
            lhs, rhs = [x.strip() for x in a.split('=>')]
            if rhs == 'unreachable!()':
                other = ''
                continue
            r = re.fullmatch(r'(?:\w+)::(\w+)(?:\((\w+)\))?', rhs)
            var, arg = r.group(1), r.group(2)
            b = re.fullmatch(r'(\w+) @ (\w+)(?:\.\.=(\w+))?', lhs)
            if b:
                assert arg == b.group(1)
                rows.append((b.group(2), b.group(3) or b.group(2), var, True))
            elif re.fullmatch(r'[a-z]\w*', lhs):
                assert arg == lhs
                other = var
            else:
                for k in [x.strip() for x in lhs.split('|')]:
                    if arg:
                        assert arg == k or (len(lhs.split('|')) > 1 and arg == 'byte')
                    rows.append((k, k, var, bool(arg)))
        if other is None:
            assert name in ('EventLogType', 'ProcessorFamily'), name   # all codes have a row
            other = ''
        assert rows, name
        rel = f[len('/repo/'):]
        out.append(f'(* {rel}:{line} *)\nDefinition {name}_texts : list row := [\n' +
                   ';\n'.join('  ' + (f'row_for {lo} "{v}"' if lo == hi and not c else f'row_with {lo} {hi} "{v}"') for lo, hi, v, c in rows) + '].')
        tree = f'fun k => let! x := {name}_from k in Val ({name}_tree x)' if name.startswith('Cache') and name in limits else f'fun k => Val ({name}_tree ({name}_from k))'
        listed.append(f'  ({limits.get(name, "256")}, ({tree}), {name}_texts, "{other}")')
head = '''(* Generated by tools/gen_showcodes.py; do not edit by hand.  Specification for C87: the codes
   of the enumerations, and the name that the developer text gives for each of them.  The
   tables are those of the `impl From<..> for` blocks of /repo/src. *)
From Coq Require Import String.
From Verif Require Import Base G_Enums M_Show G_Show S_Text S_ShowFields.
Local Open Scope string_scope.
Local Open Scope N_scope.

(* the codes from .. to .. have that name; [numbered]: the code is written with it *)
Record row := { first_code : N; last_code : N; called : string; numbered : bool }.
Definition row_for (k : N) (name : string) : row := {| first_code := k; last_code := k; called := name; numbered := false |}.
Definition row_with (first last : N) (name : string) : row := {| first_code := first; last_code := last; called := name; numbered := true |}.
Definition row_of (rows : list row) (k : N) : option row := find (fun r => (first_code r <=? k) && (k <=? last_code r)) rows.

(* the text for a code; [other] is the name of the codes without a row, which are written with it *)
Definition code_text (wide : bool) (depth : nat) (rows : list row) (other : string) (k : N) (s : string) : Prop :=
  let with_number name := exists n, numeral 10 n k /\\ s = enclosed wide depth (name ++ "(") "" ")" [n] in
  match row_of rows k with
  | Some r => if numbered r then with_number (called r) else s = called r
  | None => with_number other
  end.

'''
tail = '''
(* the enumerations: how many codes there are, what the value decoded from a code tells the
   formatter, the table, and the name for the other codes *)
Definition coded_types : list (N * (N -> out tree) * list row * string) := [
''' + ';\n'.join(listed) + '].\n'
open(sys.argv[1], 'w').write(head + '\n'.join(out) + '\n' + tail)
