#!/usr/bin/env python3
"""Emit rocq/theories/T_Data.v: the binary files of /repo/tests/data as byte lists."""
import sys
D = '/repo/tests/data/'
FILES = [('dmidecode_bin', 'dmidecode.bin'), ('entry_bin', 'entry.bin'), ('dmi_bin', 'dmi.bin'),
         ('entry_v3_bin', 'entry_v3.bin'), ('dmi_v3_bin', 'dmi_v3.bin'),
         ('entry_v3_short_bin', 'entry_v3_short.bin'), ('dmi_v3_short_bin', 'dmi_v3_short.bin'), ('dmi_0_bin', 'dmi.0.bin'),
         ('type15_bin', '02daadcd/entries/15-0/bin'), ('type18_bin', 'caf65269/entries/18-0/bin'),
         ('type19_bin', '02daadcd/entries/19-0/bin'), ('type20_bin', '02daadcd/entries/20-0/bin'),
         ('type21_bin', '________/entries/21-0/bin'), ('type22_bin', '________/entries/22-0/bin')]
print('(* Generated by tools/gen_data.py from /repo/tests/data; used only in Examples. *)')
print('From Coq Require Import NArith List.\nImport ListNotations.\nLocal Open Scope N_scope.')
for n, f in FILES:
    b = open(D + f, 'rb').read()
    print(f'\n(* tests/data/{f}, {len(b)} bytes *)')
    print(f'Definition {n} : list N := [')
    print(';\n'.join('  ' + '; '.join(str(x) for x in b[i:i+24]) for i in range(0, len(b), 24)))
    print('].')
