#!/usr/bin/env python3
"""Write rocq/theories/M_CostDecoders.v: the decoders that look up strings, with the lookups
counted. Each definition is the one of the M_ file, with the counted operations in the place of
the lookups and `free` around what costs nothing."""
import re
T = 'rocq/theories/'
SRC = [('M_Bios', 'Bios'), ('M_System', 'System'), ('M_BaseBoard', 'BaseBoard'), ('M_Enclosure', 'Enclosure'),
       ('M_Processor', 'Processor'), ('M_Cache', 'Cache'), ('M_PortConnector', 'PortConnector'),
       ('M_SystemSlots', 'SystemSlots'), ('M_Strings', 'SystemConfigurationOptions'),
       ('M_GroupAssociations', 'GroupAssociations'), ('M_MemoryDevice', 'MemoryDevice'),
       ('M_PortableBattery', 'PortableBattery')]
LOOK = ['look ', 'look_if ', 'look_at ', 'look_at_ok ', 'basic_counted ', 'count_counted ']

def convert(body):
    body = body.replace('Val (rmap Some (find_string r n))', 'pay_map (rmap Some) (look r n)')
    body = re.sub(r'Val \(find_string r (\((?:[^()]|\([^()]*\))*\)|\w+)\)', r'look r \1', body)
    body = re.sub(r'some_if (\([^()]*\([^()]*\)[^()]*\)) \(find_string r (\([^()]*\))\)', r'look_if \1 r \2', body)
    body = body.replace('get_string_ok c', 'look_at_ok c').replace('get_string c', 'look_at c')
    body = body.replace('basic_string c', 'basic_counted c').replace('strings_count r', 'count_counted r')
    out = []
    depth_bind = False
    for line in body.split('\n'):
        m = re.match(r'(\s*)let([!?]) (\w+) := (.*)$', line)
        if m:
            e = m.group(4)
            if e.startswith('match'):
                paid = m.group(3) == 'sku_number'
                match_paid = paid
                depth_bind = True
            else:
                paid = any(e.startswith(l) for l in LOOK)
            kind = 'pay' if paid else 'free'
            line = f'{m.group(1)}{kind}{m.group(2)} {m.group(3)} := {e}'
        elif depth_bind:
            if 'end in' in line: depth_bind = False
            elif match_paid: line = line.replace('=> Val (Ok None)', '=> free (Val (Ok None))')
        else:
            line = re.sub(r'(^\s*|:= |=> |then )Val \(', r'\1free (Val (', line)
            if 'free (Val (' in line and line.rstrip().endswith('in'):
                line = re.sub(r'\) in$', ')) in', line.rstrip())
            elif 'free (Val (' in line and line.rstrip().endswith('{|'):
                pass
            elif 'free (Val (' in line:
                line = re.sub(r'\)(\.?)$', r'))\1', line.rstrip())
            line = re.sub(r'^(\s*)\|\}\)(\.?)$', r'\1|}))\2', line)
            line = re.sub(r'else Panic\.$', 'else free Panic.', line)
        out.append(line)
    return '\n'.join(out)

print('''(* The decoders of /repo/src/structures with the steps of their string lookups counted (M_Cost.v).
   Written by tools/gen_cost.py from the decoders of the same name with _try_from; L_CostDecoders.v
   proves that they return the same. Other work of a decoder does not depend on the size of the
   structure, except for copying a list of at most 255 bytes. *)
From Coq Require Import String.
From Verif Require Import Base G_Enums M_Raw M_Bios M_System M_BaseBoard M_Enclosure M_Processor M_Cache
  M_PortConnector M_SystemSlots M_Strings M_GroupAssociations M_SystemEventLog M_PhysicalMemoryArray M_MemoryDevice
  M_Memory M_PortableBattery M_Iter M_Cost.
Local Open Scope N_scope.

(* an outcome with the steps taken *)
Definition counted (A : Type) : Type := (out A * N)%type.
Definition free {A} (m : out A) : counted A := (m, 0).
Definition pay_bind {A B} (m : counted A) (k : A -> counted B) : counted B :=
  match fst m with
  | Val a => let x := k a in (fst x, snd m + snd x)
  | Panic => (Panic, snd m)
  | UB => (UB, snd m)
  end.
Definition pay_rbind {E A B} (m : counted (result E A)) (k : A -> counted (result E B)) : counted (result E B) :=
  pay_bind m (fun x => match x with Ok a => k a | Err e => free (Val (Err e)) end).
Definition pay_map {A B} (f : A -> B) (m : counted A) : counted B := (omap f (fst m), snd m).
Notation "'pay!' x ':=' e 'in' k" := (pay_bind e (fun x => k)) (at level 200, x name, e at level 200, k at level 200).
Notation "'pay?' x ':=' e 'in' k" := (pay_rbind e (fun x => k)) (at level 200, x name, e at level 200, k at level 200).
Notation "'free!' x ':=' e 'in' k" := (pay_bind (free e) (fun x => k)) (at level 200, x name, e at level 200, k at level 200).
Notation "'free?' x ':=' e 'in' k" := (pay_rbind (free e) (fun x => k)) (at level 200, x name, e at level 200, k at level 200).

(* lib.rs:623-631 `find_string` *)
Definition look (r : RawStructure) (i : N) : counted (res text) :=
  let (t, k) := find_string_counted r i in (Val t, k).
(* `if cond { Some(find_string(i)?) } else { None }` *)
Definition look_if (b : bool) (r : RawStructure) (i : N) : counted (res (option text)) :=
  if b then pay_map (rmap Some) (look r i) else free (Val (Ok None)).
(* lib.rs:655-657 `get_string` *)
Definition look_at (c : cfg) (offset : N) (r : RawStructure) : counted (res text) :=
  free? i := get c 1 offset r in look r i.
(* `get_string(offset).ok()` *)
Definition look_at_ok (c : cfg) (offset : N) (r : RawStructure) : counted (option text) :=
  pay_map ok (look_at c offset r).
(* 022_portable_battery.rs:112-116 and 120-124 *)
Definition basic_counted (c : cfg) (offset : N) (r : RawStructure) : counted (option text) :=
  free! i := get_ok c 1 offset r in
  match ofilter (fun i => negb (i =? 0)) i with
  | Some i => pay_map ok (look r i)
  | None => free (Val None)
  end.
(* `strings().count()` *)
Fixpoint collect_counted (fuel : nat) (s : StructureStrings) : option (list text) * N :=
  match fuel with
  | O => (None, 0)
  | S f => match strings_next_counted s with
           | ((Some t, s'), k) => let (o, k') := collect_counted f s' in (option_map (cons t) o, k + k')
           | ((None, _), k) => (Some [], k)
           end
  end.
Definition count_counted (r : RawStructure) : counted N :=
  let (o, k) := collect_counted (S (length (strings r))) (raw_strings r) in
  (match o with Some l => Val (len l) | None => UB end, k).
''')
for f, t in SRC:
    s = open(T + f + '.v').read()
    m = re.search(r'(\(\*(?:(?!\*\)).)*\*\)\n)Definition ' + t + r'_try_from (\(c : cfg\) \(r : RawStructure\)) : out \((.*?)\) :=\n(.*?\.)\n(?=\n|\Z)', s, re.S)
    print(m.group(1) + f'Definition {t}_counted {m.group(2)} : counted ({m.group(3)}) :=\n' + convert(m.group(4)) + '\n')
print('(* lib.rs:487-520 the dispatch on `structure.info` *)\nDefinition dispatch_counted (c : cfg) (r : RawStructure) : counted (res Structure) :=\n  match info r with')
for f, t in SRC:
    print(f'  | InfoType_{t} => pay_map (rmap S{t}) ({t}_counted c r)')
print('  | _ => free (dispatch c r)\n  end.')
print("""
(* lib.rs:467-521 `next`, with the turns of next_raw and the steps of the decoder *)
Definition next_counted (c : cfg) (s : Structures) : counted (option (res Structure) * Structures) :=
  pay! raw := next_raw_counted c s in
  let (item, s1) := raw in
  match item with
  | None => free (Val (None, s1))
  | Some (Err e) =>
    free (Val (Some (Err e), {| smbios_version := smbios_version s1; smbios_len_ := idx s1;
                                idx := idx s1; buffer := buffer s1 |}))
  | Some (Ok r) =>
    let s2 := if (3 <=? major (smbios_version s1)) && is_end (info r)
              then {| smbios_version := smbios_version s1; smbios_len_ := idx s1;
                      idx := idx s1; buffer := buffer s1 |}
              else s1 in
    pay! x := dispatch_counted c r in
    free (Val (Some x, s2))
  end.

(* 013_bios_language.rs:80-87 `Iterator for InstallableLanguages`, next *)
Definition InstallableLanguages_next_counted (c : cfg) (s : InstallableLanguages) :
  counted (option text * InstallableLanguages) :=
  free! i := u_add c 8 (il_index s) 1 in
  pay! t := pay_map ok (look (il_structure s) (il_index s)) in
  free (Val (t, {| il_structure := il_structure s; il_index := i |})).""")
