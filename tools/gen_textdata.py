#!/usr/bin/env python3
"""Writes rocq/theories/M_textdata.v from /repo/src/textcode/{data,lang}.rs, and the
independent tables of rocq/theories/S_textdata.v from Python's own ISO 8859 codecs."""
import re, os
root = os.path.join(os.path.dirname(os.path.abspath(__file__)), "../rocq/theories")
s = open('/repo/src/textcode/data.rs').read()
o = ['(** Tables of src/textcode, transcribed by tools/gen_textdata.py. *)',
     'From Coq Require Import String.', 'From Verif Require Import Prelude.', '']
for m in re.finditer(r'pub static (\w+): \[u16; 96\] = \[(.*?)\n\];', s, re.S):
    l1 = s[:m.start()].count('\n') + 1
    l2 = s[:m.end()].count('\n') + 1
    rows = [r.strip().rstrip(',').replace(',', ';') for r in m.group(2).strip().split('\n')]
    o.append('(** textcode/data.rs:%d-%d *)' % (l1, l2))
    o.append('Definition tab_%s : list N := [\n  %s].' % (m.group(1), ';\n  '.join(rows)))
s = open('/repo/src/textcode/lang.rs').read()
L = re.findall(r'^    \("(\w*)", "(\w*)", "(\w*)", "([^"]*)"\)', s, re.M)
o.append('(** textcode/lang.rs:24-171, LANG_LIST without the names: (iso639_1, iso639_2t, iso639_2b) *)')
o.append('Local Open Scope string_scope.')
o.append('Definition lang_list : list (string * string * string) := [\n  %s].' % ';\n  '.join(
    '; '.join('("%s", "%s", "%s")' % x[:3] for x in L[i:i+4]) for i in range(0, len(L), 4)))
open(root + '/M_textdata.v', 'w').write('\n'.join(o) + '\n')
# independent tables
o = ['(** Specification: the upper halves of the ISO/IEC 8859 parts as runs',
     '    (first code, Unicode value of the first code, number of codes): consecutive codes',
     '    stand for consecutive characters. Written by tools/gen_textdata.py from the codecs of',
     '    the Python standard library, not from /repo. *)',
     'From Verif Require Import Prelude.', '']
for n in (1,2,3,4,5,6,7,8,9,10,11,13,14,15):
    t = {}
    for c in range(0xA0, 0x100):
        try: t[c] = ord(bytes([c]).decode('iso8859_%d' % n))
        except UnicodeDecodeError: pass
    runs = []
    for c in sorted(t):
        if runs and runs[-1][0] + runs[-1][2] == c and runs[-1][1] + runs[-1][2] == t[c]: runs[-1][2] += 1
        else: runs.append([c, t[c], 1])
    items = ['(0x%02X, 0x%04X, %d)' % tuple(r) for r in runs]
    o.append('Definition iso8859_%d : list (N * N * N) := [\n  %s].' % (n, ';\n  '.join(
        '; '.join(items[i:i+6]) for i in range(0, len(items), 6))))
o.append('''(** ISO/IEC 6937 supplementary set with the Euro sign at 0xA4, as in EN 300 468 figure A.1,
    written by hand; the diacritics of column 0xC are listed as combining marks *)
Definition iso6937 : list (N * N * N) := [
  (0xA0, 0x00A0, 4); (0xA4, 0x20AC, 1); (0xA5, 0x00A5, 1); (0xA7, 0x00A7, 1); (0xA8, 0x00A4, 1); (0xA9, 0x2018, 1);
  (0xAA, 0x201C, 1); (0xAB, 0x00AB, 1); (0xAC, 0x2190, 4); (0xB0, 0x00B0, 4); (0xB4, 0x00D7, 1); (0xB5, 0x00B5, 3);
  (0xB8, 0x00F7, 1); (0xB9, 0x2019, 1); (0xBA, 0x201D, 1); (0xBB, 0x00BB, 5); (0xC1, 0x0300, 5); (0xC6, 0x0306, 3);
  (0xCA, 0x030A, 1); (0xCB, 0x0327, 1); (0xCD, 0x030B, 1); (0xCE, 0x0328, 1); (0xCF, 0x030C, 1); (0xD0, 0x2015, 1);
  (0xD1, 0x00B9, 1); (0xD2, 0x00AE, 1); (0xD3, 0x00A9, 1); (0xD4, 0x2122, 1); (0xD5, 0x266A, 1); (0xD6, 0x00AC, 1);
  (0xD7, 0x00A6, 1); (0xDC, 0x215B, 4); (0xE0, 0x2126, 1); (0xE1, 0x00C6, 1); (0xE2, 0x0110, 1); (0xE3, 0x00AA, 1);
  (0xE4, 0x0126, 1); (0xE6, 0x0132, 1); (0xE7, 0x013F, 1); (0xE8, 0x0141, 1); (0xE9, 0x00D8, 1); (0xEA, 0x0152, 1);
  (0xEB, 0x00BA, 1); (0xEC, 0x00DE, 1); (0xED, 0x0166, 1); (0xEE, 0x014A, 1); (0xEF, 0x0149, 1); (0xF0, 0x0138, 1);
  (0xF1, 0x00E6, 1); (0xF2, 0x0111, 1); (0xF3, 0x00F0, 1); (0xF4, 0x0127, 1); (0xF5, 0x0131, 1); (0xF6, 0x0133, 1);
  (0xF7, 0x0140, 1); (0xF8, 0x0142, 1); (0xF9, 0x00F8, 1); (0xFA, 0x0153, 1); (0xFB, 0x00DF, 1); (0xFC, 0x00FE, 1);
  (0xFD, 0x0167, 1); (0xFE, 0x014B, 1); (0xFF, 0x00AD, 1)].
(** the character of a code, if it has one *)
Fixpoint in_runs (runs : list (N * N * N)) (c : N) : option N :=
  match runs with
  | [] => None
  | (a, u, n) :: runs' => if (a <=? c) && (c <? a + n) then Some (u + (c - a)) else in_runs runs' c
  end.''')
open(root + '/S_textdata.v', 'w').write('\n'.join(o) + '\n')
