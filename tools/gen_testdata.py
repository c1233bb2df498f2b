#!/usr/bin/env python3
"""Write rocq/theories/T_data.v: the byte strings and texts of the unit tests of /repo,
copied mechanically (used by Conformance.v)."""
import re, os, glob
R = '/repo/'
out = []
def emit(name, vals, cite):
    lines, cur = [], ''
    for i, v in enumerate(vals):
        s = str(v) + ('; ' if i + 1 < len(vals) else '')
        if len(cur) + len(s) > 110:
            lines.append(cur.rstrip()); cur = ''
        cur += s
    lines.append(cur)
    out.append(f'(** {cite} *)\nDefinition {name} : list N := [\n  ' + '\n  '.join(lines) + '].')
def statics(path, prefix):
    src = open(R + path).read()
    for m in re.finditer(r'(?:static|const) (\w+): &\[u8\] = &\[(.*?)\];', src, re.S):
        a = src.count('\n', 0, m.start()) + 1
        b = src.count('\n', 0, m.end()) + 1
        vals = [int(x, 16) for x in re.findall(r'0x([0-9a-fA-F]+)', m.group(2))]
        assert len(vals) == len([x for x in m.group(2).split(',') if x.strip()])
        emit(prefix + m.group(1), vals, f'{path}:{a}-{b}')
statics('tests/data/mod.rs', 'T_')
statics('tests/psi.rs', 'T_')
statics('tests/pes.rs', 'T_PES_')
for f in sorted(glob.glob(R + 'src/psi/descriptors/x*.rs')):
    statics(f[len(R):], 'T_')
# texts of the tests, as lists of char
texts = [('src/textcode/tests.rs', 'hello', 'Hello'), ('src/textcode/tests.rs', 'hello_x', 'Hello!'),
  ('src/textcode/tests.rs', 'hello_w', 'Hello, world!!!'), ('src/textcode/tests.rs', 'hello_d', 'Hello...'),
  ('src/textcode/tests.rs', 'privet', 'Привет'), ('src/textcode/tests.rs', 'privet_x', 'Привет!'),
  ('src/psi/descriptors/x40.rs', 'cesbo', 'Cesbo'), ('src/psi/descriptors/x4e.rs', 'rus', 'rus'),
  ('src/psi/descriptors/x4e.rs', 'zima', 'Зима быстро приближается.'),
  ('src/psi/descriptors/x4d.rs', 'strojka', 'Стройка на Аляске.'),
  ('src/psi/descriptors/x0a.rs', 'eng', 'eng'), ('src/psi/descriptors/x58.rs', 'gbr', 'GBR'),
  ('src/psi/descriptors/x58.rs', 'irl', 'IRL')]
for p, n, t in texts:
    src = open(R + p).read()
    k = src.index('"' + t + '"')
    emit('txt_' + n, [ord(c) for c in t], f'{p}:{src.count(chr(10), 0, k) + 1}')
src = open(R + 'tests/eit.rs').read()
for n, key in (('ita', 'EIT_4E_LANG'), ('4e_name', 'EIT_4E_NAME'), ('4e_text', 'EIT_4E_TEXT')):
    m = re.search(r'const ' + key + r': &str = "([^"]*)"', src)
    emit('txt_' + n, [ord(c) for c in m.group(1)], f'tests/eit.rs:{src.count(chr(10), 0, m.start()) + 1}')
k = src.index('fn test_assemble_eit_50')
strs = list(re.finditer(r'from_str\("([^"]*)", (\d)\)', src[k:]))
names = ['pol', '50_name', '50_empty', 'pol2', '50_text1', 'pol3', '50_text2']
assert len(strs) == 7
for n, m in zip(names, strs):
    if n in ('pol2', 'pol3', '50_empty'): continue
    emit('txt_' + n, [ord(c) for c in m.group(1)], f'tests/eit.rs:{src.count(chr(10), 0, k + m.start()) + 1}')
src = open(R + 'tests/sdt.rs').read()
k = src.index('SDT_DATA')
rows = re.findall(r'\((\d+), (\d+), "([^"]*)"\)', src)
assert len(rows) == 6
out.append('(** tests/sdt.rs:5-13 *)\nDefinition T_SDT_DATA : list (N * N * list N) := [\n  ' +
  ';\n  '.join(f'({a}, {b}, [' + '; '.join(str(ord(c)) for c in t) + '])' for a, b, t in rows) + '].')
emit('txt_avalpa', [ord(c) for c in 'Avalpa'], 'tests/sdt.rs:40')
head = '''(** GENERATED by tools/gen_testdata.py from the unit tests of /repo: byte strings as lists
    of bytes, texts as lists of char. Only data; used by Conformance.v. *)
From Verif Require Import Prelude.

'''
open(os.path.dirname(__file__) + '/../rocq/theories/T_data.v', 'w').write(head + '\n'.join(out) + '\n')
