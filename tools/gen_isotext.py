#!/usr/bin/env python3
"""T_iso.v: the text of src/textcode/data.rs from line 11 on."""
import os
here = os.path.dirname(os.path.abspath(__file__))
src = open('/repo/src/textcode/data.rs').read().split('\n')
text = '\n'.join(src[10:])
assert '"' not in text
with open(os.path.join(here, '..', 'rocq', 'theories', 'T_iso.v'), 'w') as f:
    f.write('(** The text of src/textcode/data.rs from line 11 to the end, written by tools/gen_isotext.py. *)\n')
    f.write('From Coq Require Import String.\nDefinition data_rs : string := "%s"%%string.\n' % text)
