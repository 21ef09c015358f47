#!/usr/bin/env python3
"""Writes the text of protocol/genout.go as Coq strings, one per top-level declaration: theories/GenoutText.v."""
import os, re
ROOT = os.path.join(os.path.dirname(os.path.abspath(__file__)), '..')
s = open('/repo/protocol/genout.go').read()
assert all(ord(c) < 128 for c in s)
cuts = [0] + [m.start() for m in re.finditer(r'^func ', s, re.M)] + [len(s)]
out = ['(** The text of protocol/genout.go, byte for byte, cut before every function (written by tools/text.py). *)',
       'From Verif Require Import Base.', '']
names = []
for a, b in zip(cuts, cuts[1:]):
    piece = s[a:b]
    m = re.match(r'func (?:\(\w+ \*\w+\) ?)?(\w+)', piece)
    n = 'text_' + (m[1] if m else 'header'); names.append(n)
    l = s.count('\n', 0, a) + 1
    out.append(f'(* genout.go:{l}-{l + piece.count(chr(10)) - 1} *)')
    out.append(f'Definition {n} : bytes := str "' + piece.replace('"', '""') + '".')
out.append('Definition genout_text : list bytes := [' + '; '.join(names) + '].')
open(f'{ROOT}/rocq/theories/GenoutText.v', 'w').write('\n'.join(out) + '\n')
