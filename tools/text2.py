#!/usr/bin/env python3
"""Writes the text of hand-written files of /repo as Coq strings, cut before every top-level func: theories/GoText.v, GenGoText.v."""
import os, re, sys
ROOT = sys.argv[1] if len(sys.argv) > 1 else os.path.join(os.path.dirname(os.path.abspath(__file__)), '..')
FILES = {'GoText': [('protocol', 'protocol/protocol.go'), ('server', 'protocol/server.go'), ('client', 'protocol/client.go'),
         ('filesystem', 'filesystem/filesystem.go'), ('filesystem_unix', 'filesystem/filesystem_unix.go'),
         ('ninep', 'filesystem/ninep.go'), ('ninep_unix', 'filesystem/ninep_unix.go'), ('debug', 'pkg/debugfs/debug.go'), ('ufs', 'cmd/ufs/ufs.go')],
         'GenGoText': [('gen', 'protocol/gen.go')]}
for module, files in FILES.items():
    out = ['(** The text of hand-written files of /repo, byte for byte, cut before every function (written by tools/text2.py). *)',
           'From Verif Require Import Base.']
    for short, path in files:
        s = open('/repo/' + path).read()
        assert all(ord(c) < 128 for c in s), path
        cuts = [0] + [m.start() for m in re.finditer(r'^func ', s, re.M)] + [len(s)]
        names = []
        out += ['', f'(** * {path} *)']
        for i, (a, b) in enumerate(zip(cuts, cuts[1:])):
            piece = s[a:b]
            n = f'{short}_{i}'; names.append(n)
            l = s.count('\n', 0, a) + 1
            out.append(f'(* {path}:{l}-{l + piece.count(chr(10)) - 1} *)')
            out.append(f'Definition {n} : bytes := str "' + piece.replace('"', '""') + '".')
        out.append(f'Definition {short}_text : list bytes := [' + '; '.join(names) + '].')
    open((f'{ROOT}/theories/' if len(sys.argv) > 1 else f'{ROOT}/rocq/theories/') + module + '.v', 'w').write('\n'.join(out) + '\n')
