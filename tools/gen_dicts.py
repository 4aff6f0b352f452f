#!/usr/bin/env python3
"""Writes rocq/theories/Dicts.v: the texts of /repo/dicts, in the order of their paths."""
import glob, os
out = ['(** * dicts/dictionary.rfc*: the dictionaries, character by character',
       '', '    Written by tools/gen_dicts.py. *)',
       'From Coq Require Import String List.', 'From Verif Require Import CodeGen.',
       'Import ListNotations.', 'Local Open Scope string_scope.', '']
names = []
for f in sorted(glob.glob('/repo/dicts/*')):
    s = open(f, encoding='ascii').read()
    assert '\r' not in s
    n = os.path.basename(f).rsplit('.', 1)[1]
    names.append(n)
    lines = s.count('\n')
    out.append('(** dicts/%s:1-%d *)' % (os.path.basename(f), lines))
    out.append('Definition dict_%s : string :=\n"%s".' % (n, s.replace('"', '""')))
out.append('')
out.append('(** dicts/ *)')
out.append('Definition dictionaries : list (string * text) := [')
out.append(';\n'.join('  ("%s", text_of_string dict_%s)' % (n, n) for n in names))
out.append('].')
open('/verif/rocq/theories/Dicts.v', 'w').write('\n'.join(out) + '\n')
