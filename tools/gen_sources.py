#!/usr/bin/env python3
"""Writes rocq/theories/Sources.v: radius/src/core/rfc*.rs, character by character."""
import glob,os
out=['''(** * radius/src/core/rfc*.rs: the committed modules, character by character

    Written by tools/gen_sources.py.  Each line is one string; the text is the lines, each followed
    by a line feed. *)
From Coq Require Import String List.
Import ListNotations.
Local Open Scope string_scope.
''']
names=[]
for f in sorted(glob.glob('/repo/radius/src/core/rfc*.rs')):
    n=os.path.basename(f)[:-3]; names.append(n)
    s=open(f).read(); assert s.endswith('\n') and s.isascii()
    ls=s[:-1].split('\n')
    out.append('(** radius/src/core/%s.rs:1-%d *)\nDefinition source_%s : list string := [\n%s].\n'%(n,len(ls),n,';\n'.join('"%s"'%l.replace('"','""') for l in ls)))
out.append('Definition source_lines : list (string * list string) := [\n%s].'%';\n'.join('  ("%s", source_%s)'%(n,n) for n in names))
open('/verif/rocq/theories/Sources.v','w').write('\n'.join(out)+'\n')
