#!/usr/bin/env python3
"""Writes rocq/theories/SourceNet.v: radius/src/client.rs and radius/src/server.rs, character by character."""
out=['''(** * radius/src/client.rs and radius/src/server.rs, character by character

    Written by tools/gen_sources_net.py.  Each line is one string; the text is the lines, each followed
    by a line feed. *)
From Coq Require Import String List.
Import ListNotations.
Local Open Scope string_scope.
''']
for n in ['client','server']:
    s=open('/repo/radius/src/%s.rs'%n).read(); assert s.endswith('\n') and s.isascii()
    ls=s[:-1].split('\n')
    out.append('(** radius/src/%s.rs:1-%d *)\nDefinition source_%s : list string := [\n%s].\n'%(n,len(ls),n,';\n'.join('"%s"'%l.replace('"','""') for l in ls)))
open('/verif/rocq/theories/SourceNet.v','w').write('\n'.join(out))
