#!/usr/bin/env python3
"""Writes rocq/theories/SourceApp.v: the examples and the end-to-end test, character by character."""
out=['''(** * examples/server.rs, examples/client.rs and e2e-test/src/test.rs, character by character

    Written by tools/gen_sources_app.py.  Each line is one string; the text is the lines, each followed
    by a line feed. *)
From Coq Require Import String List.
Import ListNotations.
Local Open Scope string_scope.
''']
for n,p in [('example_server','examples/server.rs'),('example_client','examples/client.rs'),('e2e_test','e2e-test/src/test.rs')]:
    s=open('/repo/'+p).read(); assert s.endswith('\n') and s.isascii()
    ls=s[:-1].split('\n')
    out.append('(** %s:1-%d *)\nDefinition source_%s : list string := [\n%s].\n'%(p,len(ls),n,';\n'.join('"%s"'%l.replace('"','""') for l in ls)))
import sys
open(sys.argv[1] if len(sys.argv)>1 else '/verif/rocq/theories/SourceApp.v','w').write('\n'.join(out))
