#!/usr/bin/env python3
"""Writes rocq/theories/SourceCore.v: the hand-written files of radius/src/core, character by character."""
out=['''(** * radius/src/core: the hand-written files, character by character

    Written by tools/gen_sources_core.py.  Each line is one string; the text is the lines, each followed
    by a line feed. *)
From Coq Require Import String List.
Import ListNotations.
Local Open Scope string_scope.
''']
for n in ['tag','code','attributes','vsa','avp','packet','request']:
    s=open('/repo/radius/src/core/%s.rs'%n).read(); assert s.endswith('\n') and s.isascii()
    ls=s[:-1].split('\n')
    out.append('(** radius/src/core/%s.rs:1-%d *)\nDefinition source_%s : list string := [\n%s].\n'%(n,len(ls),n,';\n'.join('"%s"'%l.replace('"','""') for l in ls)))
open('/verif/rocq/theories/SourceCore.v','w').write('\n'.join(out))
