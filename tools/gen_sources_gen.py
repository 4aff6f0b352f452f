#!/usr/bin/env python3
"""Writes rocq/theories/SourceGen.v: code-generator/src/main.rs, character by character."""
s=open('/repo/code-generator/src/main.rs').read(); assert s.endswith('\n') and s.isascii()
ls=s[:-1].split('\n')
open('/verif/rocq/theories/SourceGen.v','w').write('''(** * code-generator/src/main.rs, character by character

    Written by tools/gen_sources_gen.py.  Each line is one string; the text is the lines, each followed
    by a line feed. *)
From Coq Require Import String List.
Import ListNotations.
Local Open Scope string_scope.

(** code-generator/src/main.rs:1-%d *)
Definition source_generator : list string := [
%s].
'''%(len(ls),';\n'.join('"%s"'%l.replace('"','""') for l in ls)))
