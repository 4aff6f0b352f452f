#!/usr/bin/env python3
"""Prints the templates of code-generator/src/main.rs as Coq definitions (pasted into GenText.v)."""
import re
src=open('/repo/code-generator/src/main.rs').read()
HOLE={'method_identifier':'Method','type_identifier':'TypeId','type_value':'TypeValue','fixed_octets_length':'FixedLength','value_type':'ValueType'}
for m in re.finditer(r'fn generate_(\w+)_attribute_code\([^{]*?\n\) \{\n    let code = format!\(\s*"(.*?)(?<!\\)"',src,re.S):
    name,t=m.groups()
    l0=src[:m.start()].count('\n')+1
    l1=src[:src.index('\n}\n',m.end())].count('\n')+2
    t=t.replace('\\"','"')
    out=[];cur=''
    for x in re.split(r'(\{\{|\}\}|\{\w+\})',t):
        if x=='{{': cur+='{'
        elif x=='}}': cur+='}'
        elif x.startswith('{') and len(x)>1:
            if cur: out.append('T "%s"'%cur.replace('"','""')); cur=''
            out.append(HOLE[x[1:-1]])
        else: cur+=x
    if cur: out.append('T "%s"'%cur.replace('"','""'))
    print('(** main.rs:%d-%d *)'%(l0,l1))
    print('Definition %s_template : list piece := [\n%s].'%(name,'; '.join(out)))
