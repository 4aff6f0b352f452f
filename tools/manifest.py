import re,glob,json
names=[]
for f in sorted(glob.glob('/verif/rocq/theories/Prop*.v')):
    names+=re.findall(r'^Theorem (\w+)',open(f).read(),re.M)
props=[json.loads(l) for l in open('/verif/properties.jsonl')]
exec(open('/verif/tools/notes.py').read())
claims=[]
for p in props:
    i=p['id']
    th=[n for n in names if n.startswith(i+'_')]
    if not th: continue
    st='partial' if any(n.endswith('_partial') or n.endswith('_refuted') for n in th) else 'proved'
    st=STATUS.get(i,st)
    claims.append(dict(property=i,status=st,theorems=th,note=NOTES.get(i,'')))
json.dump(dict(claims=claims),open('/verif/MANIFEST.json','w'),indent=1)
print(len(claims),sum(len(c['theorems']) for c in claims))
miss=[p['id'] for p in props if p['id'] not in [c['property'] for c in claims]]
print('missing',miss)
