import json,re,glob,os
# claims: notes/status in dict; theorem names are collected automatically from Props files by prefix Cnn_
notes=json.load(open('/verif/tools/notes.json')) if os.path.exists('/verif/tools/notes.json') else {}
thms={}
for f in sorted(glob.glob('/verif/rocq/theories/Props_*.v')):
    s=open(f).read()
    for m in re.finditer(r'^Theorem\s+((C\d+)_\w+)',s,re.M):
        thms.setdefault(m.group(2),[]).append(m.group(1))
props=[json.loads(l) for l in open('/verif/properties.jsonl')]
claims=[]
for p in props:
    i=p['id']; n=notes.get(i,{})
    if i in thms:
        st=n.get('status') or ('partial' if any(t.endswith(('_partial','_refuted')) for t in thms[i]) else 'proved')
        claims.append(dict(property=i,status=st,theorems=thms[i],note=n.get('note','')))
json.dump({"claims":claims},open('/verif/MANIFEST.json','w'),indent=1)
print(len(claims),'claims; missing',[p['id'] for p in props if p['id'] not in thms])
