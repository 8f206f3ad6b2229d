import json,sys,re,glob
# rebuild MANIFEST: theorem names are collected from *_Properties.v by id prefix
notes=json.load(open('/verif/tools/notes.json'))
th={}
for f in sorted(glob.glob('/verif/rocq/theories/*_Properties.v')):
    for m in re.finditer(r'^\s*(?:Theorem|Lemma|Corollary)\s+((C\d\d)_\w+)',open(f).read(),re.M):
        th.setdefault(m.group(2),[]).append(m.group(1))
ids=[json.loads(l)['id'] for l in open('/verif/properties.jsonl')]
claims=[]
for i in ids:
    if i in th:
        st,note=notes.get(i,["proved",""])
        claims.append({"property":i,"status":st,"theorems":th[i],"note":note})
json.dump({"claims":claims},open('/verif/MANIFEST.json','w'),indent=1)
print(len(claims),[i for i in ids if i not in th])
