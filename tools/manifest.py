import re,glob,json,sys
# theorem names by property from Props files
props=[json.loads(l)['id'] for l in open('/verif/properties.jsonl')]
th={p:[] for p in props}
for f in sorted(glob.glob('/verif/rocq/theories/Props_*.v')):
    for m in re.finditer(r'^(?:Theorem|Corollary)\s+(C\d\d_\w+)',open(f).read(),re.M):
        th[m.group(1)[:3]].append(m.group(1))
notes=json.load(open('/verif/notes.json'))
claims=[]
for p in props:
    n=notes.get(p,{})
    if not th[p] and n.get('status')!='not_applicable': continue
    claims.append({"property":p,"status":n.get('status','proved'),"theorems":th[p],"note":n.get('note','')})
json.dump({"claims":claims},open('/verif/MANIFEST.json','w'),indent=1)
print(len(claims),'claims',sum(len(c['theorems']) for c in claims),'theorems')
