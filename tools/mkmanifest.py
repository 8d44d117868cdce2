# generates MANIFEST.json from Props*.v theorems Cxx_* and the notes table
import re,json,glob
props=[json.loads(l) for l in open('/verif/properties.jsonl')]
th={}
for f in sorted(glob.glob('/verif/rocq/theories/*.v')):
    for m in re.finditer(r'^(?:Theorem|Lemma|Corollary)\s+((C\d\d)_\w+)',open(f).read(),re.M):
        th.setdefault(m.group(2),[]).append(m.group(1))
notes=json.load(open('/verif/tools/notes.json')) if glob.glob('/verif/tools/notes.json') else {}
claims=[]
for p in props:
    i=p['id']; t=th.get(i,[])
    n=notes.get(i,{})
    st=n.get('status') or ('partial' if any('_partial' in x or '_refuted' in x for x in t) else 'proved')
    if not t: continue
    claims.append({'property':i,'status':st,'theorems':t,'note':n.get('note','')})
json.dump({'claims':claims},open('/verif/MANIFEST.json','w'),indent=1)
print([(c['property'],c['status'],len(c['theorems'])) for c in claims])
