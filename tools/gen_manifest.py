"""Builds MANIFEST.json: every Theorem named Cnn_* in Prop*.v belongs to property Cnn."""
import json,re,glob,os
here=os.path.dirname(os.path.abspath(__file__)); root=os.path.dirname(here)
props=[json.loads(l) for l in open(root+'/properties.jsonl')]
th={}
for f in sorted(glob.glob(root+'/rocq/theories/Prop*.v')):
    for m in re.finditer(r'^Theorem (C\d+)(\w*)',open(f).read(),re.M):
        th.setdefault(m.group(1),[]).append(m.group(1)+m.group(2))
notes=json.load(open(here+'/notes.json'))
claims=[]
for p in props:
    t=th.get(p['id'],[]); n=notes.get(p['id'],{})
    if t:
        st=n.get('status') or ('partial' if any(x.endswith('_partial') or x.endswith('_refuted') for x in t) else 'proved')
        claims.append({'property':p['id'],'status':st,'theorems':t,'note':n.get('note','')})
json.dump({'claims':claims},open(root+'/MANIFEST.json','w'),indent=1)
print(len(claims),'claims of',len(props), [c['property'] for c in claims if c['status']!='proved'])
