"""Adds a property, its note, its row and its findings: newprop.py FILE, FILE holding a Python dict."""
import sys,json,re
d=eval(open(sys.argv[1]).read())
g='/verif/tools/gen_properties.py'; t=open(g).read()
args=[d['title'],d['statement'],d['quant'],d['why']]+d['anchors']
call="p("+",\n  ".join(json.dumps(a,ensure_ascii=False) for a in args)+")\n\n"
assert d['title'] not in t
t=t.replace('if __name__=="__main__":',call+'if __name__=="__main__":'); open(g,'w').write(t)
n='/verif/tools/notes.json'; j=json.load(open(n)); j[d['id']]={"note":d['note']}; open(n,'w').write(json.dumps(j,indent=1,ensure_ascii=False))
D='/verif/DESIGN.md'; L=open(D).read().split('\n')
i=max(k for k,l in enumerate(L) if re.match(r'\| C\d\d',l)); L.insert(i+1,f"| {d['id']} | {d['model']} | {d['proof']} |")
if d.get('finding'):
    i=max(k for k,l in enumerate(L) if re.match(r'\* C\d\d',l)); L.insert(i+1,f"* {d['id']} {d['finding']}")
open(D,'w').write('\n'.join(L))
