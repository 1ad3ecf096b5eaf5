import json,re,glob
M={c['property']:c for c in json.load(open('/verif/MANIFEST.json'))['claims']}
P=[json.loads(l) for l in open('/verif/properties.jsonl')]
src={f.split('/')[-1]:open(f).read() for f in glob.glob('/verif/rocq/theories/*.v')}
def where(t):
    for f,s in src.items():
        if re.search(r'^\s*Theorem %s\b'%t,s,re.M): return f
    return '?'
HOW=json.load(open('/verif/tools/how.json'))
rows=[]
for p in P:
    c=M[p['id']]
    ths=', '.join('`%s` (%s)'%(t,where(t)) for t in c['theorems'])
    rows.append('| %s | %s | %s | %s |'%(p['id'],p['title'],HOW.get(p['id'],''),ths))
head=open('/verif/tools/design_head.md').read()
open('/verif/DESIGN.md','w').write(head.replace('@@TABLE@@','\n'.join(rows)))
