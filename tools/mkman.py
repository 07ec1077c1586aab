import json,re,glob,os,collections
# collects theorems from Props_*.v by property prefix
th=collections.OrderedDict()
for f in sorted(glob.glob('/verif/rocq/theories/Props_*.v')):
    for m in re.finditer(r'^Theorem\s+((C\d+)_\w+)',open(f).read(),re.M):
        th.setdefault(m.group(2),[]).append(m.group(1))
notes=json.load(open('/verif/tools/notes.json')) if os.path.exists('/verif/tools/notes.json') else {}
claims=[]
for l in open('/verif/properties.jsonl'):
    p=json.loads(l); i=p['id']
    ts=th.get(i,[])
    n=notes.get(i,{})
    if not ts: continue
    st=n.get('status') or ('partial' if any('_partial' in t or '_refuted' in t for t in ts) else 'proved')
    claims.append(dict(property=i,status=st,theorems=ts,note=n.get('note','')))
json.dump(dict(claims=claims),open('/verif/MANIFEST.json','w'),indent=1)
print(len(claims), sum(len(c['theorems']) for c in claims))
