# writes /verif/MANIFEST.json from the theorem names in rocq/theories/Prop*.v
import re,json,glob
NOTES={}
exec(open('/verif/tools/notes.py').read())
th={}
for f in sorted(glob.glob('/verif/rocq/theories/Prop*.v')):
    s=open(f).read()
    names=re.findall(r'^Theorem ((C\d\d\d?)_\w+)',s,re.M)
    pa=set(re.findall(r'^Print Assumptions (\w+)\.',s,re.M))
    for n,c in names:
        if n not in pa: print("no Print Assumptions:",n)
        th.setdefault(c,[]).append(n)
claims=[]
for l in open('/verif/properties.jsonl'):
    p=json.loads(l)['id']
    st,note=NOTES.get(p,("proved",""))
    t=th.get(p,[])
    if not t and st!="not_applicable":
        print("pending",p); continue
    claims.append(dict(property=p,status=st,theorems=t,note=note))
json.dump({"claims":claims},open('/verif/MANIFEST.json','w'),indent=1)
print(len(claims),"claims",sum(len(c['theorems']) for c in claims),"theorems")
