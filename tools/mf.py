"""Update MANIFEST.json: mf.py ID status 'thm1 thm2' 'note'"""
import json, sys
p='/verif/MANIFEST.json'
try: d=json.load(open(p))
except FileNotFoundError: d={"claims":[]}
i,st,th,note=sys.argv[1:5]
d["claims"]=[c for c in d["claims"] if c["property"]!=i]
d["claims"].append({"property":i,"status":st,"theorems":th.split(),"note":note})
d["claims"].sort(key=lambda c:c["property"])
json.dump(d,open(p,'w'),indent=1)
