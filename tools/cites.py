"""Check that the lines cited in comments of the model contain the definitions they name."""
import re, glob, os, ast
src={}
for p in glob.glob('/repo/freesif/**/*.py',recursive=True):
    src.setdefault(os.path.basename(p),[]).append(p)
defs={}
for b,ps in src.items():
    for p in ps:
        t=ast.parse(open(p).read())
        for n in ast.walk(t):
            if isinstance(n,(ast.FunctionDef,ast.ClassDef)):
                defs.setdefault((b,n.name),[]).append((n.lineno,n.end_lineno))
bad=0; ok=0
for v in sorted(glob.glob('/verif/rocq/theories/*.v')):
    s=open(v).read()
    for m in re.finditer(r'\(\*.*?\*\)',s,re.S):
        c=re.sub(r'\s+',' ',m.group())
        for q in re.finditer(r'([A-Za-z_][\w. ,]*?),? ?\(?([\w]+\.py):(\d+)(?:-(\d+))?',c):
            f=q.group(2); a=int(q.group(3)); b=int(q.group(4) or a)
            names=[w.split('.')[-1] for w in re.findall(r'[\w.]+',q.group(1))]
            for n in names[-3:]:
                for (x,y) in defs.get((f,n),[]):
                    if len(defs[(f,n)])==1:
                        if a<=x+12 and x<=b and b<=y and a>=x-2: ok+=1
                        elif x<=a and b<=y: ok+=1
                        else:
                            bad+=1; print(os.path.basename(v),n,f,"cited %d-%d actual %d-%d"%(a,b,x,y))
print("ok",ok,"bad",bad)
