import ast,re
src=open('/repo/freesif/sequentialparser/parsers.py').read()
T=ast.parse(src)
def col(v):
    f=v.func.attr; kw={k.arg:ast.literal_eval(k.value) for k in v.keywords}
    a=[ast.literal_eval(x) for x in v.args]
    base={'Int32Col':'TI','Float32Col':'TF','ComplexCol':'TC','StringCol':'TS','Int32Atom':'TI','Float32Atom':'TF','ComplexAtom':'TC','StringAtom':'TS','UInt32Col':'TI'}.get(f,f)
    size=kw.get('itemsize',a[0] if a and base in('TS','TC') else None)
    if base=='TS': base='TS %s'%size
    sh=kw.get('shape',())
    if sh==() and a and base not in('TS %s'%size,'TC'): sh=a[0]
    if isinstance(sh,int): sh=(sh,)
    for n in reversed(sh): base='TV %d (%s)'%(n,base)
    return base,kw.get('pos'),size
classes={}
for n in T.body:
    if isinstance(n,ast.ClassDef) and n.name.endswith('_rec'):
        cs=[]
        for b in n.body:
            if isinstance(b,ast.Assign):
                t,p,s=col(b.value); cs.append((p if p is not None else 999,b.targets[0].id,t))
        cs.sort(key=lambda x:(x[0],x[1]))
        classes[n.name]=[(c[1],c[2]) for c in cs]
D={};A={};R={}
for n in ast.walk(T):
    if isinstance(n,ast.Assign) and isinstance(n.targets[0],ast.Subscript) and isinstance(n.targets[0].value,ast.Name):
        tn=n.targets[0].value.id
        if tn not in('descriptors','atoms','readers'): continue
        for t in n.targets:
            k=t.slice if not isinstance(t.slice,ast.Index) else t.slice.value
            key=ast.literal_eval(k) if isinstance(k,ast.Constant) else ast.unparse(k)
            if t.value.id=='descriptors': D[key]=ast.unparse(n.value)
            elif t.value.id=='atoms': A[key]=ast.unparse(n.value)
            else: R[key]=ast.unparse(n.value)
# coq
S=open('/verif/rocq/theories/Schema.v').read()
S=re.sub(r'\(\*.*?\*\)','',S,flags=re.S)
cq={}
def norm(t): return t.replace('(','').replace(')','').strip()
for m in re.finditer(r'Definition d_(\w+) : descr := (.*?)\.\s',S,re.S):
    body=m.group(2); out=[]
    for tok in re.finditer(r'(ints|reals)\s*\[(.*?)\]|\("(\w+)",\s*((?:[^()]|\([^()]*\))*)\)',body,re.S):
        if tok.group(1):
            for x in re.findall(r'"(\w+)"',tok.group(2)): out.append((x,'TI' if tok.group(1)=='ints' else 'TF'))
        else: out.append((tok.group(3),' '.join(norm(tok.group(4)).split())))
    cq[m.group(1)]=out
dd=dict(re.findall(r'\("(\w+)", d_(\w+)\)',S))
at=S[S.index('Definition atoms'):S.index('Definition elem_types')]
bad=0
for k,v in sorted(D.items()):
    if k not in dd: print('missing in coq',k,v); bad+=1; continue
    c=classes[v]; q=cq[dd[k]]
    c=[(a,' '.join(norm(b).split())) for a,b in c]
    if c!=q: print('DIFF',k,[(x,y) for x,y in zip(c,q) if x!=y],len(c),len(q)); bad+=1
for k in dd:
    if k not in D: print('extra in coq',k)
print(len(D),'descriptors',bad,'bad')
for k,v in sorted(A.items()):
    m=re.search(r'\("%s", \[(.*?)\]\)'%k,at)
    print(k,'|',v,'|',m.group(1) if m else None)
P=open('/verif/rocq/theories/Parsers.v').read()
P=P[P.index('Definition readers'):]; P=P[:P.index('].')]
pr=dict(re.findall(r'\("(\w+)", (.*?)\)[;\n]',P+'\n'))
print('---readers')
for k,v in sorted(R.items()): print(k,'|',v,'|',pr.get(k))
for k in pr:
    if k not in R: print('extra',k,pr[k])
