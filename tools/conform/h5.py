import struct,sys
D=open('/repo/tests/files/verified_testdata.h5','rb').read()
u8=lambda o:struct.unpack_from('<Q',D,o)[0]
u4=lambda o:struct.unpack_from('<I',D,o)[0]
u2=lambda o:struct.unpack_from('<H',D,o)[0]
def messages(a):
    n=u2(a+2); size=u4(a+8); blocks=[(a+16,size)]; out=[]
    while blocks and len(out)<n:
        o,s=blocks.pop(0); e=o+s
        while o<e and len(out)<n:
            t=u2(o); l=u2(o+2); b=o+8
            out.append((t,b,l))
            if t==0x10: blocks.append((u8(b),u8(b+8)))
            o=b+l
    return out
def heapname(h,off):
    seg=u8(h+24); e=D.index(b'\0',seg+off); return D[seg+off:e].decode()
def tree(b,h):
    if D[b:b+4]==b'SNOD':
        n=u2(b+6)
        for i in range(n):
            o=b+8+40*i; yield heapname(h,u8(o)),u8(o+8)
        return
    assert D[b:b+4]==b'TREE'
    n=u2(b+6)
    for i in range(n): yield from tree(u8(b+24+8+16*i),h)
def walk(a,p=''):
    ms=messages(a)
    for t,b,l in ms:
        if t==0x11:
            for n,o in tree(u8(b),u8(b+8)): yield from walk(o,p+'/'+n)
            return
    sh=None;dt=None;lay=None
    for t,b,l in ms:
        if t==1: r=D[b+1]; sh=tuple(u8(b+(8 if D[b]==1 else 4)+8*i) for i in range(r))
        if t==3: dt=(D[b]&15,u4(b+4))
        if t==8:
            v=D[b]
            if v==3 and D[b+1]==1: lay=(u8(b+2),u8(b+10))
            else: lay=('other',v,D[b+1])
    if sh is not None: yield p,sh,dt,lay
def data():
    r={}
    for p,sh,dt,lay in walk(u8(64)):
        c=1
        for s in sh: c*=s
        k={(0,4):'i',(0,8):'q',(1,4):'f',(1,8):'d'}.get(dt)
        if k is None or lay[0]=='other': print('skip',p,sh,dt,lay); continue
        r[p]=(sh,list(struct.unpack_from('<%d%s'%(c,k),D,lay[0])),k)
    return r
if __name__=='__main__':
    for p,(sh,v,k) in data().items(): print(p,sh,k,v[:3])
