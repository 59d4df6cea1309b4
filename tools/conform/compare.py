"""Compare what the model computes with the verified arrays of the repository's tests.
The arrays are read with the standard library only.  Usage: compare.py hydro.out 1st.out 2nd.out"""
import ast, itertools, re, struct, sys, zipfile
import h5

def npy(b):
    n = struct.unpack('<H', b[8:10])[0]
    h = ast.literal_eval(re.sub(r'(\d)L', r'\1', b[10:10+n].decode()))
    k = {'<f8': 'd', '<f4': 'f', '<c8': 'ff', '<c16': 'dd'}[h['descr']]
    sh = h['shape']
    c = 1
    for s in sh: c *= s
    v = struct.unpack_from('<' + k*c, b, 10+n)
    if len(k) == 2: v = [(v[2*i], v[2*i+1]) for i in range(c)]
    if h['fortran_order'] and len(sh) > 1:
        st = [1]
        for s in sh[:-1]: st.append(st[-1]*s)
        v = [v[sum(i*t for i, t in zip(ix, st))] for ix in itertools.product(*map(range, sh))]
    return sh, list(v)

def results(fn):
    out, last = {}, ''
    for l in open(fn):
        l = l.rstrip('\n')
        if l.startswith('== '):
            n = l[3:]
            if n.endswith('__'): n = last.rsplit('/', 1)[0] + '/' + n[:-2]
            else: last = n
            cur = out[n] = [None, []]
        elif l.startswith('shape'): cur[0] = tuple(map(int, l.split()[1:]))
        elif l.startswith('ERR') or l.startswith("'"): cur[1].append(l)
        else: cur[1].append(ast.literal_eval(l))
    return out

def report(name, ref, got):
    (sh, v), (s, w) = ref, got
    if len(v) != len(w) or (s is not None and s != tuple(sh)) or any(isinstance(x, str) for x in w):
        print('DIFFERENT', name, sh, s, w[:1]); return
    if v == w: print('identical', name, sh); return
    m = max(abs(a-b) for a, b in zip(v, w))
    print('within %.1e' % m if m < 1e-5 else 'DIFFERENT by %g' % m, name, sh)

z = zipfile.ZipFile('/repo/tests/files/hydro/slowdrift_G1_verified_arrs.npz')
got = results(sys.argv[1])
for n in z.namelist():
    if n[:-4] in got: report('hydro/' + n[:-4], npy(z.read(n)), got[n[:-4]])
ref = h5.data()
for fn, f in zip(sys.argv[2:], ('1st', '2nd')):
    got = results(fn)
    for p, (sh, v, _) in ref.items():
        q = p.split('/', 2)[2]
        if p.startswith('/test01_' + f) and q in got: report(p[1:], (sh, v), got[q])
