from val import *
import sys
S='/repo/test/src_dir/';E='/repo/test/expected_dir/'
nm=0; bad=[]
K={'lcode':b'code','lcomment':b'comment','lblank':b'blank'}
def render(ev,t):
    out=b''
    for e in ev:
        if isinstance(e,str): return None
        out+=e[0].encode()+b'\t'+K[e[1]]+b'\t'+t[e[2]:e[3]]
    return out
used=set()
for f in sorted(os.listdir(E)):
    exp=open(E+f,'rb').read()
    if not os.path.exists(S+f): print('nosrc',f); continue
    t=open(S+f,'rb').read()
    first={l.split(b'\t')[0].decode() for l in exp.split(b'\n') if l}
    cand=[]
    best=None
    for l in sorted(x for x in lang2 if x in first or not first):
        ev=events(l,S+f)
        r=render(ev,t)
        if r is not None and (r==exp or r.rstrip(b'\n')==exp.rstrip(b'\n')): cand.append(l); 
    if cand: nm+=1; used.update(cand); print(f,cand[:4])
    else: bad.append(f); print('NOMATCH',f,first)
print(nm,len(bad),bad)
