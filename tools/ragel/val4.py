from val import *
import ast,tempfile
for v in ('CMAKE','IDL_PVWAVE','LIMBO','SCILAB'):
    var.setdefault(v+'_LANG',v.lower())
tot=bad=0; langs_t=set()
def cstr(s): return eval('b'+s) if '\n' not in s else None
strre=r'((?:"(?:[^"\\]|\\.)*"\s*)+)'
for f in sorted(glob.glob('/repo/test/unit/parsers/*.h')):
    t=open(f,encoding='latin-1').read()
    t=re.sub(r'^\s*//.*$','',t,flags=re.M)
    for m in re.finditer(r'test_parser_verify_parse(2?)\(\s*test_parser_sourcefile\(\s*'+strre+','+r'\s*'+strre+r'\),(.*?)\)\s*;',t,re.S):
        two,l,src,rest=m.groups()
        def S(x): return b''.join(eval('b'+y) for y in re.findall(r'"(?:[^"\\]|\\.)*"',x))
        l=S(l).decode(); src=S(src)
        args=re.findall(strre+r'|(\d+)',rest)
        exp=[S(a) if a else int(b) for a,b in args]
        open('/tmp/rx/t.txt','wb').write(src)
        if l not in lang2: print('nolang',l,f); continue
        langs_t.add(l)
        ev=events(l,'/tmp/rx/t.txt')
        order=[];res={}
        for e in ev:
            if isinstance(e,str): print(f,l,src,e); break
            n,k,a,b=e
            if n not in res: order.append(n); res[n]=[b'',b'',0]
            if k=='lblank': res[n][2]+=1
            else:
                while a<b and src[a:a+1] in (b' ',b'\t'): a+=1
                res[n][0 if k=='lcode' else 1]+=src[a:b]
        got=[]
        for n in order: got+=[n.encode()]+res[n]
        tot+=1
        if got[:len(exp)]!=exp: bad+=1; print('BAD',os.path.basename(f),l,src,'EXP',exp,'GOT',got)
print(tot,bad,len(langs_t))
print(sorted(set(lang2)-langs_t))
