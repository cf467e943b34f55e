import re,os,glob,subprocess
SRC='/repo/src/parsers/'
langs=dict(re.findall(r'#define (LANG_\w+)\s+"([^"]*)"',open('/repo/src/languages.h').read()))
var={}
wrappers=[] # (langname, parserfile, {VAR:lang})
fn={} # parse fn -> (mod, rename)
def mod(f): return ''.join(w.capitalize() for w in f[:-3].split('_'))
for f in sorted(os.listdir(SRC)):
    if not f.endswith('.rl') or f=='common.rl': continue
    t=open(SRC+f,encoding='latin-1').read()
    for v,l in re.findall(r'const char \*(\w+)\s*=\s*(LANG_\w+);',t): var[v]=langs[l]
    for m in re.finditer(r'void parse_(\w+)\([^{]*\{(.*?)\n\}',t,re.S):
        n,b=m.groups()
        c=re.search(r'parse_(\w+)\(buffer',b)
        ren=dict(re.findall(r'(\w+_LANG)\s*=\s*(\w+_LANG);',b.split('parse_')[0])) if c else dict(re.findall(r'^\s*(\w+_LANG)\s*=\s*(\w+);',b.split('init')[0],re.M))
        fn[n]=(mod(f) if not c else ('->',c.group(1)),ren)
pg=open('/repo/src/hash/parsers.gperf').read()
table={}
for m in re.finditer(r'^\s*(\w+),\s*parse_(\w+)',pg,re.M): table[m.group(1)]=m.group(2)
def resolve(n):
    mo,ren=fn[n]
    if isinstance(mo,tuple):
        m2,_=resolve(mo[1]); return m2,ren
    return mo,ren
lang2={}
for l,n in table.items():
    try: lang2[l]=resolve(n)
    except KeyError as e: print('no parser',l,n)
drv=subprocess.Popen(['./drv'],stdin=subprocess.PIPE,stdout=subprocess.PIPE)
def run(modname,path):
    drv.stdin.write(f'{modname}\t{path}\n'.encode()); drv.stdin.flush()
    out=[]
    while True:
        l=drv.stdout.readline().decode().strip()
        if l=='END': return out
        if l=='': raise Exception('dead')
        out.append(l)
def events(lang,path):
    m,ren=lang2[lang]
    out=run(m,path); ev=[]
    for l in out:
        if l in('UB','FUEL','NOCOMPILE'): ev.append(l); continue
        v,k,s,e=l.split()
        v=ren.get(v,v)
        ev.append((var.get(v,langs.get(v,v)),k,int(s),int(e)))
    return ev
if __name__=='__main__':
    print(len(lang2),'languages', {l for l in lang2 if lang2[l][1]})
