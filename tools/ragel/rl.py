"""Parser for the subset of Ragel 6 used by ohcount."""
import re, sys, os
SRC='/repo/src/parsers/'

class Tok:
    def __init__(s,k,v,line): s.k=k; s.v=v; s.line=line
    def __repr__(s): return f'{s.k}:{s.v!r}@{s.line}'

def read_block(txt,i):
    """txt[i]=='{': returns (inner, j) with j after the matching }"""
    d=0; j=i
    while True:
        c=txt[j]
        if c=='{': d+=1; j+=1
        elif c=='}':
            d-=1; j+=1
            if d==0: return txt[i+1:j-1], j
        elif c=='"':
            j+=1
            while txt[j]!='"':
                if txt[j]=='\\': j+=1
                j+=1
            j+=1
        elif c=="'":
            j+=1
            while txt[j]!="'":
                if txt[j]=='\\': j+=1
                j+=1
            j+=1
        elif txt.startswith('//',j):
            while txt[j]!='\n': j+=1
        elif txt.startswith('/*',j):
            j=txt.index('*/',j)+2
        else: j+=1

ESC={'n':10,'t':9,'r':13,'f':12,'v':11,'a':7,'b':8,'0':0}
def unesc(s):
    """list of (code, escaped?)"""
    out=[]; i=0
    while i<len(s):
        if s[i]=='\\':
            i+=1
            c=s[i]
            if c=='\n': i+=1; continue
            out.append((ESC.get(c,ord(c)),True))
        else: out.append((ord(s[i]),False))
        i+=1
    return out

SYMS=[':>>','<>',':>',':=','<:','|*','*|','=>','..','**','%/','$/','>/','@/','<!','$!','%!','>!','--','->']
def lex(txt,line0):
    toks=[]; i=0; n=len(txt); line=line0
    def adv(j):
        nonlocal i,line
        line+=txt.count('\n',i,j); i=j
    while i<n:
        c=txt[i]
        if c in ' \t\r\n': adv(i+1); continue
        if c=='#':
            j=txt.find('\n',i); adv(n if j<0 else j); continue
        if c in '\'"':
            j=i+1
            while txt[j]!=c:
                if txt[j]=='\\': j+=1
                j+=1
            s=txt[i+1:j]; j+=1
            ci=False
            if j<n and txt[j]=='i' and not (j+1<n and (txt[j+1].isalnum() or txt[j+1]=='_')): ci=True; j+=1
            toks.append(Tok('lit',([x for x,_ in unesc(s)],ci),line)); adv(j); continue
        if c=='[':
            j=i+1
            while txt[j]!=']':
                if txt[j]=='\\': j+=1
                j+=1
            s=txt[i+1:j]; toks.append(Tok('set',s,line)); adv(j+1); continue
        if c=='{':
            m=re.match(r'\{\s*(\d*)\s*(,?)\s*(\d*)\s*\}',txt[i:])
            if m and (m.group(1) or m.group(3)):
                toks.append(Tok('rep',m.groups(),line)); adv(i+m.end()); continue
            b,j=read_block(txt,i); toks.append(Tok('block',b.strip(),line)); adv(j); continue
        if c.isalpha() or c=='_':
            m=re.match(r'[A-Za-z_][A-Za-z_0-9]*',txt[i:]); w=m.group(0)
            toks.append(Tok('word',w,line)); adv(i+m.end()); continue
        if c.isdigit():
            m=re.match(r'0x[0-9a-fA-F]+|\d+',txt[i:])
            toks.append(Tok('num',int(m.group(0),0),line)); adv(i+m.end()); continue
        if c=='/':
            # regex
            if toks and toks[-1].k=='sym' and toks[-1].v in '>@$%': raise Exception('state op')
            j=i+1
            while txt[j]!='/':
                if txt[j]=='\\': j+=1
                if txt[j]=='[':
                    while txt[j]!=']':
                        if txt[j]=='\\': j+=1
                        j+=1
                j+=1
            s=txt[i+1:j]; j+=1
            ci=False
            if j<n and txt[j]=='i': ci=True; j+=1
            toks.append(Tok('regex',(s,ci),line)); adv(j); continue
        for s in SYMS:
            if txt.startswith(s,i):
                toks.append(Tok('sym',s,line)); adv(i+len(s)); break
        else:
            toks.append(Tok('sym',c,line)); adv(i+1)
    toks.append(Tok('eof','',line))
    return toks

# AST: tuples with first a tag, last the line
def setmask(s):
    neg=s.startswith('^')
    if neg: s=s[1:]
    u=unesc(s); m=0; i=0
    while i<len(u):
        if i+2<len(u) and u[i+1]==(ord('-'),False):
            for c in range(u[i][0],u[i+2][0]+1): m|=1<<c
            i+=3
        else: m|=1<<u[i][0]; i+=1
    return (ALL&~m) if neg else m
ALL=(1<<256)-1
def mk(f): return sum(1<<c for c in range(256) if f(c))
import string
BUILTIN={'any':ALL,'ascii':mk(lambda c:c<128),'alpha':mk(lambda c:chr(c) in string.ascii_letters),
 'digit':mk(lambda c:48<=c<58),'alnum':mk(lambda c:chr(c) in string.ascii_letters+string.digits),
 'lower':mk(lambda c:97<=c<123),'upper':mk(lambda c:65<=c<91),
 'xdigit':mk(lambda c:chr(c) in string.hexdigits),'cntrl':mk(lambda c:c<32 or c==127),
 'graph':mk(lambda c:33<=c<127),'print':mk(lambda c:32<=c<127),'space':mk(lambda c:c==32 or 9<=c<=13),
 'punct':mk(lambda c:33<=c<127 and not chr(c).isalnum())}

class P:
    def __init__(s,toks): s.t=toks; s.i=0
    def pk(s): return s.t[s.i]
    def nx(s): s.i+=1; return s.t[s.i-1]
    def is_(s,v): t=s.pk(); return t.k=='sym' and t.v==v
    def eat(s,v):
        t=s.nx()
        if not(t.k=='sym' and t.v==v): raise Exception(f'expected {v} got {t}')
        return t
    def stmts(s):
        out=[]
        while s.pk().k!='eof':
            t=s.nx()
            if t.k!='word': raise Exception(f'stmt {t}')
            if t.v in('machine','write','include'):
                while not s.is_(';'): s.nx()
                s.eat(';'); continue
            if t.v=='action':
                n=s.nx().v; b=s.nx(); assert b.k=='block',b
                out.append(('action',n,b.v,t.line)); continue
            if s.is_('='):
                s.nx(); e=s.join(); end=s.eat(';'); out.append(('def',t.v,e,t.line,end.line)); continue
            if s.is_(':='):
                s.nx(); e=s.join(); end=s.eat(';'); out.append(('inst',t.v,e,t.line,end.line)); continue
            raise Exception(f'stmt {t} {s.pk()}')
        return out
    def join(s):
        return s.expr()
    def expr(s):
        l=s.pk().line
        e=s.term()
        while s.pk().k=='sym' and s.pk().v in('|','&','-','--'):
            o=s.nx().v; r=s.term(); e=(o,e,r,l)
        return e
    def starts_factor(s):
        t=s.pk()
        return t.k in('lit','set','word','num','regex') or (t.k=='sym' and t.v in('(','!','^','|*','-') and t.v!='-')
    def term(s):
        l=s.pk().line
        e=s.aug()
        while True:
            t=s.pk()
            if t.k=='sym' and t.v in('.',':>',':>>','<:'):
                s.nx(); r=s.aug(); e=(t.v,e,r,l)
            elif s.starts_factor(): r=s.aug(); e=('.',e,r,l)
            else: return e
    def actref(s):
        t=s.nx()
        if t.k=='word': return ('ref',t.v)
        if t.k=='block': return ('code',t.v)
        raise Exception(f'act {t}')
    def aug(s):
        l=s.pk().line
        e=s.rep(); augs=[]
        while True:
            t=s.pk()
            if t.k=='sym' and t.v in('>','@','$','%','%/'):
                s.nx(); augs.append((t.v,s.actref()))
            elif t.k=='word' and t.v=='when':
                s.nx(); neg=False
                if s.is_('!'): s.nx(); neg=True
                augs.append(('when',s.actref(),neg))
            else: break
        return ('aug',e,augs,l) if augs else e
    def rep(s):
        l=s.pk().line
        e=s.neg()
        while True:
            t=s.pk()
            if t.k=='sym' and t.v in('*','**','?','+'): s.nx(); e=(t.v if t.v not in'' else t.v,e,l); e=('rep'+e[0],e[1],l)
            elif t.k=='rep': s.nx(); e=('rep{}',e,t.v,l)
            else: return e
    def neg(s):
        t=s.pk()
        if t.k=='sym' and t.v in('!','^'): s.nx(); return ('neg'+t.v,s.neg(),t.line)
        return s.factor()
    def factor(s):
        t=s.nx()
        if t.k=='lit':
            if s.is_('..'):
                s.nx(); u=s.nx(); a=t.v[0][0]; b=u.v[0][0]; return ('set',sum(1<<c for c in range(a,b+1)),t.line)
            return ('lit',t.v[0],t.v[1],t.line)
        if t.k=='set': return ('set',setmask(t.v),t.line)
        if t.k=='num': return ('lit',[t.v],False,t.line)
        if t.k=='regex': return ('regex',t.v,t.line)
        if t.k=='word':
            return ('name',t.v,t.line)
        if t.k=='sym' and t.v=='(':
            e=s.join(); s.eat(')'); return e
        if t.k=='sym' and t.v=='|*':
            parts=[]
            while not s.is_('*|'):
                l=s.pk().line
                e=s.join(); a=None
                if s.is_('=>'):
                    s.nx(); a=s.actref(); 
                s.eat(';'); parts.append((e,a,l))
            s.eat('*|'); return ('lm',parts,t.line)
        raise Exception(f'factor {t}')

def sections(fn):
    t=open(SRC+fn,encoding='latin-1').read(); out=[]; i=0
    while True:
        m=re.compile(r'^%%\{',re.M).search(t,i)
        if not m: break
        e=re.compile(r'^\}%%',re.M).search(t,m.end())
        out.append((t[m.end():e.start()],t.count('\n',0,m.end())+1)); i=e.end()
    return t,out

def parse_file(fn):
    t,secs=sections(fn); st=[]
    for s,l in secs:
        for x in P(lex(s,l)).stmts(): st.append(x+(fn,))
    return t,st
if __name__=='__main__':
    import glob
    bodies={}
    for f in sorted(os.listdir(SRC)):
        if not f.endswith('.rl'): continue
        try:
            t,st=parse_file(f)
        except Exception as e:
            print(f,'FAIL',repr(e)); continue
        def walk(e):
            if isinstance(e,tuple):
                if e and e[0]=='code': bodies.setdefault(re.sub(r'\s+',' ',e[1]),[]).append(f)
                for x in e: walk(x)
            elif isinstance(e,list):
                for x in e: walk(x)
        for x in st:
            if x[0]=='action': bodies.setdefault(re.sub(r'\s+',' ',x[2]),[]).append(f+':'+x[1])
            else: walk(x[2])
    for b in sorted(bodies): print(b,'   <<',sorted(set(bodies[b]))[:3],len(bodies[b]))
