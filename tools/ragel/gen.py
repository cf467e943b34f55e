"""Transcribes /repo/src/parsers/*.rl into theories/Parsers/*.v (syntax of RagelSyntax.v)."""
import re, os, sys
sys.path.insert(0, os.path.dirname(os.path.abspath(__file__)))
from rl import *

OUT = sys.argv[1] if len(sys.argv) > 1 else '/verif/rocq/theories/Parsers'
FILES = sorted(f for f in os.listdir(SRC) if f.endswith('.rl'))
parsed = {f: parse_file(f) for f in FILES}
FID = {f: i for i, f in enumerate(['common.rl'] + [f for f in FILES if f != 'common.rl'])}
VARS = {'nest_count': 0, 'kotlin_comment_nest_count': 1, 'equal_count': 2, 'rebol_string_level': 3,
        'prior_indent_level': 4, 'current_indent_level': 5, 'bracket_level': 6}

consts = {'NEWLINE': -1, 'INTERNAL_NL': -2, 'CHECK_BLANK_ENTRY': -3}
for f in FILES:
    t = parsed[f][0]
    for m in re.finditer(r'enum\s*\{(.*?)\}', t, re.S):
        v = 0
        for e in re.sub(r'//.*', '', m.group(1)).split(','):
            e = e.strip()
            if not e: continue
            if '=' in e: e, x = e.split('='); e = e.strip(); v = int(x)
            assert e not in consts or consts[e] == v, (f, e)
            consts[e] = v; v += 1

# the names of the entities
tables = {}
for f in FILES:
    for m in re.finditer(r'const char \*(\w+)\[\]\s*=\s*\{(.*?)\}', parsed[f][0], re.S):
        tables[m.group(1)] = re.findall(r'"([^"]*)"', re.sub(r'//.*', '', m.group(2)))

def norm(b): return re.sub(r'\s+', ' ', re.sub(r'//.*', '', b)).strip()

COMMON = {}
COMMON[norm(r'''inqueue = 1; if (callback_list_head) free_queue(); callback_list_head = NULL; callback_list_tail = NULL; last_line_start = line_start; last_line_contains_code = line_contains_code; last_whole_line_comment = whole_line_comment;''')] = ['Aenqueue']
COMMON[norm(r'''if (inqueue) { Callback *item; for (item = callback_list_head; item != NULL; item = item->next) callback(item->lang, item->entity, item->s, item->e, item->udata); free_queue(); inqueue = 0; }''')] = ['Acommit']
COMMON['if (!line_start) line_start = ts;'] = ['Als']
COMMON['if (!line_contains_code && !line_start) line_start = ts; line_contains_code = 1;'] = ['Acode']
COMMON['if (!line_contains_code) { whole_line_comment = 1; if (!line_start) line_start = ts; }'] = ['Acomment']
COMMON['if (!line_contains_code && !whole_line_comment) seen = 0;'] = ['Aoutry']

MACRO = [(r'^ls$', 'Mls'), (r'^code$', 'Mcode'), (r'^comment$', 'Mcomment'),
         (r'^std_internal_newline\((\w+)\)$', 'Minl'), (r'^std_newline\((\w+)\)$', 'Mnl'),
         (r'^emb_internal_newline\((\w+)\)$', 'Membinl'), (r'^emb_newline\((\w+)\)$', 'Membnl'),
         (r'^check_blank_entry\((\w+)\)$', 'Mblank')]

def switch(b):
    m = re.match(r'^switch ?\(entity\) ?\{(.*)\}$', b); assert m, b
    parts = re.split(r'\bcase (\w+):', m.group(1)); assert parts[0].strip() == '', b
    out = []; pend = []
    n = len(parts)
    for i in range(1, n, 2):
        c, body = parts[i], parts[i+1].strip()
        pend.append(c)
        if body == '': continue
        last = i + 2 >= n
        if body.endswith('break;'): body = body[:-6].strip()
        else: assert last, ('fallthrough', b)
        body = body.rstrip(';').strip()
        for r, k in MACRO:
            x = re.match(r, body)
            if x:
                mm = k if not x.groups() else f'{k} "{x.group(1)}"'
                break
        else: raise Exception('macro ' + body)
        for p in pend: out.append(f'({z(consts[p])}, {mm})')
        pend = []
    assert not pend
    return 'Switch [' + '; '.join(out) + ']'

def z(n): return str(n) if n >= 0 else f'({n})'

def stmts(body, inst):
    b = norm(body)
    if b in COMMON: return COMMON[b]
    if b.startswith('switch'): return [switch(b)]
    m = re.match(r'^callback\((\w+), (\w+)\[entity\], cint\(ts\), cint\(te\), userdata\);$', b)
    if m: return [f'Report "{m.group(1)}" [' + '; '.join(f'"{x}"' for x in tables[m.group(2)]) + ']']
    out = []
    for s in b.split(';'):
        s = s.strip()
        if not s: continue
        m = re.match(r'^entity = (\w+)$', s)
        if m: out.append(f'Entity {z(consts[m.group(1)])}'); continue
        m = re.match(r'^saw\((\w+)\)$', s)
        if m: out.append(f'Asaw "{m.group(1)}"'); continue
        if s == 'fhold': out.append('Hold'); continue
        if s == 'fret': out.append('Ret'); continue
        if s == 'p = ts': out.append('PTs'); continue
        m = re.match(r'^(fcall|fgoto) (\w+)$', s)
        if m: out.append(('Call ' if m.group(1) == 'fcall' else 'Goto ') + inst(m.group(2))); continue
        m = re.match(r'^(\w+) = (\d+)$', s)
        if m: out.append(f'VarSet {VARS[m.group(1)]} {m.group(2)}'); continue
        m = re.match(r'^(\w+)(\+\+|--)$', s) 
        if m: out.append(f'VarAdd {VARS[m.group(1)]} {"1" if m.group(2)=="++" else "(-1)"}'); continue
        m = re.match(r'^(\+\+|--)(\w+)$', s)
        if m: out.append(f'VarAdd {VARS[m.group(2)]} {"1" if m.group(1)=="++" else "(-1)"}'); continue
        m = re.match(r'^(\w+) = (\w+)$', s)
        if m: out.append(f'VarCopy {VARS[m.group(1)]} {VARS[m.group(2)]}'); continue
        raise Exception('stmt ' + s)
    return out

CONDS = {'p+1 < pe && *(p+1) != \'\\n\'': ('CrAlone', True),
         "p == buffer || *(p-1) == '\\r' || *(p-1) == '\\n' || *(p-1) == '\\f'": ('StartsLine', True),
         '!line_contains_code': ('NoCode', True),
         'current_indent_level < prior_indent_level': ('(Less 5 4)', True),
         'current_indent_level >= prior_indent_level': ('(Less 5 4)', False)}
def cond(body):
    b = norm(body)
    if b in CONDS: return CONDS[b]
    m = re.match(r'^(\w+) == 0$', b)
    if m: return (f'(IsZero {VARS[m.group(1)]})', True)
    m = re.match(r'^(\w+) > 0$', b)
    if m: return (f'(IsPos {VARS[m.group(1)]})', True)
    raise Exception('cond ' + b)

def strlit(codes):
    if codes and all(32 <= c < 127 for c in codes):
        return '(bytes "' + ''.join('""' if c == 34 else chr(c) for c in codes) + '")'
    return '[' + '; '.join(map(str, codes)) + ']'

def ranges(mask):
    out = []; c = 0
    while c < 256:
        if mask >> c & 1:
            d = c
            while d < 255 and mask >> (d+1) & 1: d += 1
            out.append(f'({c}, {d})'); c = d + 1
        else: c += 1
    return '[' + '; '.join(out) + ']'

BN = {'any': 'r_any', 'space': 'r_space', 'digit': 'r_digit', 'alpha': 'r_alpha', 'alnum': 'r_alnum', 'cntrl': 'r_cntrl'}

class Gen:
    """One machine (a .rl file with the ones embedded into it)."""
    def __init__(self, f):
        self.f = f; self.text = parsed[f][0]
        self.emb = [x + '.rl' for x in re.findall(r'#EMBED\(([a-z_]+)\)', self.text)]
        self.scope = ['common.rl'] + self.emb + ([f] if f != 'common.rl' else [])
        self.act = {}; self.defs = {}; self.insts = {}
        for g in self.scope:
            for s in parsed[g][1]:
                if s[0] == 'action': assert s[1] not in self.act or self.act[s[1]] == s, s; self.act[s[1]] = s
                elif s[0] == 'def':
                    assert s[1] not in self.defs, (f, s[1]); self.defs[s[1]] = s
                else: self.insts[s[1]] = s
        m = re.search(r'cs = \(count\) \? \w+_en_(\w+_line) : \w+_en_(\w+_entity);', self.text)
        self.main = m.group(1) if m else None
        self.main2 = m.group(2) if m else None
        if f != 'common.rl' and not self.main: raise Exception(f)
        if self.main:
            m = re.search(r'process_last_line\((\w+)\)', self.text); self.lang = m.group(1)
        # numbering of the instances
        self.order = []; self.order2 = []
        if self.main:
            self.need(self.main, self.order); self.need(self.main2, self.order2)
            assert not set(self.order) & set(self.order2), f

    def need(self, n, order):
        if n in order: return
        order.append(n)
        for b in self.bodies(self.insts[n][2], set()):
            for x in re.findall(r'f(?:call|goto) (\w+)', b): self.need(x, order)
    def bodies(self, e, seen):
        """all action bodies reachable from an expression"""
        if isinstance(e, list):
            for x in e: yield from self.bodies(x, seen)
            return
        if not isinstance(e, tuple) or not e: return
        if e[0] == 'name' and e[1] in self.defs:
            if e[1] not in seen:
                seen.add(e[1]); yield from self.bodies(self.defs[e[1]][2], seen)
            return
        if e[0] == 'ref': 
            yield self.act[e[1]][2] ; return
        if e[0] == 'code': yield e[1]; return
        for x in e: yield from self.bodies(x, seen)

gens = {f: Gen(f) for f in FILES}
# inline actions are numbered per file in source order
inline = {}
def collect(f):
    n = [0]
    def go(e):
        if isinstance(e, list):
            for x in e: go(x)
        elif isinstance(e, tuple) and e:
            if e[0] == 'code':
                n[0] += 1; inline[id(e)] = FID[f] * 1000 + 500 + n[0]
            else:
                for x in e: go(x)
    for s in parsed[f][1]:
        if s[0] != 'action': go(s[2])
for f in FILES: collect(f)
def act_id(s):
    f = s[-1]; l = [x for x in parsed[f][1] if x[0] == 'action']
    return FID[f] * 1000 + 1 + l.index(s)

class Emit:
    def __init__(self, g):
        self.g = g; self.done = set(); self.out = []; self.req = set(); self.ord = g.order
    def inst(self, n):
        return str(self.ord.index(n))
    def mod(self, f): return ''.join(w.capitalize() for w in f[:-3].split('_'))
    def owner(self, s):
        """True if the definition belongs to the file being written"""
        if s[-1] == self.g.f: return True
        self.req.add(s[-1]); exported.setdefault(s[-1], set()).add((s[0], s[1])); return False
    def action(self, r):
        if r[0] == 'ref':
            s = self.g.act[r[1]]
            if self.owner(s) and ('a', r[1]) not in self.done:
                self.done.add(('a', r[1]))
                self.out.append(f'(** {s[-1]}:{s[3]} *)\nDefinition a_{r[1]} : action := mkAction {act_id(s)} [{"; ".join(stmts(s[2], self.inst))}].\n')
            return f'a_{r[1]}'
        return f'(mkAction {inline[id(r)]} [{"; ".join(stmts(r[1], self.inst))}])'
    def aug(self, a):
        if a[0] == 'when':
            r = a[1]; c, b = cond(self.g.act[r[1]][2] if r[0] == 'ref' else r[1])
            if a[2]: b = not b
            return f'When {c} {"true" if b else "false"}'
        k = {'>': 'Enter', '@': 'Finish', '$': 'All', '%': 'Leave', '%/': 'FinalEof'}[a[0]]
        return f'{k} {self.action(a[1])}'
    def flat(self, op, e):
        if isinstance(e, tuple) and e[0] == op: return self.flat(op, e[1]) + [e[2]]
        return [e]
    def rx(self, e, ind):
        """parenthesised expression"""
        s = self.rx0(e, ind)
        return s if re.match(r'^[\w]+$', s) else f'({s})'
    def rx0(self, e, ind):
        k = e[0]; nl = '\n' + ' ' * (ind + 2)
        if k in ('.', '|'):
            l = self.flat(k, e)
            xs = [self.rx0(x, ind + 2) for x in l]
            h = xs[0] if re.match(r'^\w+$', xs[0]) else f'({xs[0]})'
            one = f'{"cats" if k == "." else "alts"} {h} [{"; ".join(xs[1:])}]'
            if len(one) + ind < 100 and '\n' not in one: return one
            return f'{"cats" if k == "." else "alts"} {h} [' + nl + (';' + nl).join(xs[1:]) + ']'
        if k == '-': return f'Diff {self.rx(e[1], ind)} {self.rx(e[2], ind)}'
        if k == ':>>': return f'CatFin {self.rx(e[1], ind)} {self.rx(e[2], ind)}'
        if k == 'aug':
            # entering actions are met before the operand, the others after it: the order
            # of definitions does not matter here
            return f'Aug [{"; ".join(self.aug(a) for a in e[2])}] {self.rx(e[1], ind)}'
        if k == 'rep*': return f'Star {self.rx(e[1], ind)}'
        if k == 'rep+': return f'Plus {self.rx(e[1], ind)}'
        if k == 'rep?': return f'Opt {self.rx(e[1], ind)}'
        if k == 'rep{}':
            a, c, b = e[2]
            if a and not c: return f'Rep {int(a)} {self.rx(e[1], ind)}'
            if c and not a and b == '1': return f'Opt {self.rx(e[1], ind)}'
            raise Exception(e)
        if k == 'neg!': return f'NotStr {self.rx(e[1], ind)}'
        if k == 'neg^': return f'NotChr {self.rx(e[1], ind)}'
        if k == 'lit': return ('LitI ' if e[2] else 'Lit ') + strlit(e[1])
        if k == 'regex':
            s, ci = e[1]; assert re.match(r'^[\w @<>-]+$', s), s
            return ('LitI ' if ci else 'Lit ') + strlit([ord(c) for c in s])
        if k == 'set':
            m = e[1]
            if m == ALL: return 'r_any'
            if m >> 128: return 'NCls ' + ranges(ALL & ~m)
            return 'Cls ' + ranges(m)
        if k == 'name':
            n = e[1]
            if n not in self.g.defs: return BN[n]
            s = self.g.defs[n]
            if self.owner(s) and ('d', n) not in self.done:
                self.done.add(('d', n))
                b = self.rx0(s[2], 2)
                self.out.append(f'(** {s[-1]}:{s[3]}-{s[4]} *)\nDefinition m_{n} : rx :=\n  {b}.\n')
            return f'm_{n}'
        raise Exception(k)
    def instance(self, n):
        s = self.g.insts[n]
        if s[-1] != self.g.f: raise Exception('foreign instance')
        e = s[2]
        if e[0] == 'lm':
            parts = []
            for r, a, l in e[1]:
                parts.append(f'({self.rx0(r, 4)}, {"Some " + self.action(a) if a else "None"})')
            b = 'Scanner [\n    ' + ';\n    '.join(parts) + ']'
        else: b = 'Plain ' + self.rx(e, 2)
        self.out.append(f'(** {s[-1]}:{s[3]}-{s[4]} *)\nDefinition i_{n} : instance :=\n  {b}.\n')

def wrap(s):
    return s
exported = {}
def modname(f): return ''.join(w.capitalize() for w in f[:-3].split('_'))
emits = {}
for f in FILES:
    if f == 'common.rl': continue
    g = gens[f]; e = Emit(g)
    for n in g.order: e.instance(n)
    e.ord = g.order2
    for n in g.order2: e.instance(n)
    emits[f] = e
# definitions needed by other files
for f in list(exported):
    if f not in emits: emits[f] = Emit(gens[f])
changed = True
while changed:
    changed = False
    for f in list(exported):
        e = emits.get(f)
        if e is None: e = emits[f] = Emit(gens[f])
        for k, n in sorted(exported[f]):
            if k == 'def' and ('d', n) not in e.done: e.rx0(('name', n, 0), 2); changed = True
            if k == 'action' and ('a', n) not in e.done: e.action(('ref', n)); changed = True
os.makedirs(OUT, exist_ok=True)
for f, e in emits.items():
    g = gens[f]
    reqs = [modname(x) for x in g.scope if x in e.req]
    h = f'(** Transcription of /repo/src/parsers/{f}: the line counting machine and the\n    entity machine (written by tools/ragel/gen.py). *)\n' if f != 'common.rl' else '(** Transcription of /repo/src/parsers/common.rl (written by tools/ragel/gen.py). *)\n'
    h += 'From Coq Require Import ZArith String List.\nFrom Verif Require Import Base RagelSyntax.\n'
    if reqs: h += 'From Verif.Parsers Require Import ' + ' '.join(reqs) + '.\n'
    h += 'Import ListNotations.\nOpen Scope string_scope.\nOpen Scope Z_scope.\nOpen Scope list_scope.\n\n'
    b = '\n'.join(e.out)
    if f != 'common.rl':
        b += f'\nDefinition the_parser : parser := mkParser [{"; ".join("i_" + n for n in g.order)}] "{g.lang}".\n'
        b += f'Definition the_entities : parser := mkParser [{"; ".join("i_" + n for n in g.order2)}] "{g.lang}".\n'
    open(f'{OUT}/{modname(f)}.v', 'w').write(h + b)
print(len(emits), 'files')
