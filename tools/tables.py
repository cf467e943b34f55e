#!/usr/bin/env python3
"""Write Tables.v: the gperf tables of /repo/src/hash, in full."""
import re, os
ROOT = os.path.dirname(os.path.dirname(os.path.abspath(__file__)))
H = '/repo/src/hash/'
langs = dict(re.findall(r'#define (LANG_\w+)\s+"([^"]*)"', open('/repo/src/languages.h').read()))
def rows(f):
    t = open(H + f).read()
    head, body = t.split('\n%%\n')[:2]
    n = head.count('\n') + 3
    for i, l in enumerate(body.split('\n')):
        if l.strip():
            yield n + i, l
def q(s): return '"' + s + '"'
def val(v):
    v = v.strip()
    if v == 'BINARY': return 'binary'
    m = re.fullmatch(r'DISAMBIGUATE\("(\w+)"\)', v)
    if m: return 'ambiguous ' + q(m.group(1))
    return q(langs[v])
def pairs(f):
    out = []
    for n, l in rows(f):
        k, v = l.split(',', 1)
        out.append((k.strip(), v.strip(), n))
    return out
out = [r'''(** The lookup tables of /repo/src/hash/*.gperf, in full (written by tools/tables.py).  The
    C code generated by gperf is not part of the repository; the model uses its contract: a
    lookup with a string and its length finds the entry with this key, if any.  Entries are
    in file order. *)
From Coq Require Import ZArith String Ascii List Bool.
From Verif Require Import Base.
Import ListNotations.
Open Scope string_scope.
Open Scope Z_scope.
Open Scope list_scope.

(** extensions.gperf:4 [BINARY], detector.c:20 [ISBINARY] *)
Definition binary : string := String "001"%char EmptyString.
Definition is_binary (v : string) : bool :=
  match v with String c _ => (c =? "001")%char | EmptyString => false end.

(** extensions.gperf:5 [DISAMBIGUATE], detector.c:21-22 [ISAMBIGUOUS], [DISAMBIGUATEWHAT] *)
Definition ambiguous (what : string) : string := String "002"%char what.
Definition is_ambiguous (v : string) : bool :=
  match v with String c _ => (c =? "002")%char | EmptyString => false end.
Definition ambiguous_what (v : string) : string :=
  match v with String _ r => r | EmptyString => EmptyString end.

(** The contract of the generated lookup functions. *)
Fixpoint lookup {A} (t : list (string * A)) (key : list Z) : option A :=
  match t with
  | [] => None
  | (k, v) :: r => if zlist_eqb (bytes k) key then Some v else lookup r key
  end.
''']
def table(name, f, typ, fmt, comment):
    ps = pairs(f)
    out.append(f'(** {f}:{ps[0][2]}-{ps[-1][2]}{comment} *)\nDefinition {name} : list (string * {typ}) := [')
    out.append(';\n'.join(f'  ({q(k)}, {fmt(v)})' for k, v, n in ps) + '].\n')
table('extensions', 'extensions.gperf', 'string', val, '')
table('filenames', 'filenames.gperf', 'string', val, '')
def lrow(v):
    a, b = v.split(',', 1)
    m = re.fullmatch(r'\s*"(.*)",\s*(\d+)', b)
    return f'mkLanguage {q(langs[a.strip()])} {q(m.group(1))} {m.group(2)}'
out.append('''(** languages.h:134 [LanguageMap] without the key; category 0 code, 1 markup, 2 build. *)
Record language := mkLanguage { l_name : string; l_nice : string; l_category : Z }.
''')
table('languages', 'languages.gperf', 'language', lrow, '')
table('cppheaders', 'cppheaders.gperf', 'Z', lambda v: v, '')
ids = [v[len('disambiguate_'):] for _, v, _ in pairs('disambiguatefuncs.gperf')]
out.append('''(** The functions of detector.c named in disambiguatefuncs.gperf. *)
Inductive func := ''' + ' | '.join('F_' + i for i in ids) + '.\n')
table('disambiguators', 'disambiguatefuncs.gperf', 'func', lambda v: 'F_' + v[len('disambiguate_'):], '')
ps = pairs('parsers.gperf')
out.append(f'(** parsers.gperf:{ps[0][2]}-{ps[-1][2]}: the languages that have a parser (the parsers themselves\n    are in ParserTable). *)\nDefinition parser_names : list string := [')
out.append('  ' + '; '.join(q(k) for k, _, _ in ps) + '].')
open(ROOT + '/rocq/theories/Tables.v', 'w').write('\n'.join(out) + '\n')
