#!/usr/bin/env python3
"""Write ParserTable.v (parsers.gperf and the parse functions it names) and the
certificates ScanCerts*.v from /repo."""
import re, os
ROOT = os.path.dirname(os.path.dirname(os.path.dirname(os.path.abspath(__file__))))
SRC = '/repo/src/parsers/'
TH = ROOT + '/rocq/theories/'
langs = dict(re.findall(r'#define (LANG_\w+)\s+"([^"]*)"', open('/repo/src/languages.h').read()))
var, fn = {}, {}
def mod(f): return ''.join(w.capitalize() for w in f[:-3].split('_'))
for f in sorted(os.listdir(SRC)):
    if not f.endswith('.rl') or f == 'common.rl': continue
    t = open(SRC + f, encoding='latin-1').read()
    for v, l in re.findall(r'const char \*(\w+)\s*=\s*(LANG_\w+);', t): var[v] = langs[l]
    for v, l in re.findall(r'const char \*(\w+)\s*=\s*"(\w+)";', t): var[v] = l
    for m in re.finditer(r'void parse_(\w+)\([^{]*\{(.*?)\n\}', t, re.S):
        n, b = m.groups()
        ln = t[:m.start()].count('\n') + 1
        ln2 = t[:m.end()].count('\n') + 1
        c = re.search(r'parse_(\w+)\(buffer', b)
        ren = dict(re.findall(r'(\w+_LANG)\s*=\s*(\w+_LANG);', b.split('parse_')[0])) if c else \
              dict(re.findall(r'^\s*(\w+_LANG)\s*=\s*(\w+);', b.split('init')[0], re.M))
        fn[n] = (mod(f) if not c else ('->', c.group(1)), ren, f'{f}:{ln}-{ln2}')
pg = open('/repo/src/hash/parsers.gperf').read()
table = [(m.group(1), m.group(2), pg[:m.start(1)].count('\n') + 1)
         for m in re.finditer(r'^\s*(\w+),\s*parse_(\w+)', pg, re.M)]
def resolve(n):
    mo, ren, at = fn[n]
    if isinstance(mo, tuple): return resolve(mo[1])[0], ren, at
    return mo, ren, at
P = TH + 'Parsers/'
def names(mo, seen):
    if mo in seen or mo == 'Common': return []
    seen.add(mo)
    t = open(P + mo + '.v').read()
    out = list(dict.fromkeys(re.findall(r'"(\w+_LANG)"', t)))
    for m in re.findall(r'From Verif.Parsers Require Import ([^.]*)\.', t):
        for x in m.split():
            for y in names(x, seen):
                if y not in out: out.append(y)
    return out
def val(v): return langs.get(v, var.get(v))
mods, rows = [], []
for l, n, ln in table:
    mo, ren, at = resolve(n)
    if mo not in mods: mods.append(mo)
    vs = [(v, val(ren.get(v, v))) for v in names(mo, set())]
    assert all(x for _, x in vs), (l, vs)
    rows.append((l, mo, vs, ln, at))
out = ['''(** The parsers by language: hash/parsers.gperf and the parse functions it names, with the
    values of the language variables while the function runs (written by
    tools/ragel/table.py).  parse_cpp and the like set the variable, call another parse
    function and restore it; parse_cs_aspx does so around its own machine. *)
From Coq Require Import ZArith String List Bool.
From Verif Require Import Base ParsedModel RagelSyntax RagelBuild RagelRun.''',
'From Verif.Parsers Require ' + ' '.join(sorted(mods)) + '.',
'''Import ListNotations.
Open Scope string_scope.
Open Scope Z_scope.
Open Scope list_scope.

(** An entry of the table: the machines for counting lines and for the entities. *)
Record entry := mkEntry { en_name : string; en_parser : parser; en_entities : parser;
                       en_vars : list (string * string) }.

''']
chunks = [rows[i::4] for i in range(4)]
for i, ch in enumerate(chunks):
    out.append(f'Definition entries{i+1} : list entry := [\n' + ';\n'.join(
        f'  (* parsers.gperf:{ln}, {at} *) mkEntry "{l}" {mo}.the_parser {mo}.the_entities [' + '; '.join(f'("{a}", "{b}")' for a, b in vs) + ']'
        for l, mo, vs, ln, at in ch) + '].\n')
out.append('''Definition entries : list entry := entries1 ++ entries2 ++ entries3 ++ entries4.

(** The value of a language variable. *)
Fixpoint value (vs : list (string * string)) (v : string) : string :=
  match vs with
  | [] => v
  | (w, x) :: r => if String.eqb v w then x else value r v
  end.

Definition rename (vs : list (string * string)) (e : event) : event :=
  mkEvent (value vs (e_lang e)) (e_entity e) (e_start e) (e_end e).

(** parse_xxx(buffer, length, 1, callback, userdata): the callbacks made.  [None]: the
    machine has no meaning (this does not happen). *)
Definition run_entry (en : entry) (text : list Z) (fuel : nat) : option (res (list event)) :=
  match compile (en_parser en) with
  | Some m => Some (es <- parse m text fuel ;; Ok (map (rename (en_vars en)) es))
  | None => None
  end.

(** parse_xxx(buffer, length, 0, callback, userdata). *)
Definition run_entities (en : entry) (text : list Z) (fuel : nat) : option (res (list event)) :=
  match compile (en_entities en) with
  | Some m => Some (es <- parse_entities m text fuel ;; Ok (map (rename (en_vars en)) es))
  | None => None
  end.

(** ohcount_hash_parser_from_language (generated from hash/parsers.gperf): the entry
    with the name. *)
Definition find_entry (name : string) : option entry :=
  find (fun en => String.eqb name (en_name en)) entries.

(** parser.c:12-29 ohcount_parse with count 1: [None] when it returns 0. *)
Definition ohcount_parse (language : option string) (text : list Z) (fuel : nat)
  : option (res (list event)) :=
  match language with
  | Some name => match find_entry name with
                 | Some en => run_entry en text fuel
                 | None => None
                 end
  | None => None
  end.

(** parser.c:12-29 ohcount_parse with count 0 (-re). *)
Definition ohcount_parse_entities (language : option string) (text : list Z) (fuel : nat)
  : option (res (list event)) :=
  match language with
  | Some name => match find_entry name with
                 | Some en => run_entities en text fuel
                 | None => None
                 end
  | None => None
  end.
''')
open(TH + 'ParserTable.v', 'w').write('\n'.join(out))
LEN = {'Html', 'Jsp', 'Phphtml', 'Rhtml', 'CsAspx', 'VbAspx', 'Clearsilverhtml'}
B = lambda b: 'true' if b else 'false'
for i, ch in enumerate(chunks):
    o = [f'''(** Certificates of the scanners (written by tools/ragel/table.py), part {i+1} of 4: the tables
    of abstract states found by the analyses pass the checks. *)
From Coq Require Import ZArith String List Bool.
From Verif Require Import Base ParsedModel RagelSyntax RagelBuild RagelRun ScanCheck ScanCert ParserTable TailCheck Checked.
Import ListNotations.

Definition tables{i+1} : list (table * h_table) := Eval vm_compute in map tables_of entries{i+1}.
Lemma certs{i+1} : all_checked certified_by entries{i+1} tables{i+1} = true.
Proof. vm_cast_no_check (eq_refl true). Qed.
''']
    open(TH + f'ScanCerts{i+1}.v', 'w').write(''.join(o))
print(len(rows), len(mods))
