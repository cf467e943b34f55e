#!/usr/bin/env python3
"""Write LicenseTable.v: license_map of /repo/src/licenses.c, in full."""
import re, os
ROOT = os.path.dirname(os.path.dirname(os.path.abspath(__file__)))
h = open('/repo/src/licenses.h').read().replace('\\\n', '')
names = dict(re.findall(r'#define (LIC_\w+)\s+"([^"]*)"', h))
src = open('/repo/src/licenses.c').read()
start = src.index('License license_map[] = {')
end = src.index('{ NULL, NULL, NULL, NULL, 0')
body = src[start:end]
S = r'"((?:[^"\\]|\\.)*)"'
ent = re.compile(r'\{\s*(LIC_\w+),\s*' + S + r',\s*' + S + r',\s*' + S + r',\s*([A-Z_| 0-9]+?),\s*(NULL|' + S + r'),\s*([A-Z_| 0-9]+?),\s*NULL, NULL\s*\}', re.S)
def unc(s):
    out = ''; i = 0
    while i < len(s):
        if s[i] == '\\':
            i += 1
            assert s[i] in '\\"', s
        out += s[i]; i += 1
    return out
def q(s): return '"' + unc(s).replace('"', '""') + '"'
def fl(f):
    p = [x.strip() for x in f.split('|')]
    assert set(p) <= {'0', 'PCRE_CASELESS', 'PCRE_MULTILINE'}, p
    return 'mkOpts %s %s' % (str('PCRE_CASELESS' in p).lower(), str('PCRE_MULTILINE' in p).lower())
out = [r'''(** licenses.c:12-734 [license_map], in full and in order (written by tools/licenses.py). *)
From Coq Require Import String List Bool.
Import ListNotations.
Open Scope string_scope.

(** The flags of an entry: PCRE_CASELESS, PCRE_MULTILINE. *)
Record opts := mkOpts { o_caseless : bool; o_multiline : bool }.

(** structs.h [License], without the compiled expressions. *)
Record license := mkLicense {
  l_name : string; l_url : string; l_nice_name : string;
  l_re : string; l_re_flags : opts;
  l_exclude_re : option string; l_exclude_re_flags : opts }.
''']
n = 0; items = []
for m in ent.finditer(body):
    name, url, nice, rex, f, ex, exs, ef = m.groups()
    line = src[:start + m.start()].count('\n') + 1
    e = 'None' if ex == 'NULL' else '(Some %s)' % q(exs)
    items.append(f'  (* {line} *) mkLicense {q(names[name])} {q(url)}\n    {q(nice)}\n    {q(rex)} ({fl(f)})\n    {e} ({fl(ef)})')
assert len(items) == len(re.findall(r'\bLIC_', body)) == len(names), (len(items), len(re.findall(r'\bLIC_', body)), len(names))
out.append('Definition license_map : list license := [\n' + ';\n'.join(items) + '].\n')
open(os.path.join(ROOT, 'rocq/theories/LicenseTable.v'), 'w').write('\n'.join(out))
print(len(items))
