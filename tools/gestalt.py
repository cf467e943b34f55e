#!/usr/bin/env python3
"""Writes rocq/theories/GestaltTable.v from /repo/ruby/gestalt/*definitions.rb, in the order
in which ruby/gestalt.rb loads them."""
import re, sys
R = '/repo/ruby/gestalt/'
FILES = ['definitions.rb', 'dot_net_definitions.rb', 'java_definitions.rb', 'jasper_definitions.rb']

def coq(s):
    return '"' + s.replace('"', '""') + '"'

def args(text):
    """The arguments of a call: Ruby strings, regular expressions, symbols, min options."""
    out, opts, i = [], {}, 0
    while i < len(text):
        c = text[i]
        if c in ' ,\t()':
            i += 1
        elif c == "'":
            j = i + 1; s = ''
            while text[j] != "'":
                if text[j] == '\\' and text[j+1] in "\\'":
                    s += text[j+1]; j += 2
                else:
                    s += text[j]; j += 1
            out.append(('s', s)); i = j + 1
        elif c == '"':
            j = i + 1; s = ''
            while text[j] != '"':
                if text[j] == '\\':
                    assert text[j+1] in '".', text   # "\." is "." in Ruby
                    s += text[j+1]; j += 2
                else:
                    s += text[j]; j += 1
            out.append(('s', s)); i = j + 1
        elif c == '/':
            j = i + 1; s = ''
            while text[j] != '/':
                if text[j] == '\\':
                    # Ruby reads \/ in a literal as /
                    s += '/' if text[j+1] == '/' else text[j:j+2]; j += 2
                else:
                    s += text[j]; j += 1
            j += 1
            fl = ''
            while j < len(text) and text[j] in 'imx':
                fl += text[j]; j += 1
            out.append(('r', s, fl)); i = j
        elif c == ':':
            m = re.match(r':(\w+)\s*=>\s*(\d+)', text[i:])
            if m:
                opts[m[1]] = int(m[2]); i += m.end()
            else:
                m = re.match(r':(\w+)', text[i:]); out.append(('s', m[1])); i += m.end()
        else:
            raise Exception(text[i:])
    return out, opts

def pat(a):
    """A regular expression in its argument position."""
    if a[0] == 'r':
        return '(mkRe %s %s)' % (coq(a[1]), 'true' if 'i' in a[2] else 'false')
    return '(mkRe %s false)' % coq('^' + re.sub(r'([.\-*?+{}()\[\]|^$\\ #])', r'\\\1', a[1]) + '$')

def word(a):
    """An element of an array that is joined: a regular expression is written by to_s."""
    if a[0] == 's':
        return coq(a[1])
    return coq('(?%s-mx:%s)' % ('i', a[1]) if 'i' in a[2] else '(?-mix:%s)' % a[1])

def strs(l):
    return '[' + '; '.join(word(a) for a in l) + ']'

def call(name, text):
    a, o = args(text)
    mn = o.get('min', 1)
    assert set(o) <= {'min', 'min_percent'}
    if name == 'language':
        return 'Lang %s %d' % (coq(a[0][1]), o.get('min_percent', 0))
    if name == 'gestalt':
        return 'Gest %s %s' % (coq(a[0][1]), coq(a[1][1]))
    assert 'min_percent' not in o
    leaf = lambda k: 'Leaf (mkFileRule (%s) %d)' % (k, mn)
    if name == 'c_headers':
        return leaf('CHeaders ' + strs(a))
    if name == 'filenames':
        return leaf('Filenames ' + strs(a))
    if name == 'c_keywords':
        return leaf('CKeywords ' + strs(a))
    if name == 'keywords':
        return leaf('Keywords None ' + strs(a))
    if name == 'java_import':
        assert len(a) == 1; return leaf('JavaImport ' + pat(a[0]))
    if name == 'csharp_using':
        assert len(a) == 1; return leaf('CSharpUsing ' + pat(a[0]))
    if name == 'csproj_import':
        assert len(a) == 1; return leaf('CsprojImport ' + pat(a[0]))
    if name in ('maven_dependency', 'maven_plugin'):
        art = pat(a[1]) if len(a) > 1 else '(mkRe ".*" false)'
        return leaf('Maven %s %s %s' % (coq(name[6:]), pat(a[0]), art))
    if name == 'find_filenames':
        assert len(a) == 1; return leaf('FindFilenames %s 0' % pat(a[0]))
    m = re.match(r'(.*)_keywords$', name)
    assert m, name
    return leaf('Keywords (Some %s) %s' % (coq(m[1]), strs(a)))

out = []
for f in FILES:
    stack = []
    out.append('  (* %s *)' % f)
    for n, line in enumerate(open(R + f), 1):
        line = re.sub(r'^\s*#.*', '', line).strip()
        if not line or line.startswith('module') : continue
        m = re.match(r"define_(\w+) '([^']*)' do$", line)
        if m:
            stack = [('def', m[1], m[2], n, [])]; continue
        if line == 'end':
            if not stack: continue
            top = stack.pop()
            if top[0] == 'def':
                out.append('  (* %d *) mkDef %s %s (Or [%s]);' % (top[3], coq(top[1]), coq(top[2]), '; '.join(top[4])))
            else:
                stack[-1][-1].append('%s [%s]' % (top[0], '; '.join(top[1])))
            continue
        m = re.match(r'_(and|or) do$', line)
        if m:
            stack.append(({'and': 'And', 'or': 'Or'}[m[1]], [])); continue
        m = re.match(r'_not \{ (\w+)(.*) \}$', line)
        if m:
            stack[-1][-1].append('Not [%s]' % call(m[1], m[2])); continue
        m = re.match(r'(\w+)(.*)$', line)
        stack[-1][-1].append(call(m[1], m[2]))
body = '\n'.join(out)
body = body[:body.rindex(';')]
sys.stdout.write('''(** The definitions of platforms and tools: ruby/gestalt/definitions.rb,
    dot_net_definitions.rb, java_definitions.rb, jasper_definitions.rb, in the order in which
    ruby/gestalt.rb:12-15 loads them (written by tools/gestalt.py; the numbers are lines). *)
From Coq Require Import String List ZArith.
From Verif Require Import GestaltRules.
Import ListNotations.
Open Scope string_scope.
Open Scope Z_scope.
Open Scope list_scope.

Definition all_definitions : list (definition file_rule) := [
%s].
''' % body)
