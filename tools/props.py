#!/usr/bin/env python3
"""Write rocq/theories/Properties/Cxx.v from the lemmas of rocq/theories/Proofs/*.v.

A lemma named Cxx_name_ok becomes Theorem Cxx_name, closed by `exact`, with Print
Assumptions beneath; Cxx_name_ex becomes an Example.  The statement and the comment
before it are copied verbatim."""
import re, glob, os, collections
root = os.path.dirname(os.path.dirname(os.path.abspath(__file__)))
P = os.path.join(root, 'rocq/theories/')
titles = {}
import json
for line in open(os.path.join(root, 'properties.jsonl')):
    d = json.loads(line); titles[d['id']] = (d['title'], d['statement'])
out = collections.OrderedDict()
for f in sorted(glob.glob(P + 'Proofs/*.v')):
    s = open(f).read()
    mod = os.path.basename(f)[:-2]
    specs = re.findall(r'From Verif\.Spec Require Import ([\w ]+)\.', s)
    extra = re.findall(r'^\(\* props: (.*) \*\)$', s, re.M)
    scopes = re.findall(r'^(?:Local )?Open Scope \w+\.$', s, re.M)
    for m in re.finditer(r'((?:^\(\*\*(?:(?!\*\)).)*\*\)\n)?)^(?:Lemma|Theorem) (C\d\d)_(\w+)_(ok|ex)\b(.*?)\nProof', s, re.M | re.S):
        doc, pid, name, kind, stmt = m.groups()
        out.setdefault((pid, mod), [specs, extra, scopes, []])[3].append((doc, name, kind, stmt))
def wrap(t):
    import textwrap
    return textwrap.fill(t, 95, subsequent_indent='    ')
count = collections.Counter(p for p, _ in out)
written = set()
for (pid, mod), (specs, extra, scopes, items) in out.items():
    fn = pid if count[pid] == 1 else pid + '_' + mod
    r = '(** %s: %s.\n\n%s *)\n\n' % (pid, titles[pid][0], wrap('    ' + titles[pid][1]))
    r += 'From Coq Require Import String List ZArith Bool Reals.\nFrom Verif Require Import MiniC Contract RScalar Cglm.\n'
    for x in extra: r += x + '\n'
    for x in specs: r += 'From Verif.Spec Require Import %s.\n' % x
    r += 'From Verif.Proofs Require %s.\nImport ListNotations.\nLocal Open Scope list_scope.\n' % mod
    for x in scopes: r += x + '\n'
    for doc, name, kind, stmt in items:
        r += '\n' + doc
        if kind == 'ok':
            r += 'Theorem %s_%s%s\nProof. exact %s.%s_%s_ok. Qed.\nPrint Assumptions %s_%s.\n' % (pid, name, stmt, mod, pid, name, pid, name)
        else:
            r += 'Example %s_%s_example%s\nProof. exact %s.%s_%s_ex. Qed.\n' % (pid, name, stmt, mod, pid, name)
    path = P + 'Properties/%s.v' % fn
    written.add(path)
    if not os.path.exists(path) or open(path).read() != r:
        open(path, 'w').write(r); print('wrote', fn, len(items))
for f in glob.glob(P + 'Properties/C[0-9][0-9]*.v'):
    if f not in written and not f.endswith('C01.v'): print('stale', f)
