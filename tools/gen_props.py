#!/usr/bin/env python3
"""Generate rocq/theories/Properties_<Group>.v from the lemmas named C.._pf in the given files:
the statement is copied, the proof is `exact lemma`, followed by Print Assumptions."""
import re, sys, os
T = os.path.join(os.path.dirname(__file__), '..', 'rocq', 'theories')
GROUPS = eval(open(os.path.join(os.path.dirname(__file__), 'groups.py')).read())
names = {}
for group, (imports, srcs) in GROUPS.items():
    out = []
    hdr = None
    for src in srcs:
        s = open(os.path.join(T, src + '.v')).read()
        for m in re.finditer(r'((?:\(\*\*(?:[^*]|\*(?!\)))*\*\)\s*)?)Lemma (C\d\d_\w+?)_pf\s*:\s*(.*?)\.\s*\nProof\.', s, re.S):
            com, name, stmt = m.group(1), m.group(2), m.group(3)
            out.append(f'{com.rstrip()}\nTheorem {name} : {stmt}.\nProof. exact {name}_pf. Qed.\nPrint Assumptions {name}.\n'.lstrip('\n'))
            names[name] = group
    with open(os.path.join(T, f'Properties_{group}.v'), 'w') as f:
        f.write('(** Property theorems (generated by tools/gen_props.py from the proved lemmas; statements only). *)\n')
        f.write(imports.strip() + '\n\n' + '\n'.join(out))
# _CoqProject: keep flags, list files in dependency order as given in tools/order.txt
flags = [l for l in open(os.path.join(T, '..', '_CoqProject')).read().splitlines() if l and not l.startswith('theories/')]
files = sorted(f for f in os.listdir(T) if f.endswith('.v'))
open(os.path.join(T, '..', '_CoqProject'), 'w').write('\n'.join(flags + ['theories/' + f for f in files]) + '\n')
# manifest
import json
V = os.path.join(os.path.dirname(__file__), '..')
props = [json.loads(l) for l in open(os.path.join(V, 'properties.jsonl'))]
try: notes = eval(open(os.path.join(V, 'tools', 'notes.py')).read())
except FileNotFoundError: notes = {}
claims = []
for p in props:
    ths = sorted(n for n in names if n.startswith(p['id'] + '_'))
    st, note = notes.get(p['id'], ('proved' if ths else 'partial', ''))
    if not ths and p['id'] not in notes: note = 'not proved yet'
    claims.append({'property': p['id'], 'status': st, 'theorems': ths, 'note': note})
json.dump({'claims': claims}, open(os.path.join(V, 'MANIFEST.json'), 'w'), indent=1)
print(len(names), 'theorems;', sum(1 for c in claims if c['theorems']), 'of', len(props), 'properties')
