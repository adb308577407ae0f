#!/usr/bin/env python3
"""Collect the property lemmas cNN_* (and Examples cNN_*) of theories/*Proofs.v into
theories/Props.v, which contains nothing but the theorems, each closed by
`exact`, with Print Assumptions beneath it.  Run from /verif after editing."""
import re, glob, os
os.chdir(os.path.join(os.path.dirname(__file__), '..', 'rocq', 'theories'))
proj = open('../_CoqProject').read()
files = [f for f in re.findall(r'theories/(\S+Proofs\.v)', proj)]
items = []
for f in files:
    s = open(f).read()
    for m in re.finditer(r'((?:\(\*\*(?:(?!\*\)).)*\*\)\n)?)(Lemma|Example) (c(\d\d)_\w+)((?:.|\n)*?\.)\s*\nProof\b', s):
        com, kind, name, num, stmt = m.groups()
        com = com if re.match(r'\(\*\* C\d\d', com) else ''
        items.append((int(num), len(items), com, kind, name, stmt))
pos = {i[4]: i[1] for i in items}
# the witness of a theorem (cNN_x_meets) goes directly beneath it
items = [(n, (pos.get(nm[:-6], k), 1) if nm.endswith('_meets') else (k, 0), c, kd, nm, st) for n, k, c, kd, nm, st in items]
items.sort()
mods = ' '.join(f[:-2] for f in files)
out = ['(** * Props: the property theorems, generated by tools/gen_props.py.\n'
       '    Each is closed by the lemma of the same name in the *Proofs files. *)',
       'From Coq Require Import String.',
       'From Verif Require Import Base Enums Buffer Ether Ipv4 Ip Udp Tcp Icmp Builders Generic Debug Mutable Sizes Spec SpecCalls SpecNumbers SpecBuild SpecUser SpecMut SpecEdit SpecUnchecked SpecCopy SpecFrame SpecOrder SpecSize SpecOptions SpecVia SpecProfile SpecShift SpecOwnIp SpecGeneric SpecHooks SpecReference SpecSucceed SpecCorrupt SpecForward SpecIncremental SpecMachine SpecMachineIcmp SpecReceiver SpecRoute SpecNat SpecHost SpecDump SpecFind SpecBlame SpecTrace SpecShake SpecStream SpecBlock SpecMemory SpecStore Memory.',
       'From Verif Require %s.' % mods, '']
imp = {}
for f in files:
    for m in re.finditer(r'^(?:Lemma|Example) (c\d\d_\w+)', open(f).read(), re.M):
        imp[m.group(1)] = f[:-2]
last = None
for num, _, com, kind, name, stmt in items:
    if num != last:
        out.append('\n(** ** C%02d *)' % num); last = num
    out.append('%s%s C%s%s\nProof. exact %s.%s. Qed.' % (com, 'Theorem' if kind == 'Lemma' else 'Example', name[1:], stmt, imp[name], name))
    if kind == 'Lemma':
        out.append('Print Assumptions C%s.' % name[1:])
open('Props.v', 'w').write('\n'.join(out) + '\n')
print(len(items), 'items;', ' '.join(sorted({'C%02d' % i[0] for i in items})))
