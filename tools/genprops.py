#!/usr/bin/env python3
"""Write rocq/theories/Props*.v from rocq/theories/*Claims.v.

Every `Lemma claim_NAME : stmt.` becomes `Theorem NAME : stmt.` closed by
`exact claim_NAME`, followed by Print Assumptions; every `Lemma case_NAME`
becomes `Example NAME_case`. Inside `Section PrimeClaims` the section's
`p` and `Hp` are put in front of the statement."""
import re, glob, os, json
D = os.path.join(os.path.dirname(os.path.abspath(__file__)), '../rocq/theories')
allthms = []
for f in sorted(glob.glob(D + '/*Claims.v')):
    base = os.path.basename(f)[:-2]
    if base == 'Claims':
        continue
    s = open(f).read()
    out = ['(** Generated from %s.v by tools/genprops.py. *)\n' % base,
           'From Verif Require Import %s.\n' % base]
    for m in re.finditer(r'^(Open Scope \w+\.)$', s, re.M):
        out.append(m.group(1) + '\n')
        break
    inprime = False
    for m in re.finditer(r'^Section PrimeClaims\.|^End PrimeClaims\.|((?:^\(\*\*(?:[^*]|\*(?!\)))*\*\)\n)?)^Lemma (claim|case)_(\w+) :(.*?)\.\nProof', s, re.M | re.S):
        if m.group(0).startswith('Section'):
            inprime = True; continue
        if m.group(0).startswith('End'):
            inprime = False; continue
        doc, kind, name, st = m.group(1), m.group(2), m.group(3), m.group(4)
        st = st.strip('\n').rstrip()
        pre = ' forall (p : positive), Prime p ->\n' if inprime else ''
        if kind == 'claim':
            out.append('\n%sTheorem %s :%s%s.\nProof. exact claim_%s. Qed.\nPrint Assumptions %s.\n' % (doc or '', name, pre, st, name, name))
            allthms.append(name)
        else:
            out.append('\n%sExample %s_case :%s%s.\nProof. exact case_%s. Qed.\n' % (doc or '', name, pre, st, name))
    t = ''.join(out)
    g = os.path.join(D, 'Props' + base[:-6] + '.v')
    if not os.path.exists(g) or open(g).read() != t:
        open(g, 'w').write(t)
print(len(allthms), 'theorems')
json.dump(allthms, open('/tmp/w/allthms.json', 'w'))
