#!/usr/bin/env python3
"""Write the property file P_X.v from the lemma file L_PX.v.

Every lemma or example of L_PX.v whose name ends in _pf becomes, without the
suffix, a theorem of P_X.v proved by `exact`.  The comment just before it is
copied.  The header of L_PX.v (up to the first blank line after the imports)
is copied as well.

usage: gen_props.py THEORIES X...
"""
import re, sys, os
th = sys.argv[1]
for x in sys.argv[2:]:
    src = open(os.path.join(th, 'L_P%s.v' % x)).read()
    head = []
    for line in src.split('\n'):
        if re.match(r'(Lemma|Definition|Example|Ltac|Section|Fixpoint)\b', line):
            break
        if re.match(r'(From|Require|Import|Open|Local Open|Local Notation|Notation|  )', line):
            if line.startswith('  ') and not (head and not head[-1].rstrip().endswith('.')):
                continue
            head.append(line)
    # lemma files are not needed to read the statements
    head = [re.sub(r' L_\w+', '', h) for h in head]
    head = [h for h in head if not re.match(r'From Verif Require( Import)?\s*\.$', h)]
    out = ['(** * Properties: %s\n\n    Statements only; proofs are in L_P%s.v. *)\n' % (x, x)]
    out += head
    out.append('From Verif Require L_P%s.\n' % x)
    pat = re.compile(r'((?:\(\*\*(?:(?!\*\)).)*\*\)\n)?)(Lemma|Example) (C\d\d+_\w+)_pf\b(.*?)\nProof\.', re.S)
    n = 0
    for m in pat.finditer(src):
        com, kind, name, st = m.groups()
        kw = 'Theorem' if kind == 'Lemma' else 'Example'
        out.append('%s%s %s%s\nProof. exact L_P%s.%s_pf. Qed.' % (com, kw, name, st, x, name))
        if kw == 'Theorem':
            out.append('Print Assumptions %s.' % name)
        out.append('')
        n += 1
    open(os.path.join(th, 'P_%s.v' % x), 'w').write('\n'.join(out))
    print('P_%s.v: %d' % (x, n))
