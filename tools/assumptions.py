#!/usr/bin/env python3
"""Print, as Markdown, what Print Assumptions lists under each theorem of rocq/theories/P_*.v (needs a build)."""
import glob, os, re, subprocess, collections
root = os.path.join(os.path.dirname(os.path.abspath(__file__)), '../rocq')
groups = collections.defaultdict(list)
for f in sorted(glob.glob(root + '/theories/P_*.v')):
    names = re.findall(r'^Print Assumptions (\w+)\.', open(f).read(), re.M)
    out = subprocess.run(['coqc', '-Q', 'theories', 'Verif', 'theories/' + os.path.basename(f), '-o', '/tmp/' + os.path.basename(f) + 'o'],
                         cwd=root, stdout=subprocess.PIPE, text=True).stdout
    blocks = re.split(r'^(?=Closed under|Axioms:)', out, flags=re.M)[1:]
    assert len(blocks) == len(names), f
    for n, b in zip(names, blocks):
        ax = tuple(sorted(re.findall(r'^([\w.]+)', b, re.M))) if b.startswith('Axioms') else ()
        ax = tuple(a for a in ax if a != 'Axioms')
        groups[ax].append(n)
for ax, ns in sorted(groups.items()):
    print('* ' + (', '.join('`%s`' % a for a in ax) if ax else 'no axiom ("Closed under the global context")') + ':')
    print('  ' + ', '.join(ns) + '.')
