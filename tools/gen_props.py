#!/usr/bin/env python3
"""Generate rocq/theories/Props<X>.v from rocq/theories/<X>Proofs.v.

Every `Lemma p_<name> : <statement>.` becomes
`Theorem <name> : <statement>. Proof. exact p_<name>. Qed. Print Assumptions <name>.`
and every `Example ex_<name> : <statement>.` is restated and closed by `exact`.
The comment directly before the item is copied.  Run by hand after editing a
proof file; the generated files are committed.
"""
import re, sys, os
T = os.path.join(os.path.dirname(__file__), '..', 'rocq', 'theories')

def items(src):
    pat = re.compile(r'(?P<doc>\(\*\*(?:(?!\*\)).)*\*\)\n)?(?P<kind>Lemma p_|Example ex_)(?P<name>\w+)\s*:(?P<stmt>.*?)\.\nProof', re.S)
    for m in pat.finditer(src):
        yield m

def gen(x):
    src = open(os.path.join(T, x + 'Proofs.v')).read()
    imports = re.search(r'From Verif Require Import ([^.]*)\.', src).group(1)
    out = ['(** * Props%s: property theorems (generated from %sProofs.v by tools/gen_props.py).\n\n'
           '    Only statements; each is closed by the lemma of the same name. *)\n' % (x, x),
           'From Verif Require Import %s %sProofs.\n' % (imports, x)]
    extra = re.search(r'\(\* props-preamble\n(.*?)\*\)', src, re.S)
    if extra: out.append(extra.group(1))
    names = []
    for m in items(src):
        doc = m.group('doc') or ''
        if m.group('kind').startswith('Lemma'):
            n = m.group('name')
            names.append(n)
            out.append('%sTheorem %s :%s.\nProof. exact p_%s. Qed.\nPrint Assumptions %s.\n' % (doc, n, m.group('stmt'), n, n))
        else:
            n = m.group('name')
            out.append('%sExample example_%s :%s.\nProof. exact ex_%s. Qed.\n' % (doc, n, m.group('stmt'), n))
    open(os.path.join(T, 'Props%s.v' % x), 'w').write('\n'.join(out))
    print(x, len(names), ' '.join(names))

for x in sys.argv[1:]:
    gen(x)
