#!/usr/bin/env python3
"""Write ProofWrap.v: every translated function without overflow checks (Wrap*.v) returns
what the one with overflow checks (Src*.v) returns, unless the latter panics."""
import os, re
T = os.path.join(os.path.dirname(os.path.abspath(__file__)), '../rocq/theories/')
proj = open(T + '../_CoqProject').read().split()
mods = [os.path.basename(x)[:-2] for x in proj if re.search(r'/Src(Lib|Topic|V[45]\w+)\.v$', x)]
# dependency order
deps = {m: set(re.findall(r'\b(Src(?:Lib|V[45]\w+|Topic))\.', open(T + m + '.v').read())) - {m} for m in mods}
order = []
while len(order) < len(mods):
    for m in mods:
        if m not in order and deps[m] <= set(order): order.append(m)
out, names = [], []
for m in order:
    w = m.replace('Src', 'Wrap')
    txt = open(T + m + '.v').read()
    for d in re.finditer(r'^Definition (\w+)((?: \([^()]*(?:\([^()]*\)[^()]*)*\))*) : (.*?) :=\n', txt, re.M):
        name, params, ty = d.groups()
        args = ' '.join(re.findall(r'\((\w+) :', params))
        lem = f'w{m[3:]}_{name}'
        if ty.startswith('writer') or ty.startswith('outcome'):
            rel = 'wsim' if ty.startswith('writer') else 'osim'
            out.append(f'Lemma {lem}{params} : {rel} ({m}.{name} {args}) ({w}.{name} {args}).\n'
                       f'Proof. unfold {m}.{name}, {w}.{name}. names. sim. Qed.\nGlobal Hint Resolve {lem} : sim.\n')
        else:
            out.append(f'Lemma {lem}{params} : {w}.{name} {args} = {m}.{name} {args}.\nProof. reflexivity. Qed.\n')
            names.append(f'change {w}.{name} with {m}.{name}')
    n = len(re.findall(r'^Definition ', txt, re.M)); k = sum(1 for x in out if x.startswith(f'Lemma w{m[3:]}_'))
    assert n == k, (m, n, k)
models = sorted(set(re.findall(r'\b(V[45][A-Z]\w+)\.', ''.join(out))))
hdr = ('(** ProofWrap.v -- GENERATED by tools/gen_wrap_proofs.py: function by function, a build without\n'
       '    overflow checks returns what a build with them returns, unless the latter panics. *)\n'
       'From Verif Require Import Base Lib SrcBase ProofWrapBase.\n'
       f'From Verif Require {" ".join(models)}.\n'
       f'From Verif Require {" ".join(order)}.\n'
       f'From Verif Require {" ".join(m.replace("Src", "Wrap") for m in order)}.\n\n'
       + 'Ltac names :=\n  ' + ';\n  '.join(names) + '.\n\n')
open(T + 'ProofWrap.v', 'w').write(hdr + '\n'.join(out))
print(len(out))
