#!/usr/bin/env python3
"""Write ProofPortPlain.v: every translated function that neither adds on `usize` nor calls one that does
behaves on every target (Port*.v) as on a 64-bit one with overflow checks (Src*.v), unless the latter panics."""
import os, re
T = os.path.join(os.path.dirname(os.path.abspath(__file__)), '../rocq/theories/')
proj = open(T + '../_CoqProject').read().split()
mods = [os.path.basename(x)[:-2] for x in proj if re.search(r'/Src(Lib|Topic|V[45]\w+)\.v$', x)]
deps = {m: set(re.findall(r'\b(Src(?:Lib|V[45]\w+|Topic))\.', open(T + m + '.v').read())) - {m} for m in mods}
order = []
while len(order) < len(mods):
    for m in mods:
        if m not in order and deps[m] <= set(order): order.append(m)
cond = {('SrcLib', 'FixedHeader_new'), ('SrcLib', 'FixedHeader_frame_length')}
out, names, skipped = [], [], []
for m in order:
    w = m.replace('Src', 'Port')
    txt = re.sub(r'\(\*\*.*?\*\)', '', open(T + m + '.v').read(), flags=re.S)
    ds = list(re.finditer(r'^Definition (\w+)((?: \([^()]*(?:\([^()]*\)[^()]*)*\))*) : (.*?) :=\n', txt, re.M))
    for i, d in enumerate(ds):
        name, params, ty = d.groups()
        args = ' '.join(re.findall(r'\((\w+) :', params))
        body = txt[d.end():ds[i + 1].start() if i + 1 < len(ds) else len(txt)]
        calls = {(m, x) for x in re.findall(r"(?<![\w.'])(\w+)", body)} | set(re.findall(r'\b(Src\w+)\.(\w+)', body))
        if not (ty.startswith('writer') or ty.startswith('outcome')):
            names.append(f'change (@{w}.{name}) with (@{m}.{name})'); continue
        if m in ('SrcLib', 'SrcV5Property'): continue
        if 'usize_add' in body or calls & cond:
            cond.add((m, name)); skipped.append(f'{m}.{name}'); continue
        rel = 'wsim' if ty.startswith('writer') else 'osim'
        lem = f'p{m[3:]}_{name}'
        out.append(f'Lemma {lem} {{T : Target}}{params} : {rel} ({m}.{name} {args}) ({w}.{name} {args}).\n'
                   f'Proof. unfold {m}.{name}, {w}.{name}. names. plain. Qed.\nGlobal Hint Resolve {lem} : port.\n')
models = sorted(set(re.findall(r'\b(V[45][A-Z]\w+)\.', ''.join(out))))
hdr = ('(** ProofPortPlain.v -- GENERATED by tools/gen_port_proofs.py: the functions that neither add on `usize`\n'
       '    nor call one that does, on an arbitrary target. *)\n'
       'From Verif Require Import Base Lib SrcBase ProofWrapBase ProofPortBase ProofPortLib.\n'
       f'From Verif Require {" ".join(models)}.\n'
       f'From Verif Require {" ".join(order)}.\n'
       f'From Verif Require {" ".join(m.replace("Src", "Port") for m in order)}.\n\n'
       + 'Ltac names :=\n  ' + ';\n  '.join(names) + '.\n\n')
open(T + 'ProofPortPlain.v', 'w').write(hdr + '\n'.join(out))
print(len(out)); print(' '.join(skipped))
