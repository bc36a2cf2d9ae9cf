#!/usr/bin/env python3
"""Write ProofTrace.v and PropTraceAll.v: every translated function, except v5 `Unsubscribe::read` and v5 `read`, does in Trace*.v what
it does in Src*.v, and prints nothing."""
import os, re, sys
T = os.path.join(os.path.dirname(os.path.abspath(__file__)), '../rocq/theories/')
if not os.path.isdir(T): T = '/verif/rocq/theories/'
OUT = sys.argv[1] if len(sys.argv) > 1 else T
proj = open(T + '../_CoqProject').read().split()
mods = [os.path.basename(x)[:-2] for x in proj if re.search(r'/Src(Lib|Topic|V[45]\w+)\.v$', x)]
deps = {m: set(re.findall(r'\b(Src(?:Lib|V[45]\w+|Topic))\.', open(T + m + '.v').read())) - {m} for m in mods}
order = []
while len(order) < len(mods):
    for m in mods:
        if m not in order and deps[m] <= set(order): order.append(m)
loud = set()
out, names, skipped, every = [], [], [], {}
for m in order:
    w = m.replace('Src', 'Trace')
    txt = re.sub(r'\(\*\*.*?\*\)', '', open(T + m + '.v').read(), flags=re.S)
    ds = list(re.finditer(r'^Definition (\w+)((?: \([^()]*(?:\([^()]*\)[^()]*)*\))*) : (.*?) :=\n', txt, re.M))
    assert len(ds) == len(re.findall(r'^(?:Definition|Fixpoint)', txt, re.M)), m
    for i, d in enumerate(ds):
        name, params, ty = d.groups()
        args = ' '.join(re.findall(r'\((\w+) :', params))
        body = txt[d.end():ds[i + 1].start() if i + 1 < len(ds) else len(txt)]
        calls = {(m, x) for x in re.findall(r"(?<![\w.'])(\w+)", body)} | set(re.findall(r'\b(Src\w+)\.(\w+)', body))
        if not (ty.startswith('writer') or ty.startswith('outcome')):
            names.append(f'change (@{w}.{name}) with (@{m}.{name})'); continue
        if re.search(r'\bdbg\b', body) or calls & loud:
            loud.add((m, name)); skipped.append(f'{m}.{name}'); continue
        rel = 'wq' if ty.startswith('writer') else 'oq'
        lem = f'q{m[3:]}_{name}'
        every.setdefault(m, []).append((name, params, args, rel, lem))
        out.append(f'Lemma {lem}{params} : {rel} ({m}.{name} {args}) ({w}.{name} {args}).\n'
                   f'Proof. unfold {m}.{name}, {w}.{name}. names. quiet. Qed.\nGlobal Hint Resolve {lem} : quiet.\n')
models = sorted(set(re.findall(r'\b(V[45][A-Z]\w+)\.', ''.join(out))))
models = sorted(set(models) | {'V4Mod'})
hdr = ('(** ProofTrace.v -- GENERATED by tools/gen_trace_proofs.py: every function except v5 `Unsubscribe::read` and the v5\n'
       '    `read` prints nothing. *)\n'
       'From Verif Require Import Base Lib SrcBase ProofTraceBase.\n'
       f'From Verif Require {" ".join(models)}.\n'
       f'From Verif Require {" ".join(order)}.\n'
       f'From Verif Require {" ".join(m.replace("Src", "Trace") for m in order)}.\n\n'
       + 'Ltac names :=\n  ' + ';\n  '.join(names) + '.\n\n')
open(os.path.join(OUT, 'ProofTrace.v'), 'w').write(hdr + '\n'.join(out))

# PropTraceAll.v: the same, file by file, as theorems
key = lambda m: re.match(r'\(\*\* \w+\.v -- GENERATED by tools/rust2coq.py from src/(\S+)\.rs', open(T + m + '.v').read()).group(1)
th = []
for m in order:
    if m not in every: continue
    w, name = m.replace('Src', 'Trace'), 'C76_' + re.sub(r'\W', '_', key(m)) + '_silent'
    cj = ' /\\\n  '.join(
        f'(forall{p}, ' .replace('forall, ', '') + f'{"runs_silently" if r == "wq" else "returns_silently"} '
        f'({m}.{n} {a}) ({w}.{n} {a}))' for n, p, a, r, _ in every[m]).replace('(forall,', '(')
    ls = '\n  '.join((f'split; [intros; apply {"run_q" if r == "wq" else "return_q"}, {l}|].' if i + 1 < len(every[m])
                      else f'intros; apply {"run_q" if r == "wq" else "return_q"}, {l}.') for i, (_, _, _, r, l) in enumerate(every[m]))
    th.append((name, f'(** src/{key(m)}.rs *)\nTheorem {name} :\n  {cj}.\nProof.\n  {ls}\nQed.\n'))
h2 = ('(** PropTraceAll.v -- GENERATED by tools/gen_trace_proofs.py.  C76: every function of the crate except v5 `Unsubscribe::read`\n'
      '    and the v5 `read` (PropTrace.v) does what it does without printing anything, on all arguments. *)\n'
      'From Verif Require Import Base Lib SrcBase SpecTrace ProofTraceBase ProofTrace.\n'
      f'From Verif Require TraceBase {" ".join(models)}.\n'
      f'From Verif Require {" ".join(order)}.\n'
      f'From Verif Require {" ".join(m.replace("Src", "Trace") for m in order)}.\n\n'
      'Lemma run_q {A} (m : writer A) m\' : wq m m\' -> runs_silently m m\'.\n'
      'Proof. intros H b. unfold result, left_over, printed. rewrite (H b). auto. Qed.\n'
      'Lemma return_q {A} (o : outcome A) o\' : oq o o\' -> returns_silently o o\'.\n'
      'Proof. intros ->. split; reflexivity. Qed.\n\n')
CASE = '''
Example C76_silent_case : TraceLib.write_mqtt_string [97; 47] [9] = ((Ok tt, []), [9; 0; 2; 97; 47]) /\\
  TraceV4Mod.read 20 100 [162; 5; 1; 2; 0; 1; 97; 192; 0] =
    ((Ok (V4Mod.Unsubscribe (V4Unsubscribe.mkUnsubscribe 258 [[97]])), []), [192; 0]) /\\
  TraceTopic.matches [97; 47; 98] [97; 47; 35] = (Ok true, []).
Proof. split; [|split]; vm_compute; reflexivity. Qed.

'''
open(os.path.join(OUT, 'PropTraceAll.v'), 'w').write(h2 + '\n'.join(t for _, t in th) + CASE + ''.join(f'Print Assumptions {n}.\n' for n, _ in th))
print(len(out)); print(' '.join(skipped))
