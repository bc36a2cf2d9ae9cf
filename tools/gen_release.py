#!/usr/bin/env python3
"""Generate rocq/theories/Rel*.v: the model for a build without overflow checks.

Every definition of the model whose text adds or subtracts machine integers (`+`, `usize_add`,
`usize_sub`), or calls such a definition, is copied VERBATIM; Release.v gives `+`, `usize_add` and
`usize_sub` the meaning they have without overflow checks.  Types and all other definitions are those of the model."""
import re, os
T = os.path.join(os.path.dirname(__file__), '..', 'rocq', 'theories')
KINDS = ['Connect', 'ConnAck', 'Publish', 'PubAck', 'PubRec', 'PubRel', 'PubComp', 'Subscribe',
         'SubAck', 'Unsubscribe', 'UnsubAck', 'Ping', 'Disconnect']
order = ['Lib', 'V5Property']
order += ['V4' + k for k in KINDS if os.path.exists(f'{T}/V4{k}.v')] + ['V4Mod']
order += ['V5' + k for k in KINDS] + ['V5Mod']
kept = {}          # module -> list of names
visible_always = ['Lib', 'V5Property']

def blocks(text):
    """(comment, sentence) pairs of the file: a comment block followed by one definition."""
    body = text
    out = []
    pos = 0
    pat = re.compile(r'^(Definition|Fixpoint|Record|Inductive)\s+(\w+)', re.M)
    for m in pat.finditer(body):
        # end of the sentence: first '.' followed by newline/space/comment at depth 0
        i = m.start()
        depth = 0
        while True:
            if body.startswith('(*', i): depth += 1; i += 2; continue
            if body.startswith('*)', i): depth -= 1; i += 2; continue
            if depth == 0 and body[i] == '.' and (i + 1 == len(body) or body[i+1] in ' \n'):
                break
            i += 1
        end = i + 1
        # trailing comment on the same or next lines, kept with the definition
        mm = re.match(r'\n\s{2,}\(\* [^*]*(?:\*(?!\))[^*]*)*\*\)', body[end:])
        # preceding comment
        pre = body[:m.start()].rstrip()
        c = ''
        if pre.endswith('*)'):
            j = pre.rfind('(**')
            c = pre[j:]
        out.append((m.group(1), m.group(2), c, body[m.start():end]))
    return out

def strip_comments(s):
    return re.sub(r'\(\*.*?\*\)', '', s, flags=re.S)

files = []
for mod in order:
    text = open(f'{T}/{mod}.v').read()
    names = []
    outs = []
    for kind, name, comment, sent in blocks(text):
        if kind in ('Record', 'Inductive'): continue
        s = strip_comments(sent)
        need = bool(re.search(r' \+ |usize_add|usize_sub', s))
        # unqualified references
        scope = set(names)
        if mod not in ('V4Mod', 'V5Mod') or True:
            for vm in visible_always:
                if vm != mod and vm in kept and (vm == 'Lib' or mod.startswith('V5')):
                    scope |= set(kept[vm])
        toks = set(re.findall(r'(?<![\w.])[A-Za-z_]\w*(?!\w*\.\w)', s))
        # names bound inside the definition do not count: check for a use that is not a binder
        for n in scope:
            if n in toks and n != name: need = True
        for q, n in re.findall(r'\b(V[45]\w+)\.(\w+)', s):
            if n in kept.get(q, []): need = True
        if name == 'write' and mod in ('V4Mod', 'V5Mod'): need = True
        if need:
            names.append(name)
            sent2 = re.sub(r'\b(V[45]\w+)\.(\w+)',
                           lambda m: ('Rel' + m.group(0)) if m.group(2) in kept.get(m.group(1), []) else m.group(0),
                           sent)
            outs.append(comment + '\n' + sent2)
    kept[mod] = names
    if not outs: continue
    imps = ['Base', 'Utf8', 'Lib']
    if mod.startswith('V5') and mod not in ('V5Mod', 'V5Property'): imps.append('V5Property')
    imps += [mod] if mod != 'Lib' else []
    imps += ['Release']
    if mod != 'Lib': imps.append('RelLib')
    if mod.startswith('V5') and mod not in ('V5Mod', 'V5Property'): imps.append('RelV5Property')
    head = f'(** Rel{mod}.v -- generated by tools/gen_release.py from {mod}.v: its definitions that use\n    machine integers, without overflow checks (Release.v).  No proofs in this file. *)\n'
    head += f'From Verif Require Import {" ".join(imps)}.\n'
    if mod.endswith('Mod'):
        v = mod[:2]
        req = [f'{v}{k}' for k in KINDS if f'{v}{k}' in kept]
        rel = [f'Rel{m}' for m in req if kept[m]]
        head += f'From Verif Require {" ".join(req)}.\nFrom Verif Require {" ".join(rel)}.\n'
    open(f'{T}/Rel{mod}.v', 'w').write(head + '\nSection WithBuild.\nContext {build : Build}.\n\n' + '\n\n'.join(outs) + '\n\nEnd WithBuild.\n')
    files.append(f'theories/Rel{mod}.v')
    print(mod, names)
print(' '.join(files))
