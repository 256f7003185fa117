#!/usr/bin/env python3
"""Test the theorems against wrong programs.

usage: mutate.py MUTATIONS.json [WORKERS]

Each mutation is {"file": model file (no .v), "def": definition, "edit": words,
"old": text, "new": text, "claim": the claim it breaks, "n": which occurrence
of old (default: must be unique), "only": regular expression restricting the
modules that are recompiled (default: all that depend on the edit)}.  For each one, the model is edited in a
scratch copy outside /verif and everything depending on it is recompiled.  A
lemma whose proof no longer goes through is admitted, and the theorems of the
T_*.v files that then depend on an admitted lemma are the ones that fail.
Prints one JSON line per mutation.
"""
import json, os, re, shutil, subprocess, sys
from concurrent.futures import ThreadPoolExecutor
ROOT = os.environ.get('MUT_ROOT', '/verif/rocq')
TMO = int(os.environ.get('MUT_TMO', '400'))

def order():
    return [l.strip()[len('theories/'):-2] for l in open(ROOT + '/_CoqProject') if l.strip().endswith('.v')]

def imports(d, m):
    t = open(f'{d}/theories/{m}.v').read()
    r = set()
    for x in re.findall(r'From Verif Require(?: Import| Export)?([^.]*)\.', t):
        r |= set(x.split())
    return r

HEAD = re.compile(r'^\s*(?:Local |Global |#\[[a-z]*\] )?(Lemma|Theorem|Example|Corollary|Fact|Remark|Definition|Fixpoint|Instance)\s+([\w\']+)', re.M)

def admit_at(text, pos):
    """Admit the lemma around pos; returns (new text, name) or (None, name)."""
    ms = [m for m in HEAD.finditer(text) if m.start() <= pos]
    if not ms: return None, '?'
    m = ms[-1]
    pr = re.compile(r'\bProof\b[^.]*\.').search(text, m.end())
    nxt = [x.start() for x in HEAD.finditer(text) if x.start() > m.end()]
    if m.group(1) in ('Definition', 'Fixpoint') and (not pr or (nxt and pr.start() > nxt[0])):
        return None, m.group(2)
    if not pr: return None, m.group(2)
    if pos < pr.start(): return None, m.group(2)
    end = re.compile(r'\b(Qed|Defined)\.').search(text, pr.end())
    return text[:pr.start()] + 'Admitted.' + text[end.end():], m.group(2)

def coqc(d, m):
    try:
        p = subprocess.run(['bash', '-c', f'ulimit -v 7000000; exec timeout {TMO} coqc -q -time -Q theories Verif theories/{m}.v'],
                           cwd=d, stdout=subprocess.PIPE, stderr=subprocess.STDOUT, text=True, errors='replace')
    except Exception as e:
        return 1, str(e)
    return p.returncode, p.stdout

def run(job):
    k, mu = job
    d = f'/tmp/mut/{k}'
    shutil.rmtree(d, ignore_errors=True)
    shutil.copytree(ROOT, d, copy_function=shutil.copy2)
    f = f'{d}/theories/{mu["file"]}.v'
    t = open(f).read()
    c = t.count(mu['old'])
    if 'n' in mu:
        parts = t.split(mu['old'])
        i = mu['n']
        assert i < c, mu
        t2 = mu['old'].join(parts[:i + 1]) + mu['new'] + mu['old'].join(parts[i + 1:])
    else:
        if c != 1: return {**mu, 'error': f'{c} occurrences'}
        t2 = t.replace(mu['old'], mu['new'])
    open(f, 'w').write(t2)
    mods = order()
    dirty = {mu['file']}
    admitted, fails, examples, broken = {}, set(), set(), None
    for m in mods:
        if m != mu['file'] and not (imports(d, m) & dirty): continue
        if m != mu['file'] and not re.fullmatch(mu.get('only', '.*'), m): continue
        dirty.add(m)
        path = f'{d}/theories/{m}.v'
        for it in range(60):
            rc, out = coqc(d, m)
            if rc == 0: break
            text = open(path).read()
            raw = text.encode()
            er = re.search(r'File "[^"]*", line (\d+), characters (\d+)-(\d+):\s*\n(?:Warning)?', out)
            ers = [e for e in re.finditer(r'File "[^"]*", line (\d+), characters (\d+)-(\d+):\s*\nError', out)]
            if ers:
                ln = int(ers[-1].group(1))
                pos = len('\n'.join(text.split('\n')[:ln - 1])) + 1 + int(ers[-1].group(2))
            else:
                ch = re.findall(r'^Chars (\d+) - (\d+) ', out, re.M)
                pos = len(raw[:int(ch[-1][1])].decode(errors='replace')) + 3 if ch else 0
            new, name = admit_at(text, pos)
            if new is None:
                broken = f'{m}: {name} does not compile: ' + out[-300:]
                break
            if m.startswith('T_'):
                (examples if not re.match(r'C\d', name) or '_ex' in name or 'hyps' in name else fails).add(name)
            admitted.setdefault(m, []).append(name)
            open(path, 'w').write(new)
        else:
            broken = f'{m}: too many failures'
        if broken: break
        if m.startswith('T_'):
            names = set(sum(admitted.values(), []))
            text = open(path).read()
            asked = re.findall(r'Print Assumptions\s+([\w\']+)\s*\.', text)
            blocks = re.split(r'^Chars \d+ - \d+ \[Print~Assumptions[^\n]*$', out, flags=re.M)
            # output precedes its timing line
            for nm, b in zip(asked, blocks):
                seg = b[b.rfind('Chars'):] if 'Chars' in b else b
                seg = seg.split('\n', 1)[1] if '\n' in seg else seg
                ax = set(x.split('.')[-1] for x in re.findall(r'^([\w\.\']+)\s*$|^([\w\.\']+) :', seg, re.M) for x in x if x)
                if ax & names: fails.add(nm)
    shutil.rmtree(d, ignore_errors=True)
    r = {'def': mu['def'], 'file': mu['file'], 'edit': mu['edit'], 'claim': mu['claim'],
         'failed': sorted(fails), 'examples_failed': sorted(examples), 'lemmas_failed': admitted}
    if broken: r['broken'] = broken
    return r

def main():
    ms = json.load(open(sys.argv[1]))
    w = int(sys.argv[2]) if len(sys.argv) > 2 else 2
    os.makedirs('/tmp/mut', exist_ok=True)
    base = os.path.basename(sys.argv[1]).split('.')[0]
    with ThreadPoolExecutor(w) as ex:
        for r in ex.map(run, [(f'{base}{i}', m) for i, m in enumerate(ms)]):
            print(json.dumps(r), flush=True)
main()
