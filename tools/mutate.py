#!/usr/bin/env python3
"""Mutation testing of the theorems.

usage: mutate.py mutations.json [first [last]]

Every entry of the list is {"file", "definition", "old", "new", "claim"}: in a scratch copy of rocq/theories the text [old] of
the model file is replaced by [new] and every file of the same area that depends on it is compiled again (of every area
when ALL is set).  A lemma whose proof fails is
replaced by an axiom in the scratch copy, so that the files after it are still compiled.  A theorem counts as failed when
its own proof fails or when Print Assumptions shows that it rests on such a replaced lemma.  One JSON line per entry is
printed, in the format of seeded/LOG.jsonl.
"""
import json, os, re, shutil, subprocess, sys

SRC = '/verif/rocq/theories'
TMP = os.environ.get('MUT', '/tmp/mut')
LIMIT = float(os.environ.get('LIMIT', '150'))

def deps():
    files = sorted(f[:-2] for f in os.listdir(SRC) if f.endswith('.v'))
    d = {}
    for f in files:
        s = open(f'{SRC}/{f}.v').read()
        d[f] = set(w for m in re.finditer(r'From Verif Require (?:Import|Export) ([^.]*)\.', s) for w in m.group(1).split())
    return files, d

def area(f):
    a = f.split('_')[0]
    return a if a == 'Base64' else a.rstrip('0123456789')

def order(files, d, root):
    need = {root}
    changed = True
    while changed:
        changed = False
        for f in files:
            if f not in need and d[f] & need:
                need.add(f); changed = True
    out = []
    def visit(f):
        if f in out or f not in need: return
        for g in sorted(d[f]): visit(g)
        out.append(f)
    for f in files: visit(f)
    if os.environ.get('ALL'): return out
    return [f for f in out if area(f) == area(root)]

HEAD = re.compile(r'^[ \t]*(?:Local |Global |#\[[^\]]*\] )?(Lemma|Theorem|Example|Corollary|Fact|Remark|Definition|Fixpoint|Instance|Record|Inductive)\s+([A-Za-z0-9_\']+)', re.M)

def compile_(f):
    try:
        r = subprocess.run(['coqc', '-time', '-Q', '.', 'Verif', f + '.v'], cwd=TMP, capture_output=True, text=True, timeout=LIMIT)
        return r.returncode, r.stdout, r.stderr
    except subprocess.TimeoutExpired as e:
        return 124, (e.stdout or b'').decode() if isinstance(e.stdout, bytes) else (e.stdout or ''), ''

def offset(f, src, out, err, code):
    if code == 124:
        ends = [int(m.group(1)) for m in re.finditer(r'^Chars \d+ - (\d+)', out, re.M)]
        b = (ends[-1] if ends else 0) + 2
        return len(src.encode()[:b].decode(errors='ignore'))
    m = re.search(r'line (\d+), characters (\d+)-', err)
    lines = src.split('\n')
    return sum(len(x) + 1 for x in lines[:int(m.group(1)) - 1]) + int(m.group(2))

def admit(src, pos):
    heads = [m for m in HEAD.finditer(src) if m.start() <= pos]
    if not heads: return None, None
    h = heads[-1]
    if h.group(1) in ('Record', 'Inductive', 'Fixpoint', 'Definition', 'Instance'): return None, h.group(2)
    p = src.find('Proof', h.end())
    if p < 0 or pos < p - 1 : return None, h.group(2)
    q = re.compile(r'\b(Qed|Defined)\.').search(src, p)
    return src[:p] + 'Proof. Admitted.' + src[q.end():], h.group(2)

def run(mu, files, d):
    f = mu['file']
    src = open(f'{SRC}/{f}.v').read()
    if src.count(mu['old']) != 1: return {'error': 'old text occurs %d times' % src.count(mu['old'])}
    todo = order(files, d, f)
    cur = {g: open(f'{SRC}/{g}.v').read() for g in todo}
    cur[f] = src.replace(mu['old'], mu['new'])
    failed, lost, thms = [], [], []
    for g in todo:
        while True:
            open(f'{TMP}/{g}.v', 'w').write(cur[g])
            if g in lost: break
            code, out, err = compile_(g)
            if code == 0: break
            if code != 124 and not re.search(r'line (\d+), characters (\d+)-', err):
                lost.append(g); failed.append(g + ': ' + err.strip()[-200:]); break
            new, name = admit(cur[g], offset(g, cur[g], out, err, code))
            failed.append(name or g)
            if new is None:
                lost.append(g); failed.append('(file %s does not compile: %s)' % (g, err.strip().replace('\n', ' ')[-160:])); break
            cur[g] = new
        if g.endswith('_Props'):
            names = re.findall(r'^Print Assumptions ([A-Za-z0-9_\']+)\.', cur[g], re.M)
            if g in lost:
                thms += [n for n in names]; continue
            out = re.sub(r'^Chars .*\n?', '', out, flags=re.M)
            out = re.sub(r'(Closed under the global context|Axioms:)\s*', r'\n\1\n', out)
            parts = re.findall(r'(Closed under the global context|Axioms:)\n', out)
            if len(parts) != len(names): thms.append('?? %s %d %d' % (g, len(parts), len(names)))
            base = BASE.get(g, {})
            for n, p in zip(names, parts):
                if p == 'Axioms:' and not base.get(n): thms.append(n)
    for g in todo:
        shutil.copy(f'{SRC}/{g}.v', f'{TMP}/{g}.v')
        for e in ('vo', 'vok', 'vos', 'glob'):
            if os.path.exists(f'{SRC}/{g}.{e}'): shutil.copy2(f'{SRC}/{g}.{e}', f'{TMP}/{g}.{e}')
    return {'theorems': thms, 'lemmas': failed, 'lost': lost}

BASE = {}
def main():
    mus = json.load(open(sys.argv[1]))
    a = int(sys.argv[2]) if len(sys.argv) > 2 else 0
    b = int(sys.argv[3]) if len(sys.argv) > 3 else len(mus)
    files, d = deps()
    shutil.rmtree(TMP, ignore_errors=True)
    shutil.copytree(SRC, TMP)
    for i in range(a, min(b, len(mus))):
        mu = mus[i]
        r = run(mu, files, d)
        print(json.dumps({'n': i, 'definition': mu['file'] + '.' + mu['definition'], 'edit': mu['old'] + '  ==>  ' + mu['new'], 'claim': mu['claim'], **r}), flush=True)

main()
