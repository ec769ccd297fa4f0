#!/usr/bin/env python3
"""Seed a wrong program: copy the model to a scratch directory, replace a fragment of one definition,
rebuild the files of that group, and report which theorems no longer prove.

Proofs that fail (or run away) are replaced by 'Admitted' in the scratch copy only, so that the build can go
on and 'Print Assumptions' tells which property theorems depended on them.

usage: mutate.py SPECFILE   (JSON lines: file, definition, old, new, edit, claim, optionally also: other groups to rebuild)
Each attempt is appended to /verif/seeded/LOG.jsonl.
"""
import json, os, re, shutil, subprocess, sys

VERIF = '/verif'
SCRATCH = os.environ.get('SCRATCH', '/tmp/scratch')
LIMIT = int(os.environ.get('LIMIT', '180'))

STMT = re.compile(r'^\s*(?:Local |Global |#\[[^\]]*\] )?(Lemma|Theorem|Example|Corollary|Fact|Remark)\s+([A-Za-z0-9_\']+)')

def coqc(f):
    """Returns (ok, line of failure or None, output)."""
    r = subprocess.run('timeout %d coqc -time -Q theories Verif theories/%s > out.txt 2>&1' % (LIMIT, f), cwd=SCRATCH, shell=True)
    out = open(SCRATCH + '/out.txt', errors='replace').read()
    if r.returncode == 0:
        return True, None, out
    if r.returncode == 124 or 'out of memory' in out[-200:]:
        pos = [int(m.group(1)) for m in re.finditer(r'^Chars \d+ - (\d+)', out, re.M)]
        data = open(SCRATCH + '/theories/' + f, 'rb').read()
        p = pos[-1] if pos else 0
        while p < len(data) and data[p:p + 1].isspace(): p += 1
        return False, data[:p].count(b'\n') + 1, out
    m = re.search(r'File "[^"]*%s", line (\d+), characters' % re.escape(f), out)
    return False, int(m.group(1)) if m else None, out

def admit(f, line, failed, broken):
    p = SCRATCH + '/theories/' + f
    lines = open(p).read().split('\n')
    i = line - 1
    while i >= 0 and not STMT.match(lines[i]): i -= 1
    name = STMT.match(lines[i]).group(2) if i >= 0 else None
    j = max(i, 0)
    while j < len(lines) and not re.search(r'\b(Qed|Defined)\.', lines[j]): j += 1
    if name is None or j < line - 1:
        broken.append('%s:%s' % (f, line)); return False
    body = '\n'.join(lines[i:j + 1])
    m = re.search(r'\bProof\b', body)
    if name in failed or not m:
        broken.append('%s:%s (%s)' % (f, line, name)); return False
    if line - 1 < i + body[:m.start()].count('\n'):
        broken.append('%s:%s (%s statement)' % (f, line, name)); return False
    failed.append(name)
    new = body[:m.start()] + 'Proof. Admitted.'
    new += '\n' * (body.count('\n') - new.count('\n'))
    open(p, 'w').write('\n'.join(lines[:i] + [new] + lines[j + 1:]))
    return True

def attempt(spec):
    if os.path.exists(SCRATCH): shutil.rmtree(SCRATCH)
    shutil.copytree(VERIF + '/rocq', SCRATCH)
    path = os.path.join(SCRATCH, 'theories', spec['file'])
    text = open(path).read()
    assert text.count(spec['old']) == 1, (spec['old'], text.count(spec['old']))
    open(path, 'w').write(text.replace(spec['old'], spec['new']))
    groups = [spec['file'].split('_')[0]] + spec.get('also', [])
    files = [l.strip()[9:] for l in open(SCRATCH + '/_CoqProject') if l.startswith('theories/')]
    todo, seen = [], False
    for f in files:
        seen = seen or f == spec['file']
        if seen and f.split('_')[0] in groups: todo.append(f)
    failed, broken, props = [], [], set()
    for f in todo:
        while True:
            ok, line, out = coqc(f)
            if ok: break
            if line is None:
                broken.append(f + ': ' + out[-200:]); break
            if not admit(f, line, failed, broken): break
        if broken: break
        if re.search(r'_Props\d*\.v$', f) and failed:
            o = '\n'.join(l for l in out.split('\n') if not l.startswith('Chars '))
            thms = re.findall(r'^Print Assumptions (\w+)', open(SCRATCH + '/theories/' + f).read(), re.M)
            chunks = re.split(r'(?=Closed under the global context|Axioms:)', o)[1:]
            for th, c in zip(thms, chunks):
                if c.startswith('Axioms:') and any(re.search(r'\b%s\b' % re.escape(n), c) for n in failed):
                    props.add(th)
    props |= set(n for n in failed if re.match(r'C\d\d', n))
    return failed, sorted(props), broken

def main():
    for l in open(sys.argv[1]):
        l = l.strip()
        if not l: continue
        spec = json.loads(l)
        try:
            names, props, broken = attempt(spec)
        except AssertionError as e:
            print('   *** BAD SPEC', e, flush=True); continue
        rec = {'definition': spec['definition'], 'edit': spec['edit'], 'claim': spec['claim'],
               'failed': props, 'failed_lemmas': [n for n in names if n not in props],
               'tightened': spec.get('tightened', [])}
        if broken: rec['no_longer_typechecks'] = broken
        print(json.dumps(rec), flush=True)
        if not props and not broken:
            print('   *** SURVIVED', flush=True)
        if spec.get('log', True) and not broken:
            open(VERIF + '/seeded/LOG.jsonl', 'a').write(json.dumps(rec) + '\n')

main()
