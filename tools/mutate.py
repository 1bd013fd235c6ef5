#!/usr/bin/env python3
"""Apply wrong-program edits to a scratch copy of the model and record which
proofs stop going through.

usage: mutate.py edits.json [--log] [--first]
edits.json: list of {"file","definition","old","new","claim"[,"tightened"]}
Needs a built tree in /verif/rocq: a snapshot of it, with the compiled files, is
taken at the start, so that the tree can be edited meanwhile."""
import json, re, shutil, subprocess, sys, pathlib
root = pathlib.Path(__file__).resolve().parent.parent
scratch = pathlib.Path('/tmp/mut')
edits = json.load(open(sys.argv[1]))
log = '--log' in sys.argv
keep = '' if '--first' in sys.argv else '-k'          # --first: stop at the first failure
snap = pathlib.Path('/tmp/mutsnap')
if snap.exists(): shutil.rmtree(snap)
shutil.copytree(root / 'rocq', snap, copy_function=shutil.copy2)

def enclosing(path, line):
    name = None
    for n, l in enumerate(path.read_text().splitlines(), 1):
        if n > line: break
        m = re.match(r'\s*(?:Local |Global )?(?:Theorem|Lemma|Example|Corollary|Definition|Fixpoint|Fact|Instance)\s+([\w\']+)', l)
        if m: name = m.group(1)
    return name

for e in edits:
    if scratch.exists(): shutil.rmtree(scratch)
    shutil.copytree(snap, scratch, copy_function=shutil.copy2)
    f = scratch / 'theories' / e['file']
    s = f.read_text()
    if s.count(e['old']) < 1:
        print('NO MATCH', e['file'], e['old']); continue
    if s.count(e['old']) > 1 and not e.get('nth') and not e.get('all'):
        print('AMBIGUOUS', s.count(e['old']), e['file'], e['old']); continue
    if e.get('nth'):
        parts = s.split(e['old'])
        k = e['nth']
        s = e['old'].join(parts[:k]) + e['new'] + e['old'].join(parts[k:])
    else:
        s = s.replace(e['old'], e['new'])
    for o, n in e.get('more', []):
        assert s.count(o) == 1, (s.count(o), o)
        s = s.replace(o, n)
    f.write_text(s)
    subprocess.run('coq_makefile -f _CoqProject -o Makefile', shell=True, cwd=scratch, capture_output=True)
    p = subprocess.run('ulimit -v 6000000; timeout 900 make ' + keep + ' -j4 COQC="timeout 200 coqc" 2>&1', shell=True, cwd=scratch, capture_output=True, text=True)
    failed = []
    for m in re.finditer(r'File "\./(theories/[\w]+\.v)", line (\d+)[^\n]*\n((?:(?!File ).*\n)*)', p.stdout):
        if 'Error' in m.group(3) or 'Timeout' in m.group(3):
            failed.append(m.group(1).split('/')[1] + ':' + str(enclosing(scratch / m.group(1), int(m.group(2)))))
    for m in re.finditer(r'theories/(\w+)\.vo\] Error (124|137)', p.stdout):
        failed.append(m.group(1) + '.v:(time limit)')
    print('%-8s' % ('KILLED' if p.returncode else 'SURVIVED'), e['definition'], '|', e['new'][:70].replace('\n', ' '), '->', failed)
    sys.stdout.flush()
    if log:
        with open(root / 'seeded/LOG.jsonl', 'a') as g:
            g.write(json.dumps({"definition": e['definition'], "file": e['file'], "edit": [{"from": o, "to": n} for o, n in [[e['old'], e['new']]] + e.get('more', [])],
              "claim_broken": e['claim'], "failed": failed, "survived": p.returncode == 0, "tightened": e.get('tightened', [])}) + '\n')
