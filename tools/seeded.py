#!/usr/bin/env python3
"""Test the theorems against wrong models.

    tools/seeded.py MUTANTS.json [--log] [--only N,M] [--area]

Each mutant is {"file", "definition", "old", "new", "claim", "breaks"}: in a
scratch copy of rocq/ the text `old` (which must occur once, or give "count")
of the model file is replaced by `new` and all dependent files are rebuilt.
Where a proof fails it is replaced by Admitted, so that all failing statements
are found; the theorems which fail are those whose proof fails or which depend
on such a statement (from Print Assumptions).  With --log one line per mutant is
added to seeded/LOG.jsonl.  With --area only files of the same area are rebuilt.
"""
import concurrent.futures
import json
import os
import re
import shutil
import subprocess
import sys
import tempfile

ROOT = os.path.dirname(os.path.dirname(os.path.abspath(__file__)))
ROCQ = os.path.join(ROOT, 'rocq')
FILES = [os.path.basename(l.strip()) for l in open(os.path.join(ROCQ, '_CoqProject'))
         if l.strip().endswith('.v')]


def requires(path):
    text = open(path).read()
    names = set()
    for m in re.findall(r'From Verif Require (?:Import|Export)?([^.]*)\.', text):
        names.update(m.split())
    return {n + '.v' for n in names}


def topological():
    deps = {f: requires(os.path.join(ROCQ, 'theories', f)) for f in FILES}
    out, seen = [], set()

    def visit(f):
        if f in seen:
            return
        seen.add(f)
        for d in sorted(deps[f]):
            if d in deps:
                visit(d)
        out.append(f)
    for f in FILES:
        visit(f)
    return out, deps


ORDER, DEPS = topological()


def dependents(f):
    bad = {f}
    for g in ORDER:
        if DEPS[g] & bad:
            bad.add(g)
    near = '--area' in sys.argv
    return [g for g in ORDER if g in bad and g != f and (not near or g[1:] == f[1:].replace('Data.v', '.v'))]


START = re.compile(r'^ *(?:Local |Global |#\[[a-z]*\] *)*(Lemma|Theorem|Corollary|Example|Fact|Remark|Instance|Proposition)\s+(\w+)', re.M)


def enclosing(text, line):
    """(start, name, kind, statement end, proof end) of the statement at a line."""
    pos = sum(len(l) + 1 for l in text.split('\n')[:line - 1])
    eol = text.find('\n', pos)
    best = None
    for m in START.finditer(text):
        if m.start() <= eol:
            best = m
    if best is None:
        return None
    end = re.compile(r'\b(Qed|Defined|Admitted)\.').search(text, best.start())
    proof = text.find('Proof', best.start())
    return best.start(), best.group(2), best.group(1), proof, end.end()


def compile_file(copy, f, timeout):
    try:
        r = subprocess.run(['coqc', '-w', 'none', '-set', 'Default Timeout=60', '-Q', 'theories', 'Verif', 'theories/' + f],
                           cwd=copy, capture_output=True, text=True, timeout=timeout)
    except subprocess.TimeoutExpired:
        return None, 'timeout'
    return r.returncode, r.stdout + r.stderr


def run(mutant):
    copy = os.path.join(tempfile.mkdtemp(prefix='seed'), 'rocq')
    shutil.copytree(ROCQ, copy)
    path = os.path.join(copy, 'theories', mutant['file'])
    text = open(path).read()
    n = text.count(mutant['old'])
    if n != mutant.get('count', 1):
        shutil.rmtree(os.path.dirname(copy))
        return dict(status='no match', detail=n)
    open(path, 'w').write(text.replace(mutant['old'], mutant['new']))
    code, out = compile_file(copy, mutant['file'], 600)
    if code != 0:
        shutil.rmtree(os.path.dirname(copy))
        return dict(status='model does not compile', detail=out[-600:])
    failed, theorems, examples, lost = [], set(), [], []
    for g in dependents(mutant['file']):
        p = os.path.join(copy, 'theories', g)
        for _ in range(200):
            code, out = compile_file(copy, g, 900)
            if code == 0:
                break
            m = re.search(r'line (\d+), characters', out)
            if code is None or not m:
                lost.append((g, out[-300:]))
                break
            # several warnings may come first: take the last location before Error
            locs = re.findall(r'line (\d+), characters [^\n]*\n(?=Error|[^\n]*\nError)', out)
            line = int(locs[-1] if locs else m.group(1))
            t = open(p).read()
            e = enclosing(t, line)
            if e is None:
                lost.append((g, out[-300:]))
                break
            start, name, kind, proof, end = e
            if proof < 0 or proof > end or 'Admitted' in t[proof:end]:
                # the statement itself does not typecheck: remove it
                t2 = t[:start] + t[end:] if proof > 0 and proof < end else None
                if t2 is None:
                    lost.append((g, name, out[-300:]))
                    break
                t = re.sub(r'^Print Assumptions %s\.\n' % name, '', t2, flags=re.M)
                failed.append(name + ' (statement)')
            else:
                errpos = sum(len(l) + 1 for l in t.split('\n')[:line - 1])
                stmt_lines = t[:proof].count('\n') + 1
                if line < stmt_lines:
                    t = t[:start] + t[end:]
                    t = re.sub(r'^Print Assumptions %s\.\n' % name, '', t, flags=re.M)
                    failed.append(name + ' (statement)')
                else:
                    t = t[:proof] + 'Admitted.' + t[end:]
                    failed.append(name)
            (examples if kind == 'Example' else []).append(name)
            if kind == 'Theorem' and g.startswith('T_'):
                theorems.add(name)
            open(p, 'w').write(t)
        if code != 0:
            # everything that depends on this file is lost
            continue
        if g.startswith('T_'):
            asked = re.findall(r'^Print Assumptions (\w+)\.', open(p).read(), re.M)
            blocks = re.split(r'^(?=Axioms:|Closed under)', out, flags=re.M)[1:]
            names = {x.split()[0] for x in failed}
            for name, block in zip(asked, blocks):
                ax = {a.split('.')[-1] for a in re.findall(r'^([A-Za-z_.\'0-9]+)\s*(?::|$)', block, re.M)}
                if ax & names:
                    theorems.add(name)
    shutil.rmtree(os.path.dirname(copy))
    return dict(status='killed' if theorems or lost else 'survived',
                theorems=sorted(theorems), failed=failed, examples=examples, lost=lost)


def main():
    mutants = json.load(open(sys.argv[1]))
    idx = range(len(mutants))
    if '--only' in sys.argv:
        idx = [int(x) for x in sys.argv[sys.argv.index('--only') + 1].split(',')]
    with concurrent.futures.ThreadPoolExecutor(int(os.environ.get('WORKERS', '4'))) as ex:
        results = ex.map(lambda i: run(mutants[i]), idx)
        for i, r in zip(idx, results):
            m = mutants[i]
            want = m.get('breaks', [])
            hit = [b for b in want if any(t.startswith(b + '_') for t in r.get('theorems', []))]
            missing = [b for b in want if b not in hit]
            print(i, m['definition'], '|', m.get('edit', ''), '|', r['status'],
                  'MISSING ' + ','.join(missing) if missing else '', r.get('theorems', ''),
                  r.get('detail', ''), r.get('lost') or '', flush=True)
            if r['status'] == 'survived':
                print('      failed:', r['failed'])
            if '--log' in sys.argv and r['status'] in ('killed', 'survived'):
                with open(os.path.join(ROOT, 'seeded', 'LOG.jsonl'), 'a') as f:
                    f.write(json.dumps({
                        'definition': m['file'] + ': ' + m['definition'],
                        'edit': m.get('edit') or (m['old'] + '  ->  ' + m['new']),
                        'old': m['old'], 'new': m['new'],
                        'claim_broken': m['claim'],
                        'theorems_failed': r['theorems'] or r['failed'],
                        'status': r['status'],
                        'theorems_tightened': m.get('tightened', [])}) + '\n')


main()
