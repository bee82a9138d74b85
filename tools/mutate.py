#!/usr/bin/env python3
"""Try model mutations in scratch copies and record which property theorems no longer prove.

usage: mutate.py mutants.py [name ...]

mutants.py defines MUTANTS, a list of dicts with keys name, file, definition, old, new, claim
(and optionally edit).  `old` must occur exactly once in the file.  The built theories
directory is copied, the edit made, and every file that depends on the edited one is compiled
again.  A proof that fails (or takes too long) is replaced by Admitted and compilation goes on;
at the end the assumptions printed in the Props files tell which theorems rest on a broken
proof.  Results are appended to the file results.jsonl beside mutants.py.
"""
import json, os, re, shutil, subprocess, sys
from concurrent.futures import ThreadPoolExecutor

SRC = os.environ.get('MUT_SRC', '/verif/rocq/theories')
SCRATCH = '/tmp/mut'
TIMEOUT = 200


def deps():
    out = subprocess.run(['coqdep', '-Q', '.', 'Verif'] + sorted(os.listdir(SRC)), cwd=SRC,
                         capture_output=True, text=True).stdout
    d = {}
    for line in out.splitlines():
        m = re.match(r'(\w+)\.vo\b[^:]*:(.*)', line)
        if m:
            d[m.group(1)] = [x[:-3] for x in m.group(2).split() if x.endswith('.vo')]
    return d


def affected(d, f):
    aff = {f}
    changed = True
    while changed:
        changed = False
        for k, v in d.items():
            if k not in aff and aff & set(v):
                aff.add(k)
                changed = True
    order, seen = [], set()

    def visit(x):
        if x in seen or x not in aff:
            return
        seen.add(x)
        for y in d[x]:
            visit(y)
        order.append(x)
    for x in sorted(aff):
        visit(x)
    return order


HEAD = re.compile(r'^\s*(?:(?:Local|Global|#\[\w+\])\s+)?(?:Lemma|Theorem|Example|Corollary|Fact|Instance|Definition|Fixpoint|Program Instance|Remark)\s+(\w+)', re.M)


def proofs(text):
    """(name, start of 'Proof', end after Qed) of each proof"""
    res = []
    for m in re.finditer(r'\bProof\b(?!\. Admitted\.)', text):
        e = re.compile(r'\b(Qed|Defined)\.').search(text, m.start())
        if not e:
            continue
        name = None
        for h in HEAD.finditer(text, 0, m.start()):
            name = h.group(1)
        res.append((name, m.start(), e.end()))
    return res


def compile_file(dir_, f):
    """compile, admitting failing proofs; returns (broken lemma names, hard error or None, output)"""
    path = f'{dir_}/{f}.v'
    broken = []
    while True:
        text = open(path).read()
        try:
            p = subprocess.run(['timeout', str(TIMEOUT), 'coqc', '-time', '-Q', '.', 'Verif', f + '.v'],
                               cwd=dir_, capture_output=True, text=True)
        except Exception as e:  # noqa
            return broken, str(e), ''
        if p.returncode == 0:
            return broken, None, p.stdout
        data = text.encode()
        m = re.search(r'File "\./?%s\.v", line (\d+), characters (\d+)' % f, p.stderr + p.stdout)
        if m and p.returncode != 124:
            ls = text.split('\n')
            pos = sum(len(x) + 1 for x in ls[:int(m.group(1)) - 1]) + 1
            # characters are bytes in the line
            pos += int(m.group(2)) - 1 if int(m.group(2)) > 0 else -1
        else:
            ends = [int(x) for x in re.findall(r'^Chars \d+ - (\d+)', p.stdout, re.M)]
            bpos = (ends[-1] if ends else 0) + 2
            pos = len(data[:bpos].decode(errors='ignore'))
        hit = [x for x in proofs(text) if x[1] <= pos < x[2]]
        if not hit:
            return broken, (p.stderr + p.stdout)[-600:], p.stdout
        name, s, e = hit[0]
        broken.append(name)
        open(path, 'w').write(text[:s] + 'Proof. Admitted.' + text[e:])


def run(mu, d):
    dir_ = f'{SCRATCH}/{mu["name"]}'
    shutil.rmtree(dir_, ignore_errors=True)
    os.makedirs(dir_)
    for x in os.listdir(SRC):
        if x.endswith(('.v', '.vo')):
            shutil.copy2(f'{SRC}/{x}', dir_)
    path = f'{dir_}/{mu["file"]}.v'
    text = open(path).read()
    if text.count(mu['old']) != 1:
        return dict(name=mu['name'], error='old text occurs %d times' % text.count(mu['old']))
    open(path, 'w').write(text.replace(mu['old'], mu['new']))
    broken, failed, kept, hard = {}, [], [], {}
    for f in affected(d, mu['file']):
        b, err, out = compile_file(dir_, f)
        if b:
            broken[f] = b
        if err:
            hard[f] = err
            if not f.startswith('Props_'):
                break
        if f.startswith('Props_'):
            src = open(f'{dir_}/{f}.v').read()
            names = re.findall(r'^Print Assumptions (\w+)\.', src, re.M)
            parts = re.split(r'(?=Closed under the global context|^Axioms:)', out, flags=re.M)[1:]
            for n, part in zip(names, parts):
                (kept if part.startswith('Closed') else failed).append(n)
    shutil.rmtree(dir_, ignore_errors=True)
    return dict(name=mu['name'], broken=broken, failed=failed, kept=kept, error=hard or None)


def main():
    mfile = sys.argv[1]
    ns = {}
    exec(open(mfile).read(), ns)
    todo = [m for m in ns['MUTANTS'] if not sys.argv[2:] or m['name'] in sys.argv[2:]]
    resf = os.path.join(os.path.dirname(os.path.abspath(mfile)), 'results.jsonl')
    done = set()
    if os.path.exists(resf) and not sys.argv[2:]:
        done = {json.loads(x)['name'] for x in open(resf)}
    todo = [m for m in todo if m['name'] not in done]
    d = deps()
    with ThreadPoolExecutor(4) as ex:
        for mu, r in zip(todo, ex.map(lambda m: run(m, d), todo)):
            with open(resf, 'a') as f:
                f.write(json.dumps(r) + '\n')
            print(r['name'], '| failed:', ' '.join(r.get('failed', [])) or '-',
                  '| error:', r.get('error'), flush=True)


if __name__ == '__main__':
    main()
