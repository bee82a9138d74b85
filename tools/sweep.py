#!/usr/bin/env python3
"""Systematic single-token mutations of the models.

usage: sweep.py out.jsonl [File:step ...]

For each Model file, every operator, number, boolean and conversion outside the comments is
changed in turn.  The examples of the property files (C01-C83) are evaluated on the edited model,
and the proofs that depend on it are compiled up to the first lemma that fails.  An
edit that no example and no proof notices is a survivor.  Files about the C text are left out:
there each model is proved equal to the text, so that every edit that changes what a function
computes is noticed.
"""
import json, os, re, shutil, subprocess, sys
from concurrent.futures import ThreadPoolExecutor

SRC = os.environ.get('MUT_SRC', '/tmp/snap3/theories')
SCRATCH = '/tmp/sw/d'
LIMIT = int(os.environ.get('LIMIT', '240'))
LEAVE_OUT = re.compile(r'^(C_|CLang|CFront|CSystem|Refine|Text_|Props_(Text|Main|Front|Grammar|Interp|EvalOrder)|'
                       r'Proof_(Text|Main|Front|Grammar|EvalOrder|Fuel|Reach|Block|Crc\w*Text)|Drive_\w*(Text|Front)|Spec_Gr|Spec_Reach|Test_)')

RULES = [(r' <\? ', ' <=? '), (r' <=\? ', ' <? '), (r' =\? ', ' <=? '), (r' && ', ' || '),
         (r' \|\| ', ' && '), (r' \+ ', ' - '), (r' - ', ' + '), (r' \* ', ' + '), (r' mod ', ' / '),
         (r' / ', ' mod '), (r'Z\.land\b', 'Z.lor'), (r'Z\.lor\b', 'Z.land'), (r'Z\.lxor\b', 'Z.lor'),
         (r'Z\.shiftl\b', 'Z.shiftr'), (r'Z\.shiftr\b', 'Z.shiftl'), (r'\bnegb \(', 'id ('),
         (r'\bu32 ', 'u64 '), (r'\bu16 ', 'u32 '), (r'\bu8 ', 'u32 '), (r'\bs8 ', 'id '), (r'\bs32 ', 'id '),
         (r'\btrue\b', 'false'), (r'\bfalse\b', 'true'), (r'\bBreak\b', 'Next'), (r'\bck32 ', 'Ok ')]


def blank_comments(s):
    out, d, i = [], 0, 0
    while i < len(s):
        if s.startswith('(*', i):
            d += 1; out.append('  '); i += 2
        elif s.startswith('*)', i) and d:
            d -= 1; out.append('  '); i += 2
        else:
            out.append(s[i] if not d or s[i] == '\n' else ' '); i += 1
    return ''.join(out)


def mutants(f):
    s = open(f'{SRC}/{f}.v').read()
    b = blank_comments(s)
    res = []
    for pat, new in RULES:
        for m in re.finditer(pat, b):
            res.append((m.start(), m.end(), new))
    for m in re.finditer(r'(?<![\w.])\d+(?![\w.])', b):
        res.append((m.start(), m.end(), str(int(m.group()) + 1)))
    res.sort()
    out = []
    for i, e, new in res:
        line = s.count('\n', 0, i) + 1
        d = None
        for h in re.finditer(r'^(?:Definition|Fixpoint) (\w+)', b[:i], re.M):
            d = h.group(1)
        if d is None or re.match(r'\s*(From|Require)', b.split('\n')[line - 1]):
            continue
        out.append(dict(name=f'{f[6:]}_{line}_{i - s.rfind(chr(10), 0, i)}', file=f, pos=i, end=e,
                        old=s[i:e], new=new, definition=d, line=line,
                        text=s.split('\n')[line - 1].strip()))
    tables = ('base64_table', 'base64_index', 'pow10_table')
    return [m for k, m in enumerate(out) if m['definition'] not in tables or k % 20 == 0]


def deps():
    fs = sorted(x for x in os.listdir(SRC) if x.endswith('.v') and not LEAVE_OUT.match(x[:-2]))
    out = subprocess.run(['coqdep', '-Q', '.', 'Verif'] + fs, cwd=SRC, capture_output=True, text=True).stdout
    d = {}
    for line in out.splitlines():
        m = re.match(r'(\w+)\.vo\b[^:]*:(.*)', line)
        if m:
            d[m.group(1)] = [x[:-3].lstrip('./') for x in m.group(2).split() if x.endswith('.vo')]
    return d


def affected(d, f):
    aff, changed = {f}, True
    while changed:
        changed = False
        for k, v in d.items():
            if k not in aff and aff & set(v):
                aff.add(k); changed = True
    order, seen = [], set()

    def visit(x):
        if x in seen or x not in aff:
            return
        seen.add(x)
        for y in d[x]:
            visit(y)
        order.append(x)
    for x in sorted(aff):
        visit(x)
    return order


def coqc(d, f):
    p = subprocess.run(['timeout', str(LIMIT), 'coqc', '-q', '-Q', '.', 'Verif', f + '.v'], cwd=d,
                       capture_output=True, text=True)
    return p.returncode, p.stdout + p.stderr


def lemma_at(path, line):
    name = None
    for i, l in enumerate(open(path), 1):
        m = re.match(r'\s*(?:Local )?(?:Lemma|Theorem|Example|Definition|Fixpoint)\s+(\w+)', l)
        if m:
            name = m.group(1)
        if i >= line:
            return name


def examples(path):
    """the examples alone, for coqtop, which goes on after an error"""
    s = open(path).read()
    head = s[:re.search(r'^(Theorem|Example)', s, re.M).start()]
    head = re.sub(r'\bProof_\w+', '', blank_comments(head))
    out, names = head + '\n', []
    for m in re.finditer(r'^Example (\w+).*?\nProof\..*?Qed\.', s, re.M | re.S):
        names.append(m.group(1))
        out += f'Set Default Timeout 60.\n{m.group(0)}\nUnset Default Timeout.\nAbort All.\n'
    return out + ''.join(f'Locate {n}.\n' for n in names), names


def passing(dd, f):
    """the examples of f that prove in directory dd"""
    t, names = examples(f'{SRC}/{f}.v')
    try:
        p = subprocess.run(['coqtop', '-q', '-Q', '.', 'Verif'], cwd=dd, input=t, capture_output=True, text=True,
                           timeout=900)
    except subprocess.TimeoutExpired:
        return set()
    return {n for n in names if re.search(r'Constant Top\.%s\b' % n, p.stdout)}


BASE = {}


def run(m, d):
    dd = f'{SCRATCH}/{m["name"]}'
    shutil.rmtree(dd, ignore_errors=True)
    os.makedirs(dd)
    aff = affected(d, m['file'])
    for x in d:
        if x not in aff:
            os.link(f'{SRC}/{x}.vo', f'{dd}/{x}.vo')
    s = open(f'{SRC}/{m["file"]}.v').read()
    open(f'{dd}/{m["file"]}.v', 'w').write(s[:m['pos']] + m['new'] + s[m['end']:])
    broken, exf, err = {}, [], {}
    only = {'Model_Utils': ('Props_Utils', 'Props_Record')}.get(m['file'])
    aff = [f for f in aff if not f.startswith('Props_') or not only or f in only]
    first = [f for f in aff if not f.startswith(('Props_', 'Proof_'))]
    for f in first + [f for f in aff if f.startswith('Props_')] + [f for f in aff if f.startswith('Proof_')]:
        if f.startswith('Props_'):
            exf += sorted(BASE[f] - passing(dd, f))
            continue
        if f != m['file']:
            shutil.copy(f'{SRC}/{f}.v', dd)
        c, o = coqc(dd, f)
        if c:
            if f == m['file']:
                shutil.rmtree(dd)
                return dict(m, status='does not compile')
            g = re.search(r'File "[^"]*", line (\d+)', o)
            broken[f] = lemma_at(f'{dd}/{f}.v', int(g.group(1))) if g else 'timeout'
            break
    shutil.rmtree(dd)
    return dict(m, status='ok', broken=broken, examples=exf, err=err)


def main():
    out = sys.argv[1]
    ms = []
    for a in sys.argv[2:]:
        f, _, st = a.partition(':')
        ms += mutants(f)[::int(st or 1)]
    done = {json.loads(l)['name'] for l in open(out)} if os.path.exists(out) else set()
    ms = [m for m in ms if m['name'] not in done]
    print(len(ms), 'mutants', flush=True)
    if os.environ.get('COUNT'):
        return
    d = deps()
    for f in sorted({f for m in ms for f in affected(d, m['file']) if f.startswith('Props_')}):
        BASE[f] = passing(SRC, f)
        print(f, len(BASE[f]), 'of', len(examples(f'{SRC}/{f}.v')[1]), sorted(set(examples(f'{SRC}/{f}.v')[1]) - BASE[f]), flush=True)
    with ThreadPoolExecutor(int(os.environ.get('JOBS', '2'))) as ex:
        for r in ex.map(lambda m: run(m, d), ms):
            with open(out, 'a') as f:
                f.write(json.dumps(r) + '\n')
            tag = ('-' if r['status'] != 'ok' else
                   'SURVIVES' if not r['broken'] and not r['examples'] else
                   'noex' if not r['examples'] else '')
            print(r['name'], r['definition'], repr(r['old']), '->', repr(r['new']), '|', r['text'], '|',
                  r.get('broken'), r.get('examples'), r.get('err') or '', tag, flush=True)


if __name__ == '__main__':
    main()
