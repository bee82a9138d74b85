#!/usr/bin/env python3
"""Writes /verif/seeded/LOG.jsonl from the lists seeded/*mutants*.py and the results of mutate.py,
cmutate.py (edits of the C text), fmutate.py (edits of the front end), smutate.py and lmutate.py
(edits for C114 and C115) and sweep.py (every operator
and constant of a model).

usage: log.py results.jsonl ...
"""
import glob, json, re, sys
mut = []
for f in sorted(glob.glob('/verif/seeded/mutants*.py')):
    ns = {}
    exec(open(f).read(), ns)
    mut += ns['MUTANTS']
res = {}
for f in sys.argv[1:]:
    for line in open(f):
        r = json.loads(line)
        res.setdefault(r['name'], []).append(r)
tight = json.load(open('/verif/seeded/tightened.json'))
with open('/verif/seeded/LOG.jsonl', 'w') as out:
    for m in mut:
        if m['name'] not in res:
            continue
        # the first attempt; a later one shows the effect of tightening
        r, last = res[m['name']][0], res[m['name']][-1]
        ex = sorted({x for v in r['broken'].values() for x in v if x.endswith('_ex') or x.endswith('_check_values') or x.startswith('test_')})
        out.write(json.dumps(dict(
            name=m['name'], definition=m['file'] + '.' + m['definition'],
            edit=m['edit'], old=m['old'], new=m['new'], claim=m['claim'],
            failed=r['failed'], examples_failed=ex,
            tightened=tight.get(m['name'], []),
            **({'failed_after_tightening': last['failed']} if m['name'] in tight else {})), ensure_ascii=False) + '\n')

TH = '/verif/rocq/theories/'


def theorems(files):
    """name -> statement and proof of the theorems in property files"""
    out = {}
    for f in files:
        t = open(f).read()
        for m in re.finditer(r'^Theorem (\w+)(.*?)Qed\.', t, re.M | re.S):
            out[m.group(1)] = m.group(2)
    return out


TEXT = theorems(sorted(glob.glob(TH + 'Props_Text_*.v')))


def c_function(file, line):
    """the function of the C text that the line belongs to"""
    name = file
    for i, l in enumerate(open('/repo/Src/' + file), 1):
        m = re.match(r'^(?:static )?(?:\w+ )*\*?(?:const )?\*?(\w+)\(', l)
        if m and not l.rstrip().endswith(';') and not l.startswith((' ', '#', '*', '/')):
            name = m.group(1)
        if i >= line:
            return name


FILES = {f.split('/')[-1][:-2]: open(f).read() for f in glob.glob(TH + '*.v')}
BLOCKS = {f: [(n, set(re.findall(r"[\w']+", b))) for n, b in re.findall(
    r"^ *(?:Lemma|Theorem|Corollary) ([\w']+)(.*?)(?:Qed|Defined)\.", t, re.M | re.S)] for f, t in FILES.items()}
DEPS = {f: {x for l in re.findall(r'From Verif Require [^.]*\.', t) for x in l.split() if x.rstrip('.') in FILES}
        for f, t in FILES.items()}
DEPS = {f: {x.rstrip('.') for x in d} for f, d in DEPS.items()}


def reached(f, lemma):
    """the property theorems whose proofs use the lemma, by names, through the files that import f"""
    above, bad, todo = {f}, {lemma}, True
    while todo:
        todo = False
        for g in FILES:
            if g not in above and DEPS[g] & above:
                above.add(g)
                todo = True
    todo = True
    while todo:
        todo = False
        for g in above:
            for n, b in BLOCKS[g]:
                if n not in bad and b & bad:
                    bad.add(n)
                    todo = True
    return sorted(n for g in above if g.startswith('Props_') for n, _ in BLOCKS[g] if n in bad)


with open('/verif/seeded/LOG.jsonl', 'a') as out:
    def put(**k):
        out.write(json.dumps(k, ensure_ascii=False) + '\n')
    ns = {}
    exec(open('/verif/seeded/cmutants.py').read(), ns)
    for m in ns['CMUTANTS']:
        rs = [r for r in res.get(m['name'], []) if r['status'] == 'ok']
        if not rs:
            continue
        fn = c_function(m['file'], m['line'])
        l = open('/repo/Src/' + m['file']).read().split('\n')[m['line'] - 1].strip()
        lemma = next(r['failed'] for r in rs if r['failed'])
        if lemma[1] == 'timeout':
            th = sorted(n for n, b in TEXT.items() if re.search(rf'\bc_{fn}\b', b))
        else:
            th = reached(*lemma)
        own = [x for x in th if x in TEXT]
        put(name=m['name'], definition=f'Src/{m["file"]}: {fn} (read again by tools/c2coq.py)',
            edit=f'line {m["line"]}: {l}', old=m['old'], new=m['new'],
            claim=f'{own[0].split("_")[0]} (the text of {fn} does what its model does)',
            failed=th, lemma='.'.join(lemma), examples_failed=rs[-1]['examples_failed'], tightened=[],
            **({'examples_failed_before_new_examples': rs[0]['examples_failed']}
               if not rs[0]['examples_failed'] else {}))
    exec(open('/verif/seeded/fmutants.py').read(), ns)
    for m in ns['FMUTANTS']:
        rs = [r for r in res.get(m['name'], []) if r['status'] == 'ok']
        if not rs:
            continue
        r = rs[-1]
        th = [x for x in r['failed'] if not x.endswith('_ex')]
        if r.get('lemma'):
            th = sorted(set(th) | set(reached(*r['lemma'].split('.'))))
        put(name=m['name'], definition='CFront', edit=m['claim'], old=m['old'], new=m['new'],
            claim='C104, C109, C110 (' + m['claim'] + ')', failed=th,
            lemma=r.get('lemma'), examples_failed=[x for x in r['failed'] if x.endswith('_ex')], tightened=[])
    for n, rs in res.items():
        r = rs[-1]
        if 'text' not in r or r['status'] != 'ok':
            continue
        th = sorted({x for f, l in r['broken'].items() for x in reached(f, l)})
        put(name=n, definition=f'{r["file"]}.{r["definition"]}', edit=f'line {r["line"]}: {r["text"].strip()}',
            old=r['old'], new=r['new'],
            claim='what ' + r['definition'] + ' computes (' + ', '.join(sorted({x.split('_')[0] for x in th}) or ['-']) + ')',
            failed=th, lemma=[f'{f}.{l}' for f, l in r['broken'].items()], examples_failed=r['examples'], tightened=[])
    for n, rs in res.items():
        r = rs[-1]
        if not n.startswith('s_C_Size32') or r['status'] != 'ok':
            continue
        th = reached(*r['lemma'].split('.')) if r['lemma'] else []
        put(name=n, definition=f'C_Size32.c32_{r["fn"]}', edit=f'line {r["line"]}', old=r['old'], new=r['new'],
            claim=f'C114 ({r["fn"]} with a 32-bit size_t does what it does with a 64-bit one)',
            failed=th, lemma=r['lemma'], examples_failed=r['failed'], tightened=[])
    exec(open('/verif/seeded/lmutants.py').read(), ns)
    for m in ns['LMUTANTS']:
        rs = [r for r in res.get(m['name'], []) if r['status'] == 'ok']
        if not rs:
            continue
        r = rs[-1]
        th = set(r['failed']) | {x for x in r['examples'] if x.endswith('_refuted')}
        if r['lemma']:
            th |= set(reached(*r['lemma'].split('.')))
        put(name=m['name'], definition='CLeak' if m['file'] == 'CLeak' else f'Src/{m["file"]} (read again by tools/c2coq.py)',
            edit=m['claim'], old=m['old'], new=m['new'], claim='C115 (' + m['claim'] + ')', failed=sorted(th),
            lemma=r['lemma'], examples_failed=[x for x in r['examples'] if x.endswith('_ex')], tightened=[],
            **({'examples_failed_before_new_examples': rs[0]['examples']} if rs[0]['examples'] != r['examples'] else {}))
