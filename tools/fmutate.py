#!/usr/bin/env python3
"""Try mutations of the front end CFront.v in a scratch copy and record what breaks.

usage: fmutate.py mutants.py out.jsonl [name ...]

mutants.py defines FMUTANTS, a list of dicts with keys name, old, new, claim.  The theorem
[program_ok] of Proof_Front.v (C104_program) and every example of Props_Front.v are evaluated on
the edited front end, and the proofs that the parser is the grammar (C109, C110) are compiled
again.
"""
import json, os, re, shutil, subprocess, sys
from concurrent.futures import ThreadPoolExecutor

SRC = os.environ.get('MUT_SRC', '/tmp/snap2/theories')
SCRATCH = '/tmp/fmut'


def coqc(d, f):
    try:
        r = subprocess.run(['coqc', '-q', '-Q', '.', 'Verif', f + '.v'], cwd=d, capture_output=True,
                           text=True, timeout=400)
        return r.returncode, r.stdout + r.stderr
    except subprocess.TimeoutExpired:
        return 124, ''


def soften(s, kinds):
    """every statement with a proof by computation, each reporting its own failure"""
    out = ''
    for m in re.finditer(rf'^({kinds}) (\w+)(.*?)\nProof\.(.*?)Qed\.', s, re.M | re.S):
        body = m.group(4).strip().rstrip('.')
        body = re.sub(r'\.\s+', '; ', body) if '\n' not in m.group(4).strip() else None
        if body is None:
            continue
        out += (f'{m.group(1)} {m.group(2)}{m.group(3)}\nProof. first [ solve [ {body} ] '
                f'| idtac "EXFAIL {m.group(2)}" ]. Abort.\n')
    return out


def run(m):
    d = f'{SCRATCH}/{m["name"]}'
    shutil.rmtree(d, ignore_errors=True)
    os.makedirs(d)
    s = open(SRC + '/CFront.v').read()
    n = s.count(m['old'])
    if n != 1:
        return dict(m, status=f'bad edit ({n} places)')
    for f in os.listdir(SRC):
        if f.endswith('.vo') and f not in ('CFront.vo', 'Drive_Front.vo', 'Proof_Front.vo') \
                and not re.search('Grammar|Lex|Prep', f):
            os.link(f'{SRC}/{f}', f'{d}/{f}')
    open(d + '/CFront.v', 'w').write(s.replace(m['old'], m['new']))
    shutil.copy(SRC + '/Drive_Front.v', d)
    for f in ('CFront', 'Drive_Front'):
        c, o = coqc(d, f)
        if c:
            shutil.rmtree(d)
            return dict(m, status=f + ' fails', msg=o[-300:])
    head = '''From Coq Require Import String.
From Verif Require Import CSem Lib CLang CFront CSystem C_Utils C_Crc Drive_Front.
Local Open Scope string_scope.
Local Open Scope list_scope.
'''
    props = open(SRC + '/Props_Front.v').read()
    t = head + '''Theorem C104_program : program repo [] sources = Some c_program.
Proof. first [ solve [ vm_compute; reflexivity ] | idtac "EXFAIL C104_program" ]. Abort.
''' + soften(props, 'Example')
    open(d + '/T.v', 'w').write(t + soften(
        re.search(r'^Example C113_refuse_ex.*?Qed\.', open(SRC + '/Props_Prep.v').read(), re.M | re.S).group(0),
        'Example'))
    c, o = coqc(d, 'T')
    failed = re.findall(r'EXFAIL (\w+)', o)
    lemma = None
    for f in ('Spec_Lex', 'Proof_Lex', 'Spec_Prep', 'Proof_Prep', 'Spec_Grammar', 'Spec_GrammarUnit', 'Proof_Grammar', 'Proof_GrammarAll',
              'Proof_GrammarUnit', 'Proof_GrammarUnitAll'):
        shutil.copy(f'{SRC}/{f}.v', d)
        c2, o2 = coqc(d, f)
        if c2:
            ln = re.search(r'line (\d+)', o2)
            t = open(f'{d}/{f}.v').read().split('\n')[:int(ln.group(1)) if ln else 0]
            names = re.findall(r'^(?:Lemma|Theorem|Local Lemma|  Lemma) (\w+)', '\n'.join(t), re.M)
            lemma = f + '.' + (names[-1] if names else '?')
            break
    shutil.rmtree(d)
    return dict(m, lemma=lemma, status='ok' if c == 0 else f'test file fails {c}: ' + o[-300:],
                failed=failed)


def main():
    ns = {}
    exec(open(sys.argv[1]).read(), ns)
    want = set(sys.argv[3:])
    ms = [m for m in ns['FMUTANTS'] if not want or m['name'] in want]
    done = set()
    if os.path.exists(sys.argv[2]):
        done = {json.loads(l)['name'] for l in open(sys.argv[2])}
    ms = [m for m in ms if m['name'] not in done]
    with ThreadPoolExecutor(int(os.environ.get('JOBS', '2'))) as ex:
        for r in ex.map(run, ms):
            with open(sys.argv[2], 'a') as f:
                f.write(json.dumps(r) + '\n')
            print(r['name'], r['status'], r.get('failed'), r.get('lemma'), r['claim'], r.get('msg', ''), flush=True)


if __name__ == '__main__':
    main()
