#!/usr/bin/env python3
"""Try edits of the functions in C_Size32.v (32-bit size_t) in a scratch copy and record what breaks.

usage: smutate.py out.jsonl step start

Every constant, operator and type of a new variable is changed in turn, of which every step-th is
tried, from start on.  The Refine32 file of the function is compiled against the edited term, and
the examples of Props_Size32.v are evaluated on it.
"""
import json, os, re, shutil, subprocess, sys
from concurrent.futures import ThreadPoolExecutor

SRC = os.environ.get('MUT_SRC', '/verif/rocq/theories')
SCRATCH = '/tmp/smut'
FILES = {'Base64_encode': ['Refine32_Base64'], 'Base64_decode': ['Refine32_Base64Dec'],
         'Map': ['Refine32_Map'], 'CaesarCipher': ['Refine32_Cipher'],
         'VernamCipher': ['Refine32_Cipher'], 'Json_findByKey': ['Refine32_JsonFind'],
         'Json': ['Refine32_Json'], 'InsertionSort': ['Refine32_Sort']}
NEEDS = {'Refine32_Base64Dec': ['Refine32_Base64'], 'Refine32_Json': ['Refine32_Cipher'],
         'Refine32_JsonFind': ['Refine32_Cipher', 'Refine32_Json', 'Refine32_Base64'],
         'Refine32_Sort': ['Refine32_Map']}
SWAP = {'Lt': 'Le', 'Le': 'Lt', 'Gt': 'Ge', 'Ge': 'Gt', 'Eq': 'Ne', 'Ne': 'Eq', 'Add': 'Sub',
        'Sub': 'Add', 'Mul': 'Add', 'Div': 'Mod', 'Mod': 'Div', 'Shl': 'Shr', 'Shr': 'Shl',
        'And': 'Or', 'Or': 'And'}


def coqc(d, f):
    try:
        r = subprocess.run(['coqc', '-q', '-Q', '.', 'Verif', f + '.v'], cwd=d, capture_output=True,
                           text=True, timeout=400)
        return r.returncode, r.stdout + r.stderr
    except subprocess.TimeoutExpired:
        return 124, ''


def soften(s):
    out = ''
    for m in re.finditer(r'^Example (\w+)(.*?)\nProof\.(.*?)Qed\.', s, re.M | re.S):
        body = re.sub(r'\.\s+', '; ', m.group(3).strip().rstrip('.'))
        out += (f'Example {m.group(1)}{m.group(2)}\nProof. first [ solve [ {body} ] '
                f'| idtac "EXFAIL {m.group(1)}" ]. Abort.\n')
    return out


def edits():
    s = open(SRC + '/C_Size32.v').read()
    for m in re.finditer(r'^Definition c32_(\w+) : fundef :=\n(.*?)\.\n', s, re.M | re.S):
        for e in re.finditer(r'ECst \w+ (\d+)|EBin (\w+)|SOp (\w+)|SInit \(TInt (U32)\)|EInc \w+ (1) ', m.group(2)):
            g = next(i for i in range(1, 6) if e.group(i))
            old = e.group(g)
            new = str(int(old) + 1) if g == 1 else SWAP[old] if g in (2, 3) else 'U16' if g == 4 else '2'
            a, b = m.start(2) + e.start(g), m.start(2) + e.end(g)
            line = s.count('\n', 0, a) + 1
            yield dict(name=f's_C_Size32:{line}:{a - s.rfind(chr(10), 0, a)}', fn=m.group(1), line=line,
                       old=e.group(0).strip(), new=(s[m.start(2) + e.start():a] + new).strip(),
                       at=[a, b], put=new)


def run(m):
    d = f'{SCRATCH}/{m["name"].replace(":", "_")}'
    shutil.rmtree(d, ignore_errors=True)
    os.makedirs(d)
    s = open(SRC + '/C_Size32.v').read()
    files = next(v for k, v in FILES.items() if m['fn'].startswith(k))
    for f in os.listdir(SRC):
        if f.endswith('.vo') and not re.search('Size32|Refine32', f):
            os.link(f'{SRC}/{f}', f'{d}/{f}')
    for f in ('CSize32', 'Drive_Size32'):
        shutil.copy(f'{SRC}/{f}.v', d)
    open(d + '/C_Size32.v', 'w').write(s[:m['at'][0]] + m['put'] + s[m['at'][1]:])
    for f in ('CSize32', 'C_Size32', 'Drive_Size32'):
        c, o = coqc(d, f)
        if c:
            shutil.rmtree(d)
            return dict(m, status=f + ' fails', msg=o[-300:])
    props = open(SRC + '/Props_Size32.v').read()
    head = re.sub(r'\b(Proof_Size32)\b', '', props[:props.index('(** the text read')])
    open(d + '/T.v', 'w').write(head + soften(props))
    c, o = coqc(d, 'T')
    failed = re.findall(r'EXFAIL (\w+)', o)
    lemma = None
    for f in [*NEEDS.get(files[0], []), *files]:
        t = open(f'{SRC}/{f}.v').read()
        if f not in files:  # only its statements and tactics are needed
            t = re.sub(r'Proof\..*?Qed\.', 'Admitted.', t, flags=re.S)
        open(f'{d}/{f}.v', 'w').write(t)
        c2, o2 = coqc(d, f)
        if c2:
            ln = re.search(r'line (\d+)', o2)
            t = t.split('\n')[:int(ln.group(1)) if ln else 0]
            names = re.findall(r'^ *(?:Lemma|Theorem|Local Lemma) (\w+)', '\n'.join(t), re.M)
            lemma = f + '.' + (names[-1] if names else '?')
            msg = o2[-200:]
            break
    shutil.rmtree(d)
    return dict(m, lemma=lemma, status='ok' if c == 0 else f'test file fails {c}: ' + o[-300:],
                failed=failed, **({'err': msg} if lemma else {}))


def main():
    ms = list(edits())
    print(len(ms), 'edits')
    ms = ms[int(sys.argv[3])::int(sys.argv[2])]
    done = set()
    if os.path.exists(sys.argv[1]):
        done = {json.loads(l)['name'] for l in open(sys.argv[1])}
    ms = [m for m in ms if m['name'] not in done]
    with ThreadPoolExecutor(int(os.environ.get('JOBS', '1'))) as ex:
        for r in ex.map(run, ms):
            with open(sys.argv[1], 'a') as f:
                f.write(json.dumps(r) + '\n')
            print(r['name'], r['fn'], r['old'], '->', r['new'], r['status'], r.get('failed'), r.get('lemma'), r.get('msg', ''), flush=True)


if __name__ == '__main__':
    main()
