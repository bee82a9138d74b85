#!/usr/bin/env python3
"""Try edits against the theorems about what a run gives away (C115) and record what breaks.

usage: lmutate.py mutants.py out.jsonl [name ...]

mutants.py defines LMUTANTS, a list of dicts with keys name, file, old, new, claim.  If file is
CLeak, the events are edited, and the proofs and examples are compiled against the edited file.
Otherwise the edit is made in a scratch copy of the C text (file under Src); the text is translated
again, the functions of C115 are checked again, and the examples are evaluated on the edited
program.
"""
import json, os, re, shutil, subprocess, sys

SRC = os.environ.get('MUT_SRC', '/verif/rocq/theories')
SCRATCH = '/tmp/lmut'
PROOFS = ['Proof_Leak', 'Proof_LeakSame', 'Proof_LeakFuns']
CHECKS = {'C115_Chacha20_crypt': ['[true; true; true; true; false; true] c_Chacha20_crypt'],
          'C115_Block': ['[true; false; true; true] c_Block'],
          'C115_memory': ['[true; true; true; true] c_QuarterRound', '[true; true; true] c_Utils_swapElements']
          + [f'[true] c_Utils_deserialize{x}' for x in ('8', '16BE', '24BE', '32BE', '16LE', '24LE', '32LE')]
          + [f'[true; true; true] c_Utils_{x}erializeBlob{y}E' for x in ('s', 'des') for y in 'BL'],
          'C115_serialize': [f'[true; false] c_Utils_serialize{x}'
                             for x in ('8', '16BE', '24BE', '32BE', '16LE', '24LE', '32LE')],
          'C115_bits': [f'[false; true; true] c_BitManipulation_{x}'
                        for x in ('bitSet', 'setBit', 'clearBit', 'toggleBit')],
          'C115_rotl32': ['[false; true] c_BitManipulation_rotl32']}


def coqc(d, f):
    try:
        r = subprocess.run(['coqc', '-q', '-Q', '.', 'Verif', f + '.v'], cwd=d, capture_output=True,
                           text=True, timeout=300)
        return r.returncode, r.stdout + r.stderr
    except subprocess.TimeoutExpired:
        return 124, ''


def soften():
    s = open(SRC + '/Props_Leak.v').read()
    s = s.replace('Proof_LeakSame Proof_LeakFuns.', '.')
    out = s[:re.search(r'^Theorem', s, re.M).start()]
    for m in re.finditer(r'^(?:Example|Theorem) (\w+)(.*?)\nProof\.(.*?)Qed\.', s, re.M | re.S):
        body = re.sub(r'\.\s+', '; ', m.group(3).strip().rstrip('.'))
        if not body.startswith('exact'):
            out += (f'Example {m.group(1)}{m.group(2)}\nProof. first [ solve [ {body} ] '
                    f'| idtac "EXFAIL {m.group(1)}" ]. Abort.\n')
    return out


def lemma_at(path, line):
    name = None
    for i, l in enumerate(open(path), 1):
        m = re.match(r'\s*(?:Lemma|Theorem|Example|Definition|Fixpoint|Ltac)\s+(\w+)', l)
        if m:
            name = m.group(1)
        if i >= line:
            return name


def run(m):
    d = f'{SCRATCH}/{m["name"]}'
    th = d + '/theories'
    shutil.rmtree(d, ignore_errors=True)
    os.makedirs(th)
    gone = {'CLeak', *PROOFS, 'Props_Leak'} if m['file'] == 'CLeak' else {'C_Utils', 'C_Crypto', 'C_Base64', 'C_Json', 'C_Crc', 'C_CrcVariants'}
    for f in os.listdir(SRC):
        if f.endswith('.vo') and f[:-3] not in gone:
            os.link(f'{SRC}/{f}', f'{th}/{f}')
    lemma, failed = None, []
    if m['file'] == 'CLeak':
        s = open(SRC + '/CLeak.v').read()
        if s.count(m['old']) != 1:
            return dict(m, status='bad edit')
        open(th + '/CLeak.v', 'w').write(s.replace(m['old'], m['new']))
        c, o = coqc(th, 'CLeak')
        if c:
            return dict(m, status='CLeak fails', msg=o[-300:])
        for f in PROOFS:
            shutil.copy(f'{SRC}/{f}.v', th)
            c, o = coqc(th, f)
            if c:
                g = re.search(r'line (\d+)', o)
                lemma = f + '.' + str(lemma_at(f'{th}/{f}.v', int(g.group(1)))) if g else f + '.timeout'
                break
    else:
        shutil.copytree('/repo/Src', d + '/repo/Src')
        shutil.copytree('/repo/Inc', d + '/repo/Inc')
        p = f'{d}/repo/Src/{m["file"]}'
        s = open(p).read()
        if s.count(m['old']) != 1:
            return dict(m, status='bad edit')
        open(p, 'w').write(s.replace(m['old'], m['new']))
        tool = open('/verif/tools/c2coq.py').read()
        tool = tool.replace("REPO = '/repo'", f"REPO = '{d}/repo'")
        tool = re.sub(r'^OUT = .*$', f"OUT = '{th}'", tool, flags=re.M)
        open(d + '/t.py', 'w').write(tool)
        r = subprocess.run(['python3', d + '/t.py'], capture_output=True, text=True)
        if r.returncode:
            return dict(m, status='not translated', msg=r.stderr[-200:])
        for f in ('C_Utils', 'C_Crypto', 'C_Base64', 'C_Json', 'C_Crc', 'C_CrcVariants'):
            c, o = coqc(th, f)
            if c:
                return dict(m, status='C file fails', msg=o[-300:])
        # only the definition of the check: the proofs depend on files about the unedited text
        t = open(SRC + '/Proof_Leak.v').read()
        t = re.sub(r' Proof_\w+', '', t[:t.index('(** ** Related values')])
        t += 'From Verif Require Import C_Utils C_Crypto.\n'
        for n, l in CHECKS.items():
            for x in l:
                t += f'Goal ct_f {x} = true. first [ solve [ vm_compute; reflexivity ] | idtac "CTFAIL {n}" ]. Abort.\n'
        open(th + '/T1.v', 'w').write(t)
        c, o = coqc(th, 'T1')
        if c:
            return dict(m, status='check does not compile', msg=o[-300:])
        failed = sorted(set(re.findall(r'CTFAIL (\w+)', o)))
    open(th + '/T.v', 'w').write(soften())
    c, o = coqc(th, 'T')
    exs = re.findall(r'EXFAIL (\w+)', o) + (['examples do not compile: ' + o[-300:]] if c else [])
    shutil.rmtree(d)
    return dict(m, status='ok', lemma=lemma, failed=failed, examples=exs)


def main():
    ns = {}
    exec(open(sys.argv[1]).read(), ns)
    want = set(sys.argv[3:])
    for m in ns['LMUTANTS']:
        if want and m['name'] not in want:
            continue
        r = run(m)
        print(r['name'], r['status'], r.get('lemma'), r.get('failed'), r.get('examples'), r.get('msg', ''), flush=True)
        with open(sys.argv[2], 'a') as f:
            f.write(json.dumps(r) + '\n')


main()
