#!/usr/bin/env python3
"""Try mutations of the C text in a scratch copy of /repo and record which proof breaks.

usage: cmutate.py mutants.py out.jsonl [name ...]

mutants.py defines CMUTANTS, a list of dicts with keys name, file (under Src), line, old, new,
claim.  The edit is made in a scratch copy of the C text, the text is translated again by
c2coq.py, the proofs about it are compiled up to the first that fails, and the examples of the
Props_Text files are evaluated on the edited program.  With EXAMPLES=1 the proofs are left out.
"""
import json, os, re, shutil, subprocess, sys
from concurrent.futures import ThreadPoolExecutor

SRC = os.environ.get('MUT_SRC', '/tmp/snap/theories')
SCRATCH = '/tmp/cmut'
TIMEOUT = 400
# C file -> (translated file, proof files in order, files with the examples)
MODS = [
    ('utils.c', 'C_Utils', ['Refine_Utils'], ['Props_Text_Utils']),
    ('bit_manipulation.c', 'C_Utils', ['Refine_Utils'], ['Props_Text_Utils']),
    ('base64.c', 'C_Base64', ['Refine_Base64', 'Refine_Base64Dec', 'Refine_Base64Place'],
     ['Props_Text_Base64']),
    ('queue.c', 'C_Containers', ['Refine_Queue'], ['Props_Text_Queue']),
    ('priority_queue.c', 'C_Containers', ['Refine_Queue', 'Refine_PQ', 'Refine_PQEnq'],
     ['Props_Text_PQ']),
    ('map.c', 'C_Containers', ['Refine_Queue', 'Refine_Map', 'Refine_MapOps', 'Refine_MapInit'],
     ['Props_Text_Map']),
    ('scheduler.c', 'C_Containers', ['Refine_Queue', 'Refine_Sched'], ['Props_Text_Sched']),
    ('sort/bubble_sort.c', 'C_Sort', ['Refine_Sort'], ['Props_Text_Sort']),
    ('sort/selection_sort.c', 'C_Sort', ['Refine_Sort'], ['Props_Text_Sort']),
    ('sort/insertion_sort.c', 'C_Sort', ['Refine_Sort', 'Refine_SortInsert'], ['Props_Text_Sort']),
    ('sort/heap_sort.c', 'C_Sort', ['Refine_Sort', 'Refine_SortHeapify', 'Refine_SortHeap'],
     ['Props_Text_Sort']),
    ('crypto/caesar_cipher.c', 'C_Crypto', ['Refine_Cipher'], ['Props_Text_Crypto']),
    ('crypto/vernam_cipher.c', 'C_Crypto', ['Refine_Cipher'], ['Props_Text_Crypto']),
    ('crypto/chacha20.c', 'C_Crypto', ['Refine_Chacha', 'Refine_ChachaBlock', 'Refine_ChachaCrypt'],
     ['Props_Text_Crypto']),
    ('crc/crc8_base.c', 'C_Crc', ['Refine_Crc'], ['Props_Text_Crc']),
    ('crc/crc16_base.c', 'C_Crc', ['Refine_Crc'], ['Props_Text_Crc']),
    ('crc/crc32_base.c', 'C_Crc', ['Refine_Crc'], ['Props_Text_Crc']),
    ('json.c', 'C_Json', ['Refine_Json', 'Refine_JsonFind'], ['Props_Text_Json']),
]
CHAIN = {'C_Crc': ['C_CrcVariants']}      # imported by the examples


def coqc(d, f):
    try:
        r = subprocess.run(['coqc', '-q', '-Q', '.', 'Verif', f + '.v'], cwd=d, capture_output=True,
                           text=True, timeout=TIMEOUT)
        return r.returncode, r.stdout + r.stderr
    except subprocess.TimeoutExpired:
        return 124, ''


def lemma_at(path, line):
    name = None
    for i, l in enumerate(open(path), 1):
        m = re.match(r'\s*(?:Lemma|Theorem|Example|Definition)\s+(\w+)', l)
        if m:
            name = m.group(1)
        if i >= line:
            return name


def examples(path, cmod, proofs):
    s = open(path).read()
    head = s[:re.search(r'^(Theorem|Example)', s, re.M).start()]
    head = re.sub(r'\bRefine_\w+', '', head)
    out = head
    if cmod == 'C_Crypto':      # used by the examples, and in a file that may not compile
        out += 'Local Definition cells (xs : list Z) : mem := (fun x => ints 32 [x]) <$> xs.\n'
    for m in re.finditer(r'^Example (\w+)(.*?)\nProof\.(.*?)Qed\.', s, re.M | re.S):
        body = re.sub(r'\.\s+', '; ', m.group(3).strip()).rstrip('.')
        out += (f'Example {m.group(1)}{m.group(2)}\nProof. first [ solve [ {body} ] '
                f'| idtac "EXFAIL {m.group(1)}" ]. Abort.\n')
    return out


def run(m):
    d = f'{SCRATCH}/{m["name"]}'
    shutil.rmtree(d, ignore_errors=True)
    os.makedirs(d)
    shutil.copytree('/repo/Src', d + '/repo/Src')
    shutil.copytree('/repo/Inc', d + '/repo/Inc')
    p = f'{d}/repo/Src/{m["file"]}'
    lines = open(p).read().split('\n')
    l = lines[m['line'] - 1]
    if l.count(m['old']) < 1:
        return dict(m, status='bad edit')
    k = m.get('occ', 0)
    i = -1
    for _ in range(k + 1):
        i = l.index(m['old'], i + 1)
    lines[m['line'] - 1] = l[:i] + m['new'] + l[i + len(m['old']):]
    open(p, 'w').write('\n'.join(lines))
    th = d + '/theories'
    os.makedirs(th)
    for f in os.listdir(SRC):
        if f.endswith('.vo'):
            os.link(f'{SRC}/{f}', f'{th}/{f}')
    tool = open('/verif/tools/c2coq.py').read()
    tool = tool.replace("REPO = '/repo'", f"REPO = '{d}/repo'")
    tool = re.sub(r'^OUT = .*$', f"OUT = '{th}'", tool, flags=re.M)
    open(d + '/t.py', 'w').write(tool)
    r = subprocess.run(['python3', d + '/t.py'], capture_output=True, text=True)
    res = dict(m)
    if r.returncode:
        shutil.rmtree(d)
        return dict(res, status='not translated', msg=r.stderr[-200:])
    cmod, proofs, exs = next((a, b, c) for f, a, b, c in MODS if f == m['file'])
    same = open(f'{th}/{cmod}.v').read() == open(f'{SRC}/{cmod}.v').read()
    if same:
        shutil.rmtree(d)
        return dict(res, status='same text')
    for f in [cmod] + CHAIN.get(cmod, []):
        os.path.exists(f'{th}/{f}.vo') and os.remove(f'{th}/{f}.vo')
        c, o = coqc(th, f)
        if c:
            shutil.rmtree(d)
            return dict(res, status='C file fails', msg=o[-300:])
    exf = []
    for e in exs:
        open(f'{th}/Ex_{e}.v', 'w').write(examples(f'{SRC}/{e}.v', cmod, proofs))
        c, o = coqc(th, 'Ex_' + e)
        if c:
            exf.append('examples do not compile: ' + o[-200:])
        exf += re.findall(r'EXFAIL (\w+)', o)
    failed = None
    for f in [] if os.environ.get('EXAMPLES') else proofs:
        os.path.exists(f'{th}/{f}.vo') and os.remove(f'{th}/{f}.vo')
        shutil.copy(f'{SRC}/{f}.v', f'{th}/{f}.v')
        c, o = coqc(th, f)
        if c == 124:
            failed = (f, 'timeout')
            break
        if c:
            g = re.search(r'File "[^"]*", line (\d+)', o)
            failed = (f, lemma_at(f'{th}/{f}.v', int(g.group(1))) if g else '?')
            break
    shutil.rmtree(d)
    return dict(res, status='ok', failed=failed, examples_failed=exf)


def main():
    ns = {}
    exec(open(sys.argv[1]).read(), ns)
    want = set(sys.argv[3:])
    ms = [m for m in ns['CMUTANTS'] if not want or m['name'] in want]
    done = set()
    if os.path.exists(sys.argv[2]):
        done = {json.loads(l)['name'] for l in open(sys.argv[2])}
    ms = [m for m in ms if m['name'] not in done]
    with ThreadPoolExecutor(int(os.environ.get('JOBS', '2'))) as ex:
        for r in ex.map(run, ms):
            with open(sys.argv[2], 'a') as f:
                f.write(json.dumps(r) + '\n')
            print(r['name'], r['file'], r['line'], r['old'], '->', r['new'], r['status'],
                  r.get('failed'), r.get('examples_failed'), r.get('msg', ''), flush=True)


if __name__ == '__main__':
    main()
