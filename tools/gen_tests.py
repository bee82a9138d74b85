#!/usr/bin/env python3
"""Transcribe the CRC and ChaCha20 tests of /repo/Tests into Examples about the model.

usage: gen_tests.py   (writes rocq/theories/Test_Crc.v and Test_Chacha.v)

Every assertion of the C files must be recognised; otherwise the script stops.
"""
import re
T = '/repo/Tests/'
OUT = '/verif/rocq/theories/'


def num(s):
    return s.rstrip('U')


def lst(xs, indent='   '):
    out, line = [], indent
    for i, x in enumerate(xs):
        item = x + ('; ' if i + 1 < len(xs) else '')
        if len(line) + len(item) > 96:
            out.append(line.rstrip())
            line = indent
        line += item
    out.append(line)
    return '\n'.join(out)


def crc():
    o = ['(** * The tests of [/repo/Tests/test_crc*.c] run on the model',
         '', '    Transcribed by [tools/gen_tests.py].  These are tests, not proofs of a property. *)',
         'From Verif Require Import CSem Model_Crc Model_CrcVariants.', '']
    n = 0
    for w in (8, 16, 32):
        src = open(T + f'test_crc{w}.c').read()
        asserts = len(re.findall(r'TEST_ASSERT', src))
        done = 0
        msgs = re.findall(r'static uint8_t message(\d)\[\] = \{([^}]*)\};', src)
        assert len(msgs) == 7
        for k, body in msgs:
            xs = [num(x.strip()) for x in body.split(',')]
            o.append(f'Definition crc{w}_message{k} : list Z := [{"; ".join(xs)}].')
        o.append('')
        for name, body in re.findall(r'^TEST\(Crc\d+, (\w+)\) \{\n(.*?)^\}', src, re.S | re.M):
            if name.endswith('tableCalculator'):
                tabs = re.findall(r'const uint\d+_t (\w+)\[256\] = \{([^}]*)\};', body) or re.findall(r'const uint\d+_t (\w+)\[256\] = \{([^}]*)\};', src)
                polys = re.findall(r'polynomial = (0x\w+?)U?;', body)
                assert len(tabs) == len(polys) == body.count('TEST_ASSERT')
                for i, ((t, b), p) in enumerate(zip(tabs, polys)):
                    xs = [num(x.strip()) for x in b.split(',')]
                    assert len(xs) == 256
                    if t == 'crc32_table':
                        o.append(f'Definition test_crc32_table : list Z := [\n{lst(xs)}].')
                    o.append(f'Example test_{name}_{i} :\n  {name} {p} (replicate 256 0)\n  = Ok [\n{lst(xs)}].\nProof. by vm_compute. Qed.')
                    done += 1
                continue
            if name.startswith('CRC32Base'):
                consts = dict(re.findall(r'(init_value|crc_xor_value) = (0x\w+?)U?;', src))
                goals = []
                for e, k, k2, a, b, c in re.findall(
                        r'TEST_ASSERT_EQUAL_HEX32\((0x\w+?)U?, Crc32Base\(crc32_table, message(\d), sizeof\(message(\d)\), '
                        r'init_value, crc_xor_value,\s*(\w+), (\w+), (\w+)\)\);', body):
                    assert k == k2
                    M = f'crc32_message{k}'
                    goals.append(f'Crc32Base test_crc32_table {M} (Z.of_nat (length {M})) {consts["init_value"]} {consts["crc_xor_value"]} {a} {b} {c} = Ok {e}')
                assert len(goals) == body.count('TEST_ASSERT'), name
                done += len(goals)
                o.append(f'Example test_{name} :\n  ' + ' /\\\n  '.join(goals) + '.\nProof. repeat split; by vm_compute. Qed.')
                continue
            goals = []
            for e, f, k, k2, fl in re.findall(r'TEST_ASSERT_EQUAL_HEX\d+\((0x\w+?)U?, (\w+)\(message(\d), sizeof\(message(\d)\), (?:(true|false), )?NULL_PTR\)\);', body):
                assert f == name and k == k2
                goals.append(f'{f} crc{w}_message{k} (Z.of_nat (length crc{w}_message{k})) {fl + " " if fl else ""}None = Ok {num(e)}')
            m = re.search(r'uint\d+_t crc_result = (\w+)\(&message(\d)\[0\], 2U, (?:(\w+), )?NULL_PTR\);\s*'
                          r'crc_result = \1\(&message\2\[2\], 5U, (?:(\w+), )?&crc_result\);\s*'
                          r'crc_result = \1\(&message\2\[7\], 2U, (?:(\w+), )?&crc_result\);\s*'
                          r'TEST_ASSERT_EQUAL_HEX\d+\((0x\w+?)U?, crc_result\);', body)
            assert m, name
            f, k, a, b, c, e = m.groups()
            assert f == name
            a, b, c = [x + ' ' if x else '' for x in (a, b, c)]
            M = f'crc{w}_message{k}'
            goals.append(f'(let! r := {f} {M} 2 {a}None in\n   let! r := {f} (skipn 2 {M}) 5 {b}(Some r) in\n   {f} (skipn 7 {M}) 2 {c}(Some r)) = Ok {num(e)}')
            assert len(goals) == body.count('TEST_ASSERT'), (name, len(goals))
            done += len(goals)
            o.append(f'Example test_{name} :\n  ' + ' /\\\n  '.join(goals) + '.\nProof. repeat split; by vm_compute. Qed.')
        assert done == asserts, (w, done, asserts)
        n += done
        o.append('')
    open(OUT + 'Test_Crc.v', 'w').write('\n'.join(o))
    print('crc assertions:', n)


def chacha():
    src = open(T + 'test_chacha20.c').read()
    o = ['(** * The tests of [/repo/Tests/test_chacha20.c] run on the model',
         '', '    Transcribed by [tools/gen_tests.py].  These are tests, not proofs of a property.',
         '    The plaintext and the result are placed one after the other in one memory. *)',
         'From Verif Require Import CSem Model_Crypto.', '']
    n = 0
    for name, body in re.findall(r'^TEST\(Chacha20, (\w+)\) \{\n(.*?)^\}', src, re.S | re.M):
        def arr(v, size):
            m = re.search(r'byte_t ' + v + r'\[\w*\] =\s*(?:\{([^"]*?)\}|\{?\s*("(?:[^"\\]|\\.)*")\s*\}?);', body, re.S)
            assert m, v
            if m.group(2):
                s = m.group(2)[1:-1].encode().decode('unicode_escape').encode('latin1')
                return [str(x) for x in s]
            xs = [num(x.strip()) for x in m.group(1).split(',')]
            if size:
                xs += ['0x00'] * (size - len(xs))
            return xs
        size = 64 if 'plaintext[64]' in body else None
        key, nonce = arr('key', 32), arr('nonce', 12)
        pt, ct = arr('plaintext', size), arr('expected_encrypted_msg', None)
        assert len(key) == 32 and len(nonce) == 12 and len(pt) == len(ct), (len(pt), len(ct))
        ctr = re.search(r'initial_block_counter = (\d+)U;', body).group(1)
        assert body.count('TEST_ASSERT') == 2
        L = len(pt)
        for v, xs in (('key', key), ('nonce', nonce), ('plain', pt), ('cipher', ct)):
            o.append(f'Definition {name}_{v} : list Z := [\n{lst(xs)}].')
        for a, b in (('plain', 'cipher'), ('cipher', 'plain')):
            o.append(f'Example test_{name}_{b} :\n  Chacha20_crypt ({name}_{a} ++ replicate {L} 0) 0 {L} {name}_key {name}_nonce {ctr} {L}\n  = Ok ({name}_{a} ++ {name}_{b}).\nProof. by vm_compute. Qed.')
            n += 1
        o.append('')
    open(OUT + 'Test_Chacha.v', 'w').write('\n'.join(o))
    print('chacha assertions:', n)


crc()
chacha()
