#!/usr/bin/env python3
"""Transcribe the CRC variants of /repo/Src/crc/*_variants/*.c into Model_CrcVariants.v.

Only text is read: the table literals, the #defines and the (strictly matched) body of
each function.  Anything that does not match one of the expected shapes is an error.
"""
import glob, os, re, sys

OUT = sys.argv[1] if len(sys.argv) > 1 else '/verif/rocq/theories/Model_CrcVariants.v'

def line_of(s, pos):
    return s.count('\n', 0, pos) + 1

def variants():
    for w in (8, 16, 32):
        for f in sorted(glob.glob('/repo/Src/crc/crc%d_variants/*.c' % w)):
            s = open(f).read()
            d = dict(re.findall(r'^#define (\w+) \((\w+)\)$', s, re.M))
            init, fx = d['INITIAL_CRC%d_VALUE' % w], d['FINAL_XOR_VALUE']
            ro, ri, fin = d['REFLECTED_OUTPUT'], d['REFLECTED_INPUT'], d['FINAL_XOR']
            m = re.search(r'^uint%d_t\n(Crc\w+)\(\n\s+const uint8_t\* crc_data_ptr,\n\s+uint32_t crc_length,\n'
                          r'(\s+bool final_crc,\n)?\s+const uint%d_t\* last_crc_ptr\) \{' % (w, w), s, re.M)
            name, has_final = m.group(1), bool(m.group(2))
            fstart = line_of(s, m.start())
            t = re.search(r'static const uint%d_t crc_table\[256\] = \{(.*?)\};' % w, s, re.S)
            table = [x.strip() for x in t.group(1).split(',')]
            assert len(table) == 256 and all(re.fullmatch(r'0x[0-9A-Fa-f]+U?', x) for x in table), f
            body = re.sub(r'\s+', ' ', s[t.end():]).strip()
            gate_r = 'reflect_output = REFLECTED_OUTPUT;' in body
            gate_x = 'final_xor = FINAL_XOR;' in body
            exp = ''
            if gate_r: exp += 'bool reflect_output = false; '
            if gate_x: exp += 'bool final_xor = false; '
            exp += 'uint%d_t crc_initial_value = INITIAL_CRC%d_VALUE; ' % (w, w)
            exp += 'if (NULL_PTR != last_crc_ptr) { crc_initial_value = *last_crc_ptr; } '
            if has_final:
                exp += 'if (final_crc) { '
                if gate_r: exp += 'reflect_output = REFLECTED_OUTPUT; '
                if gate_x: exp += 'final_xor = FINAL_XOR; '
                exp += '} '
            exp += ('return Crc%dBase( crc_table, crc_data_ptr, crc_length, crc_initial_value, '
                    'FINAL_XOR_VALUE, %s, REFLECTED_INPUT, %s ); }' % (
                        w, 'reflect_output' if gate_r else 'REFLECTED_OUTPUT',
                        'final_xor' if gate_x else 'FINAL_XOR'))
            assert body == exp, (f, body, exp)
            yield dict(w=w, f=os.path.relpath(f, '/repo/Src'), name=name, has_final=has_final,
                       init=init.rstrip('U'), fx=fx.rstrip('U'), ro=ro, ri=ri, fin=fin,
                       gate_r=gate_r, gate_x=gate_x, table=[x.rstrip('U') for x in table],
                       l_table=(line_of(s, t.start()), line_of(s, t.end())),
                       l_fun=(fstart, s.rstrip().count('\n') + 1),
                       l_def=line_of(s, s.index('#define INITIAL')))

def main():
    o = []
    o.append('(** * Model of the 45 CRC variants, [/repo/Src/crc/*_variants/*.c]\n\n'
             '    Transcribed from the C text by [/verif/tools/gen_crc.py].  [crc_data] is the object\n'
             '    [crc_data_ptr] points at; [last_crc] is the pointee of [last_crc_ptr], [None] is\n'
             '    [NULL_PTR]. *)\n'
             'From Verif Require Import CSem Model_Crc.\n')
    vs = list(variants())
    for v in vs:
        per = {8: 12, 16: 10, 32: 7}[v['w']]
        rows = [v['table'][i:i + per] for i in range(0, 256, per)]
        o.append('(** %s:%d-%d, the array [crc_table] *)' % ((v['f'],) + v['l_table']))
        o.append('Definition %s_table : list Z :=\n  [%s].\n' % (
            v['name'], ';\n   '.join('; '.join(r) for r in rows)))
        args = '(crc_data : list Z) (crc_length : Z)'
        if v['has_final']: args += ' (final_crc : bool)'
        args += '\n    (last_crc : option Z)'
        o.append('(** %s:%d-%d; constants: %s:%d-%d *)' % (
            v['f'], v['l_fun'][0], v['l_fun'][1], v['f'], v['l_def'], v['l_def'] + 4))
        o.append('Definition %s %s : outcome Z :=' % (v['name'], args))
        o.append('  let crc_initial_value := match last_crc with Some c => c | None => %s end in' % v['init'])
        if v['gate_r']: o.append('  let reflect_output := if final_crc then %s else false in' % v['ro'])
        if v['gate_x']: o.append('  let final_xor := if final_crc then %s else false in' % v['fin'])
        o.append('  Crc%dBase %s_table crc_data crc_length crc_initial_value %s %s %s %s.\n' % (
            v['w'], v['name'], v['fx'], 'reflect_output' if v['gate_r'] else v['ro'],
            v['ri'], 'final_xor' if v['gate_x'] else v['fin']))
    open(OUT, 'w').write('\n'.join(o))
    return vs

if __name__ == '__main__':
    print(len(main()), 'variants')
