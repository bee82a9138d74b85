#!/usr/bin/env python3
"""Write rocq/theories/C_Size32.v: the functions of C_*.v that use size_t or strlen, for a target
whose size_t is unsigned int.  Props_Size32.v proves that they are what the front end reads."""
import glob
import re
import sys

T = '/verif/rocq/theories/'
HEAD = '''(** * The functions of [/repo/Src] that use [size_t], if it is [unsigned int]

    Written by tools/size32.py from C_*.v: [U64] is [U32], and the result of [strlen] is
    converted.  Lines of [/repo] as there. *)
From Verif Require Import CSem CLang C_Utils C_Base64 C_Containers C_Sort C_Crypto C_Json.
Local Open Scope list_scope.
'''


def wrap(s):
    """a cast around every call of strlen"""
    out, i = '', 0
    while True:
        j = s.find('(ELib LStrlen', i)
        if j < 0:
            return out + s[i:]
        k, n = j, 0
        while True:
            n += {'(': 1, ')': -1}.get(s[k], 0)
            k += 1
            if n == 0:
                break
        out += s[i:j] + '(ECast (TInt U32) ' + s[j] + wrap(s[j + 1:k]) + ')'
        i = k


def main():
    out, names = HEAD, []
    for f in sorted(glob.glob(T + 'C_*.v')):
        if f.endswith('C_Size32.v'):
            continue
        s = open(f).read()
        for m in re.finditer(r'((?:\(\*\*(?:(?!\*\)).)*\*\)\n)?)Definition (c_\w+) : fundef :=(.*?\.)\n(?=\n|Definition|\(\*|\Z)',
                             s, re.S):
            c, x, b = m.groups()
            if 'U64' in b or 'LStrlen' in b:
                names.append(x)
                b = wrap(b.replace('U64', 'U32'))
                for y in names[:-1]:
                    b = re.sub(rf'\b{y}\b', 'c32' + y[1:], b)
                out += f'\n{c}Definition c32{x[1:]} : fundef :={b}\n'
    open(sys.argv[1] if len(sys.argv) > 1 else T + 'C_Size32.v', 'w').write(out)
    print(len(names), 'functions')


if __name__ == '__main__':
    main()
