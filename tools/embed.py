#!/usr/bin/env python3
"""Copy the C text of /repo into Coq strings (files Text_*.v), character by character.

The only change is that a double quote is written twice, which is how Coq writes one inside a
string.  `embed.py --check` compares the committed files with /repo instead of writing them.
"""
import os, sys

REPO = '/repo'
OUT = os.path.join(os.path.dirname(os.path.abspath(__file__)), '..', 'rocq', 'theories')


def variants(n):
    return sorted(f for f in os.listdir(f'{REPO}/Src/crc/crc{n}_variants') if f.endswith('.c'))


GROUPS = [
    ('Text_Headers', 'Inc', ['typedefs.h', 'misra_c_2012_doc.h', 'utils.h', 'bit_manipulation.h',
                             'base64.h', 'queue.h', 'priority_queue.h', 'map.h', 'scheduler.h',
                             'json.h']
     + [f'sort/{x}_sort.h' for x in ('bubble', 'insertion', 'selection', 'heap')]
     + [f'crypto/{x}.h' for x in ('caesar_cipher', 'vernam_cipher', 'chacha20')]
     + [f'crc/crc{n}_base.h' for n in (8, 16, 32)]),
    ('Text_HeadersCrc', 'Inc', [f'crc/crc{n}_variants/{f[:-2]}.h' for n in (8, 16, 32)
                                for f in variants(n)]),
    ('Text_Utils', 'Src', ['utils.c', 'bit_manipulation.c', 'base64.c', 'json.c']),
    ('Text_Containers', 'Src', ['queue.c', 'priority_queue.c', 'map.c', 'scheduler.c']),
    ('Text_Sort', 'Src', [f'sort/{x}_sort.c' for x in ('bubble', 'insertion', 'selection',
                                                       'heap')]),
    ('Text_Crypto', 'Src', [f'crypto/{x}.c' for x in ('caesar_cipher', 'vernam_cipher',
                                                      'chacha20')]),
    ('Text_Crc', 'Src', [f'crc/crc{n}_base.c' for n in (8, 16, 32)]),
] + [(f'Text_Crc{n}', 'Src', [f'crc/crc{n}_variants/{f}' for f in variants(n)])
     for n in (8, 16, 32)]


def ident(f):
    return 'text_' + os.path.basename(f).replace('.', '_')


def render(mod, d, fs):
    out = [f'''(** * The text of files in [/repo/{d}]

    Copied by [/verif/tools/embed.py], which changes nothing but writes each double quote twice
    (that is how Coq writes one inside a string); [embed.py --check] compares. *)
From Coq Require Import String.
Local Open Scope string_scope.
''']
    for f in fs:
        s = open(f'{REPO}/{d}/{f}', newline='').read()
        s.encode('ascii')
        out.append(f'(** {d}/{f} *)\nDefinition {ident(f)} : string :=\n"'
                   + s.replace('"', '""') + '".\n')
    out.append(f'(** the files by name *)\nDefinition {mod.lower()} : list (string * string) :=\n  ('
               + '\n   :: '.join(f'("{os.path.basename(f)}", {ident(f)})' for f in fs)
               + '\n   :: nil)%list.\n')
    return '\n'.join(out)


def main():
    bad = 0
    for g in GROUPS:
        p = os.path.join(OUT, g[0] + '.v')
        t = render(*g)
        if '--check' in sys.argv:
            same = os.path.exists(p) and open(p, newline='').read() == t
            print(g[0], 'equal' if same else 'DIFFERENT')
            bad += not same
        else:
            open(p, 'w', newline='').write(t)
    sys.exit(bad)


if __name__ == '__main__':
    main()
