#!/usr/bin/env python3
"""Write Drive_Crc.v: the list of the CRC variants of the model with their parameters."""
import sys
sys.argv = sys.argv[:1] + ['/dev/null']
sys.path.insert(0, '/verif/tools')
import gen_crc
o = ['''(** * The CRC functions of the model as one list

    Each entry is a set of catalogued parameters, the table of the function and the function
    itself, called with the data, [crc_length], [final_crc] and [last_crc_ptr].  Functions
    without a [final_crc] argument ignore it.  Written by [/verif/tools/gen_drive_crc.py]. *)
From Verif Require Import CSem Model_Crc Model_CrcVariants Spec_Crc.

Record crc_variant := Crc_variant {
  params : crc_params;
  table_of : list Z;
  run : list Z -> Z -> bool -> option Z -> outcome Z }.

Definition crc_variants : list crc_variant :=''']
rows = []
for v in gen_crc.variants():
    n = v['name']
    p = n[0].lower() + n[1:]
    f = n if v['has_final'] else '(fun d n _ last => %s d n last)' % n
    rows.append('   Crc_variant %s %s_table %s' % (p, n, f))
o.append('  [' + ';\n'.join(rows)[3:] + '].\n')
o.append('''(** a message fed in pieces, each with what follows it in its memory: the result of each call
    is passed on, [final_crc] is set in the last only *)
Fixpoint run_pieces (V : crc_variant) (pieces : list (list Z * list Z)) (last : option Z)
  : outcome Z :=
  match pieces with
  | [] => Ok 0
  | [(msg, rest)] => run V (msg ++ rest) (len msg) true last
  | (msg, rest) :: pieces =>
      let! c := run V (msg ++ rest) (len msg) false last in run_pieces V pieces (Some c)
  end.
''')
open('/verif/rocq/theories/Drive_Crc.v', 'w').write('\n'.join(o))
