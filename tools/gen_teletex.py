#!/usr/bin/env python3
"""Extract DECODING_TABLE of /repo/asn1crypto/_teletex_codec.py (as text) into TeletexTable.v."""
import ast, os
ROOT = os.path.dirname(os.path.dirname(os.path.abspath(__file__)))
for n in ast.parse(open('/repo/asn1crypto/_teletex_codec.py').read()).body:
    if isinstance(n, ast.Assign) and n.targets[0].id == 'DECODING_TABLE':
        table = ast.literal_eval(n.value)
with open(os.path.join(ROOT, 'rocq/theories/TeletexTable.v'), 'w') as f:
    f.write('(* Generated by tools/gen_teletex.py from /repo/asn1crypto/_teletex_codec.py:71-329. *)\n')
    f.write('Require Import Verif.Base.\n\n(* DECODING_TABLE: code point of each byte, 65534 (U+FFFE) = undefined *)\n')
    f.write('Definition teletex_table : list Z :=\n  [')
    for i, c in enumerate(table):
        f.write(('; ' if i % 16 else ';\n   ') * (i > 0) + str(ord(c)))
    f.write('].\n')
