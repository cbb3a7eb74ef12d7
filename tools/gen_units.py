#!/usr/bin/env python3
"""Prints the unit tables of mbus-protocol-aux.c (42-748) as Coq definitions (used once to write MUnit.v)."""
import re, sys
from fractions import Fraction
src = open('/repo/mbus/mbus-protocol-aux.c', encoding='utf-8').read().split('\n')
def table(name, lo, hi):
    rows = []
    for i in range(lo-1, hi):
        m = re.match(r'\s*\{\s*(0x[0-9A-Fa-f]+)\s*,\s*([-+.0-9eE]+)\s*,\s*"([^"]*)"\s*,\s*"([^"]*)"\s*\}', src[i])
        if m:
            v, e, u, q = m.groups()
            f = Fraction(e)
            fs = f'({f.numerator} # {f.denominator})'
            rows.append(f'   mkU {v} {fs} (cstr "{u}") (cstr "{q}")')
    return f'Definition {name} : list urow :=\n  [' + ';\n'.join(rows).lstrip() + '].\n'
print(table('vif_table', 42, 670))
print('(** mbus-protocol-aux.c 673-748. *)')
print(table('fixed_table', 672, 748))
