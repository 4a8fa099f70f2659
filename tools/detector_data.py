#!/usr/bin/env python3
"""Write rocq/theories/M_DetectorData.v from the tables of the detector.

The tables are literals in /repo/egenerator/utils/detector.py and
dom_noise_rates.py; they are read as text, nothing is executed.  Decimals are
written as integers: lengths and efficiencies in hundredths, noise rates in
units of 1e-26 Hz.
"""
import ast
import os
import re
from decimal import Decimal

UTILS = '/repo/egenerator/utils/'
OUT = os.path.join(os.path.dirname(__file__), '../rocq/theories/M_DetectorData.v')


def integer(text, digits):
    d = Decimal(text).scaleb(digits)
    assert d == d.to_integral_value(), text
    return int(d)


def literals(name):
    """Text of the numbers and the lines of an assignment."""
    for node in ast.parse(source).body:
        if isinstance(node, ast.Assign) and getattr(node.targets[0], 'id', None) == name:
            value = ast.literal_eval(node.value)
            return value, '%d-%d' % (node.lineno, node.end_lineno)


def flat(x):
    for y in x:
        if isinstance(y, list):
            yield from flat(y)
        else:
            yield y


def rows(numbers, width):
    numbers = list(numbers)
    assert len(numbers) % width == 0
    return ';\n  '.join('[' + '; '.join(map(str, numbers[i:i + width])) + ']' for i in range(0, len(numbers), width))


def pair(p):
    return '(%d, %d)' % p


source = open(UTILS + 'detector.py').read()
out = ['(** Tables of the detector, written by tools/detector_data.py from the text of',
       '    /repo/egenerator/utils/detector.py and dom_noise_rates.py. *)',
       'From Coq Require Import ZArith List.', 'Import ListNotations.', 'Open Scope Z_scope.', '']
for name, width, comment in [('x_coords_flat', 180, 'in hundredths of a metre, 180 numbers (one string) per line'),
                             ('X_IC79_coords_flat', 180, 'in hundredths of a metre, 180 numbers (one cell) per line'),
                             ('rel_dom_eff', 60, 'in hundredths'),
                             ('rel_dom_eff_without_bad_doms', 60, 'in hundredths')]:
    value, lines = literals(name)
    out += ['(** [%s] (detector.py l.%s) %s *)' % (name, lines, comment), 'Definition %s_lines : list (list Z) := [' % name,
            '  ' + rows((integer(repr(v), 2) for v in flat(value)), width) + '].', '']
value, lines = literals('string_hex_coord_dict')
out += ['(** [string_hex_coord_dict] (detector.py l.%s) *)' % lines, 'Definition string_hex_coord_dict : list (Z * (Z * Z)) := [',
        '  ' + '; '.join('(%d, %s)' % (k, pair(v)) for k, v in value.items()) + '].', '']
value, lines = literals('hex_coord_string_dict')
out += ['(** [hex_coord_string_dict] (detector.py l.%s) *)' % lines, 'Definition hex_coord_string_dict : list ((Z * Z) * Z) := [',
        '  ' + '; '.join('(%s, %d)' % (pair(k), v) for k, v in value.items()) + '].', '']
noise = open(UTILS + 'dom_noise_rates.py').read()
noise = noise[noise.index('{') + 1:noise.rindex('}')]
items = re.findall(r'\((\d+), (\d+)\): ([^,\s]+)', noise)
assert ', '.join('(%s, %s): %s' % i for i in items) == noise.strip()
by_string, last = [], None
for s, om, v in items:
    if s != last:
        by_string.append([])
        last = s
    by_string[-1].append('((%s, %s), %s)' % (s, om, 'None' if v == "float('nan')" else 'Some %d' % integer(v, 26)))
out += ['(** [dom_noise_rate_dict] (dom_noise_rates.py l.7) in units of 1e-26 Hz, [None] for NaN; one',
        '    string per line *)', 'Definition dom_noise_rate_lines : list (list ((Z * Z) * option Z)) := [',
        '  ' + ';\n  '.join('[' + '; '.join(r) + ']' for r in by_string) + '].', '']
open(OUT, 'w').write('\n'.join(out))
