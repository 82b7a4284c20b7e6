"""Writes rocq/theories/DecidedIndex.v: for each of C01-C04, the place of every shipped functional in
the concatenation of the lists that decide it. The only input are the Coq files themselves.

Usage: gen_decided.py"""
import os, re
out = os.path.join(os.path.dirname(__file__), '..', 'rocq', 'theories')
def read(n): return open(os.path.join(out, n)).read()
def lst(n, name):
    m = re.search(r'Definition %s : list \w+ := \[(.*?)\]' % name, read(n), re.S)
    return [w.strip()[2:] for w in m.group(1).split(';')]
allf = [w.strip()[2:] for w in re.search(r'Definition all_sources : list source := \[(.*?)\]', read('Src.v'), re.S).group(1).split(';')]
P = 'RunPrecise.v'
both = lst(P, 'unequal_80') + lst(P, 'unequal_96') + lst(P, 'unequal_112')
closed_ex = both + lst(P, 'unequal_shell') + ['gga_c_ft97']
swap_ex = lst(P, 'swap_exceptions')
spin_ex = both + lst(P, 'unequal_spins') + ['mgga_x_2d_prp10', 'gga_x_lb']
scal_ex = lst(P, 'unequal_scaling') + lst(P, 'unequal_ranged') + lst('RunRefute.v', 'other_scaling_functionals')
kin_ex = lst('RunRefute.v', 'other_scaling_k_functionals')
F = lambda n: lst('Fam.v', n)
part = lambda x: [n for n in allf if x in n.split('_')]
rows = [('closed_shell', F('closed_shell_functionals'), closed_ex, [], allf),
        ('swap', F('swap_functionals'), swap_ex, ['mgga_x_tb09'], allf),
        ('scaling_x', F('scale1_functionals'), scal_ex, ['lda_x_1d_exponential', 'lda_x_1d_soft'], part('x')),
        ('scaling_k', F('scale2_functionals'), kin_ex, [], part('k')),
        ('spin', F('spin_functionals') + ['lda_x_sloc'], spin_ex, ['mgga_x_tb09'], part('x') + part('k'))]
s = '(** Positions of the shipped functionals in the lists of Decided.v. Written by tools/gen_decided.py. *)\nFrom Coq Require Import List.\nFrom Verif Require Import Src.\nImport ListNotations.\n\n'
def wrap(ws):
    lines, cur = [], ''
    for i, w in enumerate(ws):
        t = w + ('; ' if i + 1 < len(ws) else '')
        if len(cur) + len(t) > 96: lines.append(cur.rstrip()); cur = ''
        cur += t
    return '\n  '.join(lines + [cur])
for key, good, bad, missing, wanted in rows:
    L = good + bad + missing
    assert len(set(L)) == len(L), key
    assert set(wanted) <= set(L), (key, set(wanted) - set(L))
    others = [n for n in allf if n not in L]
    L = L + others
    if others: s += f'Definition {key}_others : list source := [\n  {wrap(["f_" + n for n in others])}].\n'
    s += f'Definition {key}_index : list nat := [\n  {wrap([str(L.index(n)) for n in allf])}].\n'
open(os.path.join(out, 'DecidedIndex.v'), 'w').write(s)
