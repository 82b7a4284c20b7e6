"""Writes the files rocq/theories/Fam*.v: for each statement of Families.v, the list of
functionals for which the equality checker succeeds, and the run of the checker.

Usage: gen_families.py LISTS.json   (statement -> functional names, one entry per line)
The files are ordinary Coq files; the list of names is the only input."""
import json, sys, os
L = json.load(open(sys.argv[1]))
out = os.path.join(os.path.dirname(__file__), '..', 'rocq', 'theories')

def wrap(names, pre):
    lines, cur = [], ''
    for i, n in enumerate(names):
        t = pre + n + ('; ' if i + 1 < len(names) else '')
        if len(cur) + len(t) > 96:
            lines.append(cur.rstrip()); cur = ''
        cur += t
    lines.append(cur)
    return '\n  '.join(lines)

def chunks(key, parts):
    """The names of the list [key]: [parts] chunks run with setting 0, then one chunk for each
    other setting of the checker (entries "name@setting")."""
    base = [n for n in L[key] if '@' not in n]
    ch = [(0, base[i::parts]) for i in range(parts)]
    ks = sorted({int(n.split('@')[1]) for n in L[key] if '@' in n})
    return ch + [(k, [n.split('@')[0] for n in L[key] if n.endswith('@%d' % k)]) for k in ks]

def emit(fname, title, key, check, stmt, sound, parts):
    """One file per chunk; [key] names the list, [check]/[stmt]/[sound] the checker, the
    statement and its soundness theorem (K stands for the setting)."""
    mods = []
    for i, (k, ch) in enumerate(chunks(key, parts)):
        mod = fname + (str(i + 1) if parts > 1 else '') if i < parts else f'{fname}K{k}'
        mods.append(mod)
        s = f'''(** {title}: run of the equality checker. Written by tools/gen_families.py. *)
From Coq Require Import List QArith NArith.
From Verif Require Import Bytes Syntax Parser PostProcess Src Ast Semantics Norm Problems Families.
Import ListNotations.

Definition {key}_list{i+1} : list compiled := [
  {wrap(ch, 'a_')}].
Lemma {key}_run{i+1} : forallb ({check.replace('K', str(k))}) {key}_list{i+1} = true.
Proof. vm_cast_no_check (eq_refl true). Qed.
Lemma {key}_all{i+1} : Forall (fun c => {stmt} (c_src c)) {key}_list{i+1}.
Proof.
  apply Forall_forall. intros c H. pose proof {key}_run{i+1} as E. rewrite forallb_forall in E.
  exact ({sound.replace('K', str(k))} c (E c H)).
Qed.
'''
        open(os.path.join(out, mod + '.v'), 'w').write(s)
    return key, mods, parts

res = []
res.append(emit('FamClosed', 'Closed-shell agreement', 'closed_shell',
  'fun c => check (pb_closed_shell K c)', 'closed_shell_agrees', 'closed_shell_sound K', 3))
res.append(emit('FamSwap', 'Spin-flip symmetry', 'swap',
  'fun c => check (pb_swap K c)', 'spin_symmetric', 'swap_sound K', 3))
res.append(emit('FamScaleX', 'Coordinate scaling of exchange', 'scale1',
  'fun c => check (pb_scale 1 K c)', 'scales_with 1', 'scale_sound 1 K', 1))
res.append(emit('FamScaleK', 'Coordinate scaling of kinetic functionals', 'scale2',
  'fun c => check (pb_scale 2 K c)', 'scales_with 2', 'scale_sound 2 K', 1))
res.append(emit('FamSpin', 'Spin scaling', 'spin',
  'chk_spin_scaling K', 'spin_scales', 'spin_scaling_sound K', 3))
res.append(emit('FamScreenP', 'Screening inside the polarized formulas', 'scrp',
  'fun c => check (pb_screen_pol K c)', 'screened_pol', 'screen_pol_sound K', 1))
res.append(emit('FamScreenU', 'Screening inside the unpolarized formulas', 'scru',
  'fun c => check (pb_screen_unpol K c)', 'screened_unpol', 'screen_unpol_sound K', 1))
res.append(emit('FamUnifX', 'Uniform-gas limit of exchange', 'uniform_x',
  'chk_uniform slater [] K', 'uniform_limit slater_energy []', 'uniform_x_sound [] K', 1))
res.append(emit('FamUnifK', 'Uniform-gas limit of kinetic functionals', 'uniform_k',
  'chk_uniform thomas_fermi [] K', 'uniform_limit tf_energy []', 'uniform_k_sound [] K', 1))

mods = [m for r in res for m in r[1]]
s = '''(** The statements of Families.v for whole lists of functionals. Written by
    tools/gen_families.py. *)
From Coq Require Import List QArith NArith.
From Verif Require Import Bytes Syntax Parser PostProcess Src Ast Semantics Families.
From Verif Require Import %s.
Import ListNotations.

Lemma Forall_src (P : source -> Prop) l : Forall (fun c => P (c_src c)) l -> Forall P (map c_src l).
Proof. induction 1; constructor; assumption. Qed.

''' % ' '.join(mods)
stm = dict(closed_shell='closed_shell_agrees', swap='spin_symmetric', scale1='scales_with 1', scale2='scales_with 2',
  spin='spin_scales', scrp='screened_pol', scru='screened_unpol', uniform_x='uniform_limit slater_energy []',
  uniform_k='uniform_limit tf_energy []')
for key, ms, parts in res:
    ch = chunks(key, parts)
    names, n = [x for _, c in ch for x in c], len(ch)
    prf = ''.join(f'apply Forall_app. split; [exact {key}_all{i+1}|]. ' for i in range(n - 1)) + f'exact {key}_all{n}.'
    s += f'''Definition {key}_functionals : list source := [
  {wrap(names, 'f_')}].
Lemma {key}_holds : Forall ({stm[key]}) {key}_functionals.
Proof.
  change {key}_functionals with (map c_src ({' ++ '.join(key + '_list' + str(i+1) for i in range(n))})).
  apply Forall_src. {prf}
Qed.

'''
open(os.path.join(out, 'Fam.v'), 'w').write(s)
print(' '.join(mods + ['Fam']))
