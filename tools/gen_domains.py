"""Writes rocq/theories/Domains.v (the domain of definition claimed for each functional), the
runs of the abstract interpreter FamDef*.v, and FamExact.v, the combination with Fam.v.

Usage: gen_domains.py DOMAINS.json FAMILIES.json
DOMAINS.json: {"dom": {name: [[level, [[param, sort], ...]], pol, unpol]}, "ndom": same, "kdom": same}"""
import json, sys, os
D = json.load(open(sys.argv[1])); L = json.load(open(sys.argv[2]))
out = os.path.join(os.path.dirname(__file__), '..', 'rocq', 'theories')
dom, ndom = {n: v for n, v in D['dom'].items()}, {n: v for n, v in D['ndom'].items() if '_x_' in n or n == 'lda_x'}

def wrap(items, w=96):
    lines, cur = [], ''
    for i, t in enumerate(items):
        t = t + ('; ' if i + 1 < len(items) else '')
        if len(cur) + len(t) > w:
            lines.append(cur.rstrip()); cur = ''
        cur += t
    lines.append(cur)
    return '\n  '.join(lines)

def domain(v):
    lev, pars = v[0]
    ps = wrap([f'("{p}"%b, {s})' for p, s in pars]) if pars else ''
    return f'{{| d_level := {lev}; d_pars := [{ps}] |}}'

s = '''(** The inputs on which each functional is shown to be defined. Written by
    tools/gen_domains.py. *)
From Coq Require Import List QArith.
From Verif Require Import Bytes Interval Absint Defined.
Import ListNotations.

'''
for n, v in sorted(dom.items()):
    s += f'Definition d_{n} : domain := {domain(v)}.\n'
s += '\n(** The inputs on which the exchange energy is shown not to be positive. *)\n'
for n, v in sorted(ndom.items()):
    s += f'Definition n_{n} : domain := {domain(v)}.\n'
open(os.path.join(out, 'Domains.v'), 'w').write(s)

mods = []
def runs(mod, key, names, pre, check, stmt, sound, parts, title, strong=None):
    chunks = [names[i::parts] for i in range(parts)]
    for i, ch in enumerate(chunks):
        m = mod + (str(i + 1) if parts > 1 else '')
        mods.append(m)
        t = f'''(** {title}: run of the abstract interpreter. Written by tools/gen_domains.py. *)
From Coq Require Import List.
From Verif Require Import Bytes Syntax Parser PostProcess Src Ast Semantics Interval Absint Defined Domains{' SmoothCheck' if strong else ''}.
Import ListNotations.

Definition {key}_list{i+1} : list (compiled * domain) := [
  {wrap([f'(a_{n}, {pre}{n})' for n in ch])}].
Lemma {key}_run{i+1} : forallb (fun p => {check}) {key}_list{i+1} = true.
Proof. vm_cast_no_check (eq_refl true). Qed.
Lemma {key}_all{i+1} : Forall (fun p => {stmt} (snd p) (c_src (fst p))) {key}_list{i+1}.
Proof.
  apply Forall_forall. intros p H. pose proof {key}_run{i+1} as E. rewrite forallb_forall in E.
  exact ({sound} (snd p) (fst p) (E p H)).
Qed.
'''
        if strong:
            old = t[t.index(f'Lemma {key}_run{i+1}'):t.index(f'Lemma {key}_all{i+1}')]
            t = t.replace(old, f'''(** The functionals for which kinks are excluded too. *)
Definition {key}_flags : list bool := [
  {wrap([str(n in strong[0]).lower() for n in ch])}].
Lemma {key}_marked : marked {key}_flags (fun p => {strong[1]} (snd p) (fst p)) (fun p => {check}) {key}_list{i+1} = true.
Proof. vm_cast_no_check (eq_refl true). Qed.
Lemma {key}_runs : forallb (fun p => {check}) {key}_list{i+1} = true /\\ forallb (fun p => {strong[1]} (snd p) (fst p)) (picked {key}_flags {key}_list{i+1}) = true.
Proof. exact (marked_ok {key}_flags _ _ {key}_list{i+1} (fun p => {strong[1]}_defined (snd p) (fst p)) {key}_marked). Qed.
Definition {key}_run{i+1} := proj1 {key}_runs.
''')
        open(os.path.join(out, m + '.v'), 'w').write(t)
    return [n for ch in chunks for n in ch]
SM = {k: set(v) for k, v in D['smooth'].items()}

P = runs('FamDefP', 'defp', sorted(n for n in dom if dom[n][1]), 'd_', 'is_some (bounds_pol (snd p) (fst p))',
  'defined_pol', 'defined_pol_sound', 1, 'Definedness of the polarized formulas', (SM['pol'], 'smooth_pol'))
U = runs('FamDefU', 'defu', sorted(n for n in dom if dom[n][2]), 'd_', 'is_some (bounds_unpol (snd p) (fst p))',
  'defined_unpol', 'defined_unpol_sound', 1, 'Definedness of the unpolarized formulas', (SM['unpol'], 'smooth_unpol'))
NP = runs('FamNegP', 'negp', sorted(n for n in ndom if ndom[n][1]), 'n_', 'nonpos_itv (bounds_pol (snd p) (fst p))',
  'nonpositive_pol', 'nonpositive_pol_sound', 1, 'Sign of polarized exchange')
NU = runs('FamNegU', 'negu', sorted(n for n in ndom if ndom[n][2]), 'n_', 'nonpos_itv (bounds_unpol (snd p) (fst p))',
  'nonpositive_unpol', 'nonpositive_unpol_sound', 1, 'Sign of unpolarized exchange')

# library-level checks
def librun(m, key, names, pre):
    mods.append(m)
    t = f'''(** Names read by the formulas of the domains: run of the check. Written by tools/gen_domains.py. *)
From Coq Require Import List.
From Verif Require Import Bytes Syntax Parser PostProcess Src Ast Semantics Records Inputs Interval Absint Defined Domains Library.
Import ListNotations.

Definition {key}_list1 : list (compiled * domain) := [
  {wrap([f'(a_{n}, {pre}{n})' for n in names])}].
Lemma {key}_run1 : forallb (fun p => library_ok (snd p) (fst p)) {key}_list1 = true.
Proof. vm_cast_no_check (eq_refl true). Qed.
Definition ready (d : domain) (f : source) : Prop :=
  usable d f /\\ forall t, name_to_type (src_name f) = Impl.Ok t -> reads_family f t.
Lemma {key}_all1 : Forall (fun p => ready (snd p) (c_src (fst p))) {key}_list1.
Proof.
  apply Forall_forall. intros p H. pose proof {key}_run1 as E. rewrite forallb_forall in E.
  specialize (E p H). split; [exact (library_sound _ _ E)|]. apply reads_family_sound. unfold library_ok in E.
  repeat (apply andb_prop in E; destruct E as [E _]). exact E.
Qed.
'''
    if m != 'FamLib':
        t = t.replace('Domains Library.', 'Domains Library FamLib.')
        a = t.index('Definition ready'); b = t.index(f'Lemma {key}_all1'); t = t[:a] + t[b:]
    open(os.path.join(out, m + '.v'), 'w').write(t)
    return names
LD = librun('FamLib', 'lib', sorted(dom), 'd_')
LN = librun('FamLibN', 'libn', sorted(n for n in ndom if ndom[n][1] and ndom[n][2]), 'n_')

s = '''(** Definedness, sign and the strengthened statements of Exact.v for whole lists of
    functionals. Written by tools/gen_domains.py. *)
From Coq Require Import List QArith NArith.
From Verif Require Import Bytes Syntax Parser PostProcess Src Ast Semantics Families Interval Absint Defined Exact Domains Inputs Library Fam.
From Verif Require Import %s.
Import ListNotations.

Definition srcd (p : compiled * domain) : source * domain := (c_src (fst p), snd p).
Lemma Forall_srcd (P : domain -> source -> Prop) l :
  Forall (fun p => P (snd p) (c_src (fst p))) l -> Forall (fun p => P (snd p) (fst p)) (map srcd l).
Proof. induction 1; constructor; assumption. Qed.

''' % ' '.join(mods)
def whole(key, name, names, pre, stmt, parts):
    global s
    app = ' ++ '.join(f'{key}_list{i+1}' for i in range(parts))
    prf = f'exact {key}_all1.' if parts == 1 else ''.join(f'apply Forall_app. split; [exact {key}_all{i+1}|]. ' for i in range(parts - 1)) + f'exact {key}_all{parts}.'
    s += f'''Definition {name} : list (source * domain) := [
  {wrap([f'(f_{n}, {pre}{n})' for n in names])}].
Lemma {name}_holds : Forall (fun p => {stmt} (snd p) (fst p)) {name}.
Proof.
  change {name} with (map srcd ({app})). apply Forall_srcd. {prf}
Qed.

'''
whole('defp', 'defined_pol_functionals', P, 'd_', 'defined_pol', 1)
whole('defu', 'defined_unpol_functionals', U, 'd_', 'defined_unpol', 1)
whole('negp', 'nonpositive_pol_functionals', NP, 'n_', 'nonpositive_pol', 1)
whole('negu', 'nonpositive_unpol_functionals', NU, 'n_', 'nonpositive_unpol', 1)

whole('lib', 'ready_functionals', LD, 'd_', 'ready', 1)
whole('libn', 'ready_nonpositive_functionals', LN, 'n_', 'ready', 1)

def famlist(key):
    parts = 3 if key in ('closed_shell', 'swap', 'spin') else 1
    base = [n for n in L[key] if '@' not in n]
    more = sorted((n.split('@') for n in L[key] if '@' in n), key=lambda v: int(v[1]))
    return [n for i in range(parts) for n in base[i::parts]] + [v[0] for v in more]
def idx(names, l):
    return wrap([str(l.index(n)) for n in names])
def exact(key, stmt, thm, modes, weak, extra=lambda n: True, level=False, lib=None):
    global s
    fam = famlist(key)
    names = sorted(n for n in fam if n in dom and extra(n) and all((n in P) if m == 'p' else (n in U) for m in modes))
    l = key + '_exact_functionals'
    s += f'''Definition {l} : list (source * domain) := [
  {wrap([f'(f_{n}, d_{n})' for n in names])}].
Lemma {l}_weak : Forall (fun p => {weak} (fst p)) {l}.
Proof.
  apply (Forall_pick _ _ {l} fst [
  {idx(names, fam)}]%nat {key}_holds). reflexivity.
Qed.
'''
    for m in modes:
        nm, lst = ('pol', P) if m == 'p' else ('unpol', U)
        s += f'''Lemma {l}_def_{nm} : Forall (fun p => defined_{nm} (snd p) (fst p)) {l}.
Proof.
  apply (Forall_pick _ _ {l} (fun p => p) [
  {idx(names, lst)}]%nat defined_{nm}_functionals_holds). reflexivity.
Qed.
'''
    if level:
        s += f'''Lemma {l}_level : Forall (fun p => is_pos (d_level (snd p)) = false) {l}.
Proof. repeat (constructor; [reflexivity|]). constructor. Qed.
'''
    nms = ['pol' if m == 'p' else 'unpol' for m in modes]
    hyps = ' '.join([f'H{i}' for i in range(len(nms))])
    s += f'''Lemma {l}_holds : Forall (fun p => {stmt} (snd p) (fst p)) {l}.
Proof.
  apply Forall_forall. intros p H.
  exact ({thm.format(*[f'(proj1 (Forall_forall _ _) {l}_def_{m} p H)' for m in nms], weak=f'(proj1 (Forall_forall _ _) {l}_weak p H)', level=f'(proj1 (Forall_forall _ _) {l}_level p H)')}).
Qed.

'''
    if lib:
        s += f'''Lemma {l}_ready : Forall (fun p => ready (snd p) (fst p)) {l}.
Proof.
  apply (Forall_pick _ _ {l} (fun p => p) [
  {idx(names, LD)}]%nat ready_functionals_holds). reflexivity.
Qed.
Lemma {l}_library : Forall (fun p => {lib[0]} (snd p) (fst p)) {l}.
Proof.
  apply Forall_forall. intros p H. destruct (proj1 (Forall_forall _ _) {l}_ready p H) as [U RF].
  exact ({lib[1]} (proj1 (Forall_forall _ _) {l}_holds p H)).
Qed.

'''
exact('closed_shell', 'closed_shell_exact', 'closed_exact (snd p) (fst p) {0} {1} {weak}', 'pu', 'closed_shell_agrees', lib=('closed_shell_library', 'closed_library (snd p) (fst p) U'))
exact('swap', 'spin_symmetric_exact', 'swap_exact (snd p) (fst p) {0} {weak}', 'p', 'spin_symmetric', lib=('spin_symmetric_library', 'swap_library (snd p) (fst p) U'))
exact('scale1', 'scales_exact 1', 'scale_exact (snd p) (fst p) {0} 1 {weak}', 'p', 'scales_with 1', lib=('scales_library 1', 'scale_library (snd p) (fst p) U 1'))
exact('scale2', 'scales_exact 2', 'scale_exact (snd p) (fst p) {0} 2 {weak}', 'p', 'scales_with 2', lib=('scales_library 2', 'scale_library (snd p) (fst p) U 2'))
exact('spin', 'spin_scales_exact', 'spin_exact (snd p) (fst p) {0} {1} {weak}', 'pu', 'spin_scales', lib=('spin_scales_library', 'spin_library (snd p) (fst p) U'))
exact('scrp', 'screened_pol_exact', 'screen_pol_exact (snd p) (fst p) {0} {weak}', 'p', 'screened_pol')
exact('scru', 'screened_unpol_exact', 'screen_unpol_exact (snd p) (fst p) {0} {weak}', 'u', 'screened_unpol')
nopos = lambda n: 'true' not in dom[n][0][0]
exact('uniform_x', 'uniform_exact slater_energy', 'unif_exact slater_energy (snd p) (fst p) {level} {0} {weak}', 'p', 'uniform_limit slater_energy []', nopos, True, lib=('uniform_library slater_energy', 'unif_library (snd p) (fst p) U slater_energy RF'))
exact('uniform_k', 'uniform_exact tf_energy', 'unif_exact tf_energy (snd p) (fst p) {level} {0} {weak}', 'p', 'uniform_limit tf_energy []', nopos, True, lib=('uniform_library tf_energy', 'unif_library (snd p) (fst p) U tf_energy RF'))
def both(l, names, pre, lists, stmt, thm, defs, rdy):
    global s
    s += f'''Definition {l} : list (source * domain) := [
  {wrap([f'(f_{n}, {pre}{n})' for n in names])}].
'''
    for i, (lst, nm) in enumerate(zip(lists, defs)):
        s += f'''Lemma {l}_part{i} : Forall (fun p => {nm[1]} (snd p) (fst p)) {l}.
Proof.
  apply (Forall_pick _ _ {l} (fun p => p) [
  {idx(names, lst)}]%nat {nm[0]}_holds). reflexivity.
Qed.
'''
    s += f'''Lemma {l}_holds : Forall (fun p => {stmt} (snd p) (fst p)) {l}.
Proof.
  apply Forall_forall. intros p H. destruct (proj1 (Forall_forall _ _) {l}_part2 p H) as [U _].
  exact ({thm} (snd p) (fst p) U (proj1 (Forall_forall _ _) {l}_part0 p H) (proj1 (Forall_forall _ _) {l}_part1 p H)).
Qed.

'''
both('number_functionals', sorted(n for n in dom if n in P and n in U), 'd_', [P, U, LD], 'returns_number', 'number_library',
  [('defined_pol_functionals', 'defined_pol'), ('defined_unpol_functionals', 'defined_unpol'), ('ready_functionals', 'ready')], LD)
both('nonpositive_functionals', sorted(n for n in LN), 'n_', [NP, NU, LN], 'returns_nonpositive', 'nonpositive_library',
  [('nonpositive_pol_functionals', 'nonpositive_pol'), ('nonpositive_unpol_functionals', 'nonpositive_unpol'), ('ready_nonpositive_functionals', 'ready')], LN)
open(os.path.join(out, 'FamExact.v'), 'w').write(s)

kdom = D['kdom']
k = '''(** Sign of the kinetic energy: run of the check of Kinetic.v. Written by tools/gen_domains.py. *)
From Coq Require Import List QArith.
From Verif Require Import Bytes Syntax Parser PostProcess Src Ast Semantics Interval Absint Defined Library Kinetic FamExact.
Import ListNotations.

'''
for n, v in sorted(kdom.items()):
    k += f'Definition k_{n} : domain := {domain(v)}.\n'
k += f'''Definition kinetic_list : list (compiled * domain) := [
  {wrap([f'(a_{n}, k_{n})' for n in sorted(kdom)])}].
Definition kinetic_functionals : list (source * domain) := [
  {wrap([f'(f_{n}, k_{n})' for n in sorted(kdom)])}].
Lemma kinetic_run : forallb check_kinetic kinetic_list = true.
Proof. vm_cast_no_check (eq_refl true). Qed.
Lemma kinetic_holds : Forall (fun p => returns_nonnegative (snd p) (fst p)) kinetic_functionals.
Proof.
  change kinetic_functionals with (map srcd kinetic_list). apply Forall_srcd. apply Forall_forall. intros p H.
  pose proof kinetic_run as E. rewrite forallb_forall in E. exact (kinetic_sound p (E p H)).
Qed.
'''
open(os.path.join(out, 'FamKinetic.v'), 'w').write(k)

# differentiability
sm = D['smooth']
spin_names = sorted(n for n in famlist('spin') if n in dom and n in P and n in U)
s = '''(** Differentiability for lists of functionals: runs of the check of SmoothCheck.v on inputs with
    non-zero gradients, and the lists. Written by tools/gen_domains.py. *)
From Coq Require Import List QArith.
From Verif Require Import Bytes Syntax Parser PostProcess Src Ast Semantics Families Interval Absint Defined Exact Domains Library Fam FamExact
  SmoothCheck SmoothFam FamDefP FamDefU FamLib.
Import ListNotations.

Definition with_slope (p : source * domain) : source * domain := (fst p, sloped (snd p)).
Lemma Forall_slope (P : domain -> source -> Prop) l :
  Forall (fun p => P (sloped (snd p)) (fst p)) l -> Forall (fun p => P (snd p) (fst p)) (map with_slope l).
Proof. induction 1; constructor; assumption. Qed.
'''
for m, key in (('unpol', 'defu'), ('pol', 'defp')):
    s += f'''
(** ** {m}arized *)
Definition smooth_{m}_functionals : list (source * domain) := [
  {wrap([f'(f_{n}, d_{n})' for n in sm[m]])}].
Lemma smooth_{m}_calm : Forall (fun p => calm_{m} (snd p) (fst p)) smooth_{m}_functionals.
Proof.
  change smooth_{m}_functionals with (map srcd (picked {key}_flags {key}_list1)). apply Forall_srcd. apply Forall_forall. intros p H.
  pose proof (proj2 {key}_runs) as E. rewrite forallb_forall in E. exact (smooth_{m}_ok (snd p) (fst p) (E p H)).
Qed.
Lemma smooth_{m}_ready : Forall (fun p => ready (snd p) (fst p)) smooth_{m}_functionals.
Proof.
  apply (Forall_pick _ _ smooth_{m}_functionals (fun p => p) [
  {idx(sm[m], LD)}]%nat ready_functionals_holds). reflexivity.
Qed.
Definition sloped_{m}_list : list (compiled * domain) := [
  {wrap([f'(a_{n}, d_{n})' for n in sm[m + '_sloped']])}].
Definition sloped_{m}_functionals : list (source * domain) := [
  {wrap([f'(f_{n}, d_{n})' for n in sm[m + '_sloped']])}].
Lemma sloped_{m}_run : forallb (fun p => smooth_{m} (sloped (snd p)) (fst p)) sloped_{m}_list = true.
Proof. vm_cast_no_check (eq_refl true). Qed.
Lemma sloped_{m}_calm : Forall (fun p => calm_{m} (sloped (snd p)) (fst p)) sloped_{m}_functionals.
Proof.
  change sloped_{m}_functionals with (map srcd sloped_{m}_list). apply (Forall_srcd (fun d f => calm_{m} (sloped d) f)).
  apply Forall_forall. intros p H. pose proof sloped_{m}_run as E. rewrite forallb_forall in E. exact (smooth_{m}_ok (sloped (snd p)) (fst p) (E p H)).
Qed.
Lemma sloped_{m}_ready : Forall (fun p => ready (snd p) (fst p)) sloped_{m}_functionals.
Proof.
  apply (Forall_pick _ _ sloped_{m}_functionals (fun p => p) [
  {idx(sm[m + '_sloped'], LD)}]%nat ready_functionals_holds). reflexivity.
Qed.
Lemma smooth_{m}_holds : Forall (fun p => differentiable_{m} (snd p) (fst p)) smooth_{m}_functionals.
Proof.
  apply Forall_forall. intros p H. destruct (proj1 (Forall_forall _ _) smooth_{m}_ready p H) as [U _].
  exact ({m}_library (snd p) (fst p) U (proj1 (Forall_forall _ _) smooth_{m}_calm p H)).
Qed.
Lemma sloped_{m}_holds : Forall (fun p => differentiable_{m} (snd p) (fst p)) (map with_slope sloped_{m}_functionals).
Proof.
  apply Forall_slope. apply Forall_forall. intros p H. destruct (proj1 (Forall_forall _ _) sloped_{m}_ready p H) as [U _].
  exact ({m}_library (sloped (snd p)) (fst p) (usable_sloped _ _ U) (proj1 (Forall_forall _ _) sloped_{m}_calm p H)).
Qed.
'''
s += '\n(** ** Polarized, from the unpolarized formula *)\n'
for key, src in (('smooth', 'unpol'), ('sloped', 'unpol_sloped')):
    names = [n for n in sm[src] if n in spin_names]
    d = 'snd p' if key == 'smooth' else 'sloped (snd p)'
    pick = f'''(Forall_pick _ _ {key}_above_functionals (fun p => p) [
  {idx(names, sm[src])}]%nat {key}_unpol_holds)''' if key == 'smooth' else ''
    s += f'''Definition {key}_above_functionals : list (source * domain) := [
  {wrap([f'(f_{n}, d_{n})' for n in names])}].
Lemma {key}_above_spin : Forall (fun p => spin_scales_library (snd p) (fst p)) {key}_above_functionals.
Proof.
  apply (Forall_pick _ _ {key}_above_functionals (fun p => p) [
  {idx(names, spin_names)}]%nat spin_exact_functionals_library). reflexivity.
Qed.
'''
    if key == 'smooth':
        s += f'''Lemma smooth_above_unpol : Forall (fun p => differentiable_unpol (snd p) (fst p)) smooth_above_functionals.
Proof.
  apply (Forall_pick _ _ smooth_above_functionals (fun p => p) [
  {idx(names, sm[src])}]%nat smooth_unpol_holds). reflexivity.
Qed.
Lemma smooth_above_holds : Forall (fun p => differentiable_above (snd p) (fst p)) smooth_above_functionals.
Proof.
  apply Forall_forall. intros p H.
  exact (exchange_library _ _ (proj1 (Forall_forall _ _) smooth_above_spin p H) (proj1 (Forall_forall _ _) smooth_above_unpol p H)).
Qed.
'''
    else:
        s += f'''Lemma sloped_above_unpol : Forall (fun p => differentiable_unpol (snd p) (fst p)) (map with_slope sloped_above_functionals).
Proof.
  apply (Forall_pick _ _ (map with_slope sloped_above_functionals) (fun p => p) [
  {idx(names, sm[src])}]%nat sloped_unpol_holds). reflexivity.
Qed.
Lemma sloped_above_holds : Forall (fun p => differentiable_above (snd p) (fst p)) (map with_slope sloped_above_functionals).
Proof.
  apply Forall_forall. intros p H. apply in_map_iff in H as K. destruct K as (q & <- & Hq).
  exact (exchange_library _ _ (spin_sloped _ _ (proj1 (Forall_forall _ _) sloped_above_spin q Hq)) (proj1 (Forall_forall _ _) sloped_above_unpol _ H)).
Qed.
'''
open(os.path.join(out, 'FamSmooth.v'), 'w').write(s)
print(' '.join(['Domains'] + mods + ['FamExact']))
