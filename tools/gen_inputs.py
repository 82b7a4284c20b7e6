"""Writes rocq/theories/FamInputs.v: the formulas that read only the inputs of their family, the
formulas that call a function nobody defines, and those that never read s1."""
import os, re
root = os.path.join(os.path.dirname(os.path.abspath(__file__)), '..')
out = os.path.join(root, 'rocq', 'theories')
names = re.findall(r'a_(\w+)', re.search(r'Definition all_compiled.*?\]\.', open(os.path.join(out, 'Ast.v')).read(), re.S)[0])
UNDEF = set('''gga_x_fd_lb94 gga_x_gg99 hyb_gga_xc_case21 lda_x_1d_exponential lda_x_1d_soft mgga_c_b94 mgga_x_br89
mgga_x_mbr mgga_x_mbrxc_bg mgga_x_mbrxh_bg mgga_x_mggac mgga_x_tb09'''.split())
def wrap(items, w=96):
    lines, cur = [], ''
    for i, t in enumerate(items):
        t = t + ('; ' if i + 1 < len(items) else '')
        if len(cur) + len(t) > w:
            lines.append(cur.rstrip()); cur = ''
        cur += t
    lines.append(cur)
    return '\n  '.join(lines)
s = '''(** Names read and functions called by the formulas. Written by tools/gen_inputs.py. *)
From Coq Require Import List Bool.
From Verif Require Import Bytes Syntax Parser PostProcess Src Ast Semantics Free Records Families Inputs Fam.
Import ListNotations.

'''
def emit(key, names, check, stmt, sound):
    global s
    s += f'''Definition {key}_list : list compiled := [
  {wrap(['a_' + n for n in names])}].
Definition {key}_functionals : list source := [
  {wrap(['f_' + n for n in names])}].
Lemma {key}_run : forallb (fun c => {check}) {key}_list = true.
Proof. vm_cast_no_check (eq_refl true). Qed.
Lemma {key}_holds : Forall {stmt} {key}_functionals.
Proof.
  change {key}_functionals with (map c_src {key}_list). apply Forall_src.
  apply Forall_forall. intros c H. pose proof {key}_run as E. rewrite forallb_forall in E. exact ({sound} c (E c H)).
Qed.

'''
s += f'''Definition name_error_names : list bstr := [
  {wrap(['"' + n + '"' for n in sorted(UNDEF)])}]%b.
Definition no_exception (f : source) : Prop :=
  if mem (src_name f) name_error_names then always_name_error f else raises_nothing f.
Lemma exceptions_run : forallb (fun c => if mem (src_name (c_src c)) name_error_names
  then calls_undefined (c_pol c) && calls_undefined (c_unpol c)
  else inputs_ok c && negb (calls_undefined (c_pol c)) && negb (calls_undefined (c_unpol c))) all_compiled = true.
Proof. vm_cast_no_check (eq_refl true). Qed.
Lemma exceptions_holds : Forall no_exception all_sources.
Proof.
  rewrite <- all_compiled_sources. apply Forall_src. apply Forall_forall. intros c H.
  pose proof exceptions_run as E. rewrite forallb_forall in E. specialize (E c H). unfold no_exception.
  destruct (mem (src_name (c_src c)) name_error_names); [exact (name_error_sound c E)|exact (raises_nothing_sound c E)].
Qed.

'''
emit('no_s1', [n for n in names if '_x_' in n or n == 'lda_x'], 'no_s1 c', 'ignores_s1', 'ignores_s1_sound')
s += '''(** Exchange functionals are those named ..._x or ..._x_... (libxc's naming scheme). *)
Definition exchange_name (n : bstr) : bool :=
  existsb (fun p => bprefix (p +++ "_x_")%b n || beqb n (p +++ "_x")%b) ["lda"; "gga"; "mgga"; "hyb_lda"; "hyb_gga"; "hyb_mgga"]%b.
Lemma no_s1_complete : map src_name no_s1_functionals = filter exchange_name (map src_name all_sources).
Proof. vm_compute. reflexivity. Qed.
'''
open(os.path.join(out, 'FamInputs.v'), 'w').write(s)
