(** The equalities between generated programs that are put to the normaliser. *)
From Coq Require Import List QArith NArith.
From Verif Require Import Bytes Syntax Parser PostProcess Src Ast Norm.
Import ListNotations.

Definition num (n : Z) : expr := ENum (n # 1).
Definition half : expr := ENum (1 # 2).
Definition quarter : expr := ENum (1 # 4).
Definition zt : expr := EVar "p.zeta_threshold".
Definition dt : expr := EVar "p.dens_threshold".
Definition zt_flag : bstr * flag := ("p.zeta_threshold"%b, FP).
Definition unpol_flags : list (bstr * flag) := [("r0"%b, FP); ("s0"%b, FN); zt_flag].
Definition pol_flags : list (bstr * flag) := [("r0"%b, FP); ("r1"%b, FP); ("s0"%b, FN); ("s2"%b, FN); zt_flag].
(** [1 <= zeta_threshold] and [2 <= zeta_threshold] are false. *)
Definition zt_small : list (expr * bool) := [(ECmp CLe (num 1) zt, false); (ECmp CLe (num 2) zt, false)].
(** The relative spin density [2 x / (r0 + r1)] is at most the zeta threshold. *)
Definition clipped (x : bstr) : expr :=
  ECmp CLe (EDiv (EMul (num 2) (EVar x)) (EAdd (EVar "r0") (EVar "r1"))) zt.

(** unpol at (r0, s0, l0, tau0) against pol at the closed-shell point. *)
Definition closed_shell_init : list (bstr * expr) := [
  ("r0", EMul half (EVar "r0")); ("r1", EMul half (EVar "r0"));
  ("s0", EMul quarter (EVar "s0")); ("s1", EMul quarter (EVar "s0")); ("s2", EMul quarter (EVar "s0"));
  ("l0", EMul half (EVar "l0")); ("l1", EMul half (EVar "l0"));
  ("tau0", EMul half (EVar "tau0")); ("tau1", EMul half (EVar "tau0"))]%b.
Definition pb_closed_shell (k : N) (c : compiled) : problem :=
  Problem unpol_flags zt_small [] k
    [Run "u" (c_unpol c) []; Run "p" (c_pol c) closed_shell_init] [(EVar "u", EVar "p")].

(** pol against pol with the spin channels exchanged. *)
Definition swap_init : list (bstr * expr) := [
  ("r0", EVar "r1"); ("r1", EVar "r0"); ("s0", EVar "s2"); ("s2", EVar "s0");
  ("l0", EVar "l1"); ("l1", EVar "l0"); ("tau0", EVar "tau1"); ("tau1", EVar "tau0")]%b.
Definition pb_swap (k : N) (c : compiled) : problem :=
  Problem pol_flags zt_small [(clipped "r0", clipped "r1")] k
    [Run "u" (c_pol c) []; Run "p" (c_pol c) swap_init] [(EVar "u", EVar "p")].

(** Uniform scaling by "%g" of all inputs; densities above the threshold before and after. *)
Definition gpow (n : Z) (x : bstr) : bstr * expr := (x, EMul (EPow (EVar "%g") (num n)) (EVar x)).
Definition scale_init : list (bstr * expr) := [
  gpow 3 "r0"; gpow 3 "r1"; gpow 8 "s0"; gpow 8 "s1"; gpow 8 "s2";
  gpow 5 "l0"; gpow 5 "l1"; gpow 5 "tau0"; gpow 5 "tau1"]%b.
Definition above (e : expr) : expr * bool := (ECmp CLe e dt, false).
Definition pb_scale (n : Z) (k : N) (c : compiled) : problem :=
  Problem (("%g"%b, FP) :: pol_flags)
    (zt_small ++ [above (EVar "r0"); above (EVar "r1");
                  above (snd (gpow 3 "r0")); above (snd (gpow 3 "r1"))]) [] k
    [Run "u" (c_pol c) []; Run "p" (c_pol c) scale_init]
    [(EMul (EPow (EVar "%g") (num n)) (EVar "u"), EVar "p")].

(** (r0 + r1) pol = r0 unpol(2 r0, 4 s0, 2 l0, 2 tau0) + r1 unpol(2 r1, 4 s2, 2 l1, 2 tau1). *)
Definition up_init : list (bstr * expr) := [
  ("r0", EMul (num 2) (EVar "r0")); ("s0", EMul (num 4) (EVar "s0"));
  ("l0", EMul (num 2) (EVar "l0")); ("tau0", EMul (num 2) (EVar "tau0"))]%b.
Definition down_init : list (bstr * expr) := [
  ("r0", EMul (num 2) (EVar "r1")); ("s0", EMul (num 4) (EVar "s2"));
  ("l0", EMul (num 2) (EVar "l1")); ("tau0", EMul (num 2) (EVar "tau1"))]%b.
Definition unclipped : list (expr * bool) := [(clipped "r0", false); (clipped "r1", false)].
Definition screened (b0 b1 : bool) : list (expr * bool) :=
  [(ECmp CLe (EVar "r0") dt, b0); (ECmp CLe (EVar "r1") dt, b1)].
Definition pb_spin_scaling (b0 b1 : bool) (k : N) (c : compiled) : problem :=
  Problem pol_flags (zt_small ++ unclipped ++ screened b0 b1) [] k
    [Run "p" (c_pol c) []; Run "u" (c_unpol c) up_init; Run "d" (c_unpol c) down_init]
    [(EMul (EAdd (EVar "r0") (EVar "r1")) (EVar "p"),
      EAdd (EMul (EVar "r0") (EVar "u")) (EMul (EVar "r1") (EVar "d")))].
Definition chk_spin_scaling (k : N) (c : compiled) : bool :=
  forallb (fun b => check (pb_spin_scaling (fst b) (snd b) k c))
    [(false, false); (true, false); (false, true); (true, true)].

(** Both spin densities below the threshold: the result is zero. *)
Definition below (e : expr) : expr * bool := (ECmp CLe e dt, true).
Definition pb_screen_pol (k : N) (c : compiled) : problem :=
  Problem pol_flags (zt_small ++ [below (EVar "r0"); below (EVar "r1")]) [] k
    [Run "p" (c_pol c) []] [(EVar "p", num 0)].
Definition pb_screen_unpol (k : N) (c : compiled) : problem :=
  Problem unpol_flags (zt_small ++ [below (EMul half (EVar "r0"))]) [] k
    [Run "p" (c_unpol c) []] [(EVar "p", num 0)].

(** A uniform density: zero gradient and Laplacian, Thomas-Fermi kinetic density
    tau = 3/10 (6 pi^2)^(2/3) n^(5/3) in each spin channel. *)
Definition tf_tau (x : bstr) : expr :=
  EMul (EMul (ENum (3 # 10)) (EPow (EMul (num 6) (EPow EPi (num 2))) (ENum (2 # 3))))
       (EPow (EVar x) (ENum (5 # 3))).
Definition uniform_pol_init : list (bstr * expr) :=
  [("s0", num 0); ("s1", num 0); ("s2", num 0); ("l0", num 0); ("l1", num 0);
   ("tau0", tf_tau "r0"); ("tau1", tf_tau "r1")]%b.
(** Energy densities of the uniform gas: exchange -3/2 (3/(4 pi))^(1/3) sum n^(4/3), and
    kinetic 3/10 (6 pi^2)^(2/3) sum n^(5/3), the sums over the two spin densities. *)
Definition slater_one (x : bstr) : expr :=
  EMul (EMul (ENum (-3 # 2)) (EPow (EDiv (num 3) (EMul (num 4) EPi)) (ENum (1 # 3))))
       (EPow (EVar x) (ENum (4 # 3))).
Definition slater : expr := EAdd (slater_one "r0") (slater_one "r1").
Definition thomas_fermi : expr := EAdd (tf_tau "r0") (tf_tau "r1").
Definition pb_uniform (target : expr) (pars : list (bstr * Q)) (k : N) (c : compiled) : problem :=
  Problem pol_flags (zt_small ++ unclipped ++ [above (EVar "r0"); above (EVar "r1")]) [] k
    [Run "p" (c_pol c) (uniform_pol_init ++ map (fun x => (fst x, ENum (snd x))) pars)]
    [(EMul (EAdd (EVar "r0") (EVar "r1")) (EVar "p"), target)].
