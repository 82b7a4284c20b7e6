(** Abstract interpretation of generated programs: for each name an interval, whether its value
    is certainly defined, and, where possible, its form as a quotient of linear forms in the
    arguments. *)
From Coq Require Import ZArith QArith Bool List.
From Verif Require Import Bytes Syntax Interval.
Import ListNotations.

Section Precision.
Context {prc : setting}.

Inductive aval := AR (i : itv) (def : bool) | AB (t : option bool) (def : bool) | ATop.

(** ** Quotients of linear forms.  A form is a list of coefficients, the first one that of the
    constant 1. *)
Definition lin := list Q.
Fixpoint ladd (a b : lin) : lin :=
  match a, b with
  | [], _ => b | _, [] => a
  | x :: a, y :: b => Qred (x + y) :: ladd a b
  end.
Definition lscale (k : Q) (a : lin) : lin := map (fun x => Qred (k * x)) a.
Definition lzero (a : lin) : bool := forallb (fun x => Qeq_bool x 0) a.
Definition lconst (a : lin) : option Q :=
  match a with [] => Some 0%Q | x :: a => if lzero a then Some x else None end.
Fixpoint leqb (a b : lin) : bool :=
  match a, b with
  | [], _ => lzero b | _, [] => lzero a
  | x :: a, y :: b => Qeq_bool x y && leqb a b
  end.
Definition lfrac : Type := lin * lin.
Definition is_one (q : Q) : bool := Qeq_bool q 1.
Definition fneg (f : lfrac) : lfrac := (lscale (-1) (fst f), snd f).
(** Scale a constant denominator to 1. *)
Definition fnorm (f : lfrac) : lfrac :=
  match lconst (snd f) with
  | Some k => if Qeq_bool k 0 then f else (lscale (/ k) (fst f), [1%Q])
  | None => f end.
Definition fconst (f : lfrac) : option Q :=
  match lconst (fst f), lconst (snd f) with
  | Some x, Some y => if is_one y then Some x else None
  | _, _ => None end.
Definition fadd (f g : lfrac) : option lfrac :=
  if leqb (snd f) (snd g) then Some (ladd (fst f) (fst g), snd f) else
  match fconst g with
  | Some k => Some (ladd (fst f) (lscale k (snd f)), snd f)
  | None => match fconst f with
            | Some k => Some (ladd (fst g) (lscale k (snd g)), snd g)
            | None => None end
  end.
Definition fmul (f g : lfrac) : option lfrac :=
  match lconst (fst g) with
  | Some k => if leqb (snd g) [1%Q] then Some (lscale k (fst f), snd f)
              else if leqb (snd f) [1%Q] then Some (lscale k (fst f), snd g) else None
  | None =>
    match lconst (fst f) with
    | Some k => if leqb (snd f) [1%Q] then Some (lscale k (fst g), snd g)
                else if leqb (snd g) [1%Q] then Some (lscale k (fst g), snd f) else None
    | None => None end
  end.
Definition finv (f : lfrac) : lfrac := fnorm (snd f, fst f).

(** Signs of the arguments the forms are built from. *)
Inductive sort := SPos | SNonneg | SAny | SIn (l h : Q).
(** Every summand is non-negative; and one is positive. *)
Fixpoint lge0 (sg : list sort) (a : lin) : bool :=
  match a, sg with
  | [], _ => true
  | x :: a, s :: sg =>
      (match s with SPos | SNonneg => Qle_bool 0 x | _ => Qeq_bool x 0 end) && lge0 sg a
  | x :: a, [] => Qeq_bool x 0 && lge0 [] a
  end.
Fixpoint lsome (sg : list sort) (a : lin) : bool :=
  match a, sg with
  | x :: a, s :: sg => (match s with SPos => negb (Qle_bool x 0) | _ => false end) || lsome sg a
  | _, _ => false
  end.
Definition lgt0 (sg : list sort) (a : lin) : bool := lge0 sg a && lsome sg a.
(** The largest quotient of coefficients. *)
Fixpoint lratio (a b : lin) (m : option Q) : option Q :=
  match b with
  | [] => m
  | y :: b =>
      let x := match a with x :: _ => x | [] => 0%Q end in
      let m' := if Qle_bool y 0 then m else
                let r := Qred (x / y) in
                match m with None => Some r | Some k => if Qle_bool r k then m else Some r end in
      lratio (tl a) b m'
  end.
(** Upper bound of a / b where b > 0. *)
Definition fhi (sg : list sort) (a b : lin) : bnd :=
  match lratio a b None with
  | None => Inf
  | Some m => let c := ladd (lscale m b) (lscale (-1) a) in
              if lge0 sg c then Bd (q_up m) (lsome sg c) else Inf
  end.
Definition fitv (sg : list sort) (f : lfrac) : itv :=
  let (a, b) := f in
  if lgt0 sg b then Itv (nbnd (fhi sg (lscale (-1) a) b)) (fhi sg a b)
  else if lgt0 sg (lscale (-1) b) then
    Itv (nbnd (fhi sg a (lscale (-1) b))) (fhi sg (lscale (-1) a) (lscale (-1) b))
  else top.

Definition ainfo : Type := aval * option lfrac.
Definition aenv := list (bstr * ainfo).
Fixpoint alook (e : aenv) (x : bstr) : ainfo :=
  match e with [] => (ATop, None) | (y, v) :: e => if beqb x y then v else alook e x end.
Fixpoint dlook (d : program) (x : bstr) : option expr :=
  match d with [] => None | (y, e) :: d => if beqb x y then Some e else dlook d x end.

(** A number written as a constant expression. *)
Fixpoint qconst (e : expr) : option Q :=
  match e with
  | ENum q => Some q
  | ENeg a => match qconst a with Some x => Some (- x)%Q | None => None end
  | EDiv a b => match qconst a, qconst b with
                | Some x, Some y => if Qeq_bool y 0 then None else Some (x / y)%Q
                | _, _ => None end
  | _ => None
  end.

Definition fn1_eqb (f g : fn1) : bool :=
  match f, g with
  | FSqrt, FSqrt | FCbrt, FCbrt | FExp, FExp | FLog, FLog | FAtan, FAtan | FAsinh, FAsinh
  | FAtanh, FAtanh | FTanh, FTanh | FCosh, FCosh | FSin, FSin | FCos, FCos | FAbs, FAbs
  | FHeaviside, FHeaviside => true
  | FOp a, FOp b => beqb a b
  | _, _ => false end.
Definition cmp_eqb (a b : cmpop) : bool :=
  match a, b with CLe, CLe | CLt, CLt | CEq, CEq => true | _, _ => false end.
Definition q_eqb (p q : Q) : bool := Z.eqb (Qnum p) (Qnum q) && Pos.eqb (Qden p) (Qden q).
Fixpoint eeqb (e f : expr) : bool :=
  match e, f with
  | ENum p, ENum q => q_eqb p q
  | EPi, EPi => true
  | EVar x, EVar y => beqb x y
  | ENeg a, ENeg b => eeqb a b
  | EAdd a b, EAdd c d | ESub a b, ESub c d | EMul a b, EMul c d | EDiv a b, EDiv c d
  | EPow a b, EPow c d | EOr a b, EOr c d | EAnd a b, EAnd c d => eeqb a c && eeqb b d
  | ECmp o a b, ECmp p c d => cmp_eqb o p && eeqb a c && eeqb b d
  | ECond a b c, ECond a' b' c' => eeqb a a' && eeqb b b' && eeqb c c'
  | EFn1 f a, EFn1 g b => fn1_eqb f g && eeqb a b
  | EFn2 f a b, EFn2 g c d => beqb f g && eeqb a c && eeqb b d
  | EFn3 f a b c, EFn3 g a' b' c' => beqb f g && eeqb a a' && eeqb b b' && eeqb c c'
  | _, _ => false
  end.

(** Facts known on a branch: the value of an expression, if defined, lies in an interval. *)
Definition fact : Type := expr * itv.
Fixpoint known (fs : list fact) (e : expr) (i : itv) : itv :=
  match fs with [] => i | (f, j) :: fs => known fs e (if eeqb e f then meet j i else i) end.

Definition strictly (b : bnd) : bnd := match b with Bd a _ => Bd a true | Inf => Inf end.
Definition as_itv (v : ainfo) : itv := match v with (AR i _, _) => i | _ => top end.
(** Facts following from a comparison being true (or false). *)
Fixpoint assume (val : expr -> ainfo) (c : expr) (b : bool) : list fact :=
  match c with
  | ECmp CLe x y =>
      let i := as_itv (val x) in let j := as_itv (val y) in
      if b then [(x, Itv Inf (hi j)); (y, Itv (lo i) Inf)]
      else [(y, Itv Inf (strictly (hi i))); (x, Itv (strictly (lo j)) Inf)]
  | ECmp CLt x y =>
      let i := as_itv (val x) in let j := as_itv (val y) in
      if b then [(x, Itv Inf (strictly (hi j))); (y, Itv (strictly (lo i)) Inf)]
      else [(y, Itv Inf (hi i)); (x, Itv (lo j) Inf)]
  | ECmp CEq x y =>
      let i := as_itv (val x) in let j := as_itv (val y) in
      if b then [(x, j); (y, i)]
      else if bnd_le (hi j) (lo i) then [(x, Itv (strictly (lo j)) Inf)]
      else if bnd_le (hi i) (lo j) then [(x, Itv Inf (strictly (hi j)))]
      else []
  | EAnd x y => if b then assume val x b ++ assume val y b else []
  | EOr x y => if b then [] else assume val x b ++ assume val y b
  | _ => []
  end.

(** ** Transfer functions *)
Definition sym_itv (f : itv -> itv) (i : itv) : itv :=
  (* an odd increasing function, from its values on non-negative numbers *)
  if lo_nonneg i then f i else if lo_nonneg (ineg i) then ineg (f (ineg i)) else top.
Definition small_odd (m : dy) (i : itv) : itv :=
  (* an odd function with f x > 0 for x > 0 and |f x| < m *)
  if lo_pos i then Itv (Bd zero true) (Bd m true)
  else if lo_nonneg i then Itv (Bd zero false) (Bd m true)
  else if lo_pos (ineg i) then Itv (Bd (dneg m) true) (Bd zero true)
  else if lo_nonneg (ineg i) then Itv (Bd (dneg m) true) (Bd zero false)
  else Itv (Bd (dneg m) true) (Bd m true).
Definition odd_sign (i : itv) : itv :=
  if lo_pos i then positive_itv else if lo_nonneg i then nonneg_itv
  else if lo_pos (ineg i) then ineg positive_itv else if lo_nonneg (ineg i) then ineg nonneg_itv else top.
Definition unit_itv : itv := Itv (Bd (D (-1) 0) false) (Bd one false).
(** Close bounds for the elementary functions, by their definitions. *)
Definition or_top (i : option itv) : itv := match i with Some i => i | None => top end.
Definition imul_o (i : itv) (j : option itv) : itv := match j with Some j => imul i j | None => top end.
(** exp y lies between y + sqrt (1 + y^2) and (2 + y) / (2 - y); ln r between
    2 (r - 1) / (r + 1) and (r - 1 / r) / 2. *)
Fixpoint squares (k : nat) (i : itv) : itv := match k with O => i | S k => squares k (imul i i) end.
Fixpoint roots (k : nat) (i : itv) : itv := match k with O => i | S k => roots k (or_top (isqrt i)) end.
(** The power series of Series.v: partial sum and next term (next power) of [terms] terms. *)
Definition terms : nat := Z.to_nat (prec / 8).
Fixpoint exp_terms (n : nat) (y : itv) : itv * itv :=
  match n with
  | O => (const zero, const one)
  | S m => let '(s, t) := exp_terms m y in (iadd s t, idiv_pos (imul y t) (Pos.of_nat n))
  end.
Definition exp_series (y : itv) : itv :=
  let '(s, t) := exp_terms terms y in Itv (lo s) (hi (iadd s (imul (const (D 3 0)) t))).
Fixpoint odd_terms (alt : bool) (n : nat) (z w : itv) : itv * itv :=
  match n with
  | O => (const zero, z)
  | S m =>
      let '(s, p) := odd_terms alt m z w in
      let v := idiv_pos p (Pos.of_nat (2 * m + 1)) in
      (iadd s (if alt && Nat.odd m then ineg v else v), imul w p)
  end.
Definition odd_series (alt : bool) (c : Z) (z : itv) : itv :=
  let '(s, p) := odd_terms alt terms z (imul z z) in
  let e := imul (const (D c 0)) (idiv_pos p (Pos.of_nat (2 * terms + 1))) in
  Itv (lo (isub s e)) (hi (iadd s e)).
Definition fexp (i : itv) : itv :=
  let y := imul (const (D 1 (- Z.of_nat steps))) i in
  if lo_nonneg y && bnd_le (hi y) (Bd one false) then meet positive_itv (squares steps (exp_series y))
  else if lo_nonneg (ineg y) && bnd_le (hi (ineg y)) (Bd one false) then
    meet positive_itv (or_top (iinv (squares steps (exp_series (ineg y)))))
  else
  let a := iadd y (or_top (isqrt (iadd (const one) (imul y y)))) in
  let b := imul_o (iadd (const (D 2 0)) y) (iinv (isub (const (D 2 0)) y)) in
  if bnd_lt (hi y) (Bd (D 2 0) false) && bnd_lt (Bd (D (-2) 0) false) (lo y)
  then meet positive_itv (squares steps (join a b)) else positive_itv.
Definition fln (i : itv) : itv :=
  let r := roots steps i in
  let z := imul_o (isub r (const one)) (iinv (iadd r (const one))) in
  if lo_nonneg z && bnd_le (hi z) (Bd (D 1 (-1)) false) then imul (const (D 1 (Z.of_nat (S steps)))) (odd_series false 2 z)
  else if lo_nonneg (ineg z) && bnd_le (hi (ineg z)) (Bd (D 1 (-1)) false) then
    ineg (imul (const (D 1 (Z.of_nat (S steps)))) (odd_series false 2 (ineg z)))
  else
  let a := imul (const (D 2 0)) z in
  let b := imul (const (D 1 (-1))) (match iinv r with Some j => isub r j | None => top end) in
  imul (const (D 1 (Z.of_nat steps))) (join a b).
(** atan x = 2 atan (x / (1 + sqrt (1 + x^2))) for x >= 0, and the series. *)
Definition half_atan (i : itv) : itv :=
  match isqrt (iadd (const one) (imul i i)) with
  | Some s => imul_o i (iinv (iadd (const one) s))
  | None => top end.
Fixpoint iatan (k : nat) (i : itv) : itv :=
  match k with
  | O => odd_series true 1 i
  | S k => imul (const (D 2 0)) (iatan k (half_atan i))
  end.
Definition fine1 (f : fn1) (i : itv) : itv :=
  match f with
  | FAsinh =>
      match isqrt (iadd (imul i i) (const one)) with Some s => let j := iadd i s in if lo_pos j then fln j else top | None => top end
  | FTanh => let a := fexp i in let b := fexp (ineg i) in imul_o (isub a b) (iinv (iadd a b))
  | FCosh => imul (const (D 1 (-1))) (iadd (fexp i) (fexp (ineg i)))
  | FAtanh =>
      match iinv (isub (const one) i) with
      | Some j => let k := imul (iadd (const one) i) j in if lo_pos k then imul (const (D 1 (-1))) (fln k) else top
      | None => top end
  | FAtan =>
      if lo_nonneg i then iatan (Nat.div2 steps + 4) i
      else if lo_nonneg (ineg i) then ineg (iatan (Nat.div2 steps + 4) (ineg i)) else top
  | FOp n =>
      if beqb n "lambertw" then if lo_nonneg i then Itv Inf (hi i) else top
      else if beqb n "xc_E1_scaled" then
        if lo_pos i then
          Itv (lo (imul_o (const one) (iinv (iadd i (const one)))))
              (hi (imul_o (iadd i (const one)) (iinv (imul i (iadd i (const (D 2 0)))))))
        else top
      else if beqb n "i0" then Itv Inf (hi (fexp (iabs i)))
      else top
  | _ => top
  end.
Definition ipower (i j : itv) : itv := fexp (imul j (fln i)).

Definition coarse1 (f : fn1) (i : itv) : option itv :=
  match f with
  | FSqrt => isqrt i
  | FCbrt => Some (icbrt i)
  | FExp => Some (iexp i)
  | FLog => iln i
  | FAtan => Some (small_odd (D 2 0) i)
  | FAsinh => Some (odd_sign i)
  | FAtanh => if bnd_lt (hi i) (Bd one false) && bnd_lt (Bd (D (-1) 0) false) (lo i) then Some (odd_sign i) else None
  | FTanh => Some (small_odd one i)
  | FCosh => Some (Itv (Bd one false) Inf)
  | FSin | FCos => Some unit_itv
  | FAbs => Some (iabs i)
  | FHeaviside => Some (if lo_nonneg i then const one else if lo_pos (ineg i) then const zero else Itv (Bd zero false) (Bd one false))
  | FOp n =>
      if beqb n "erf" then Some (small_odd (D 1 0) i)
      else if beqb n "erfc" then Some (Itv (Bd zero true) (Bd (D 2 0) true))
      else if beqb n "xc_erfcx" then Some positive_itv
      else if beqb n "lambertw" then if lo_nonneg i then Some nonneg_itv else None
      else if beqb n "xc_E1_scaled" then if lo_pos i then Some positive_itv else None
      else if beqb n "i0" then Some (Itv (Bd one false) Inf)
      else None
  end.

Definition afn1 (f : fn1) (i : itv) : option itv :=
  if fine_fns then
    match f with
    | FExp => Some (fexp i)
    | FLog => if lo_pos i then Some (fln i) else None
    | _ => option_map (fun j => meet j (fine1 f i)) (coarse1 f i)
    end
  else coarse1 f i.

Definition adef (v : aval) : bool := match v with AR _ d | AB _ d => d | ATop => false end.
Definition lift_a2 (f : itv -> itv -> option itv) (v w : aval) : aval :=
  match v, w with
  | AR i d, AR j d' => match f i j with Some k => AR k (d && d') | None => AR top false end
  | _, _ => AR top false end.
Definition lift_a1 (f : itv -> option itv) (v : aval) : aval :=
  match v with
  | AR i d => match f i with Some k => AR k d | None => AR top false end
  | _ => AR top false end.
Definition f2 (op : lfrac -> lfrac -> option lfrac) (v w : ainfo) : option lfrac :=
  match snd v, snd w with Some f, Some g => op f g | _, _ => None end.
(** Use what the form says. *)
Definition refine (sg : list sort) (fs : list fact) (e : expr) (v : aval) (f : option lfrac) : ainfo :=
  match v with
  | AR i d =>
      let i := match f with Some f => meet i (fitv sg f) | None => i end in
      (AR (known fs e i) d, f)
  | _ => (v, f)
  end.
Definition acmp (o : cmpop) (i j : itv) : option bool :=
  match o with CLe => ile i j | CLt => ilt i j | CEq => ieq i j end.
Definition pow_q (i : itv) (q : Q) : option itv :=
  match ipow_q i q with
  | Some k =>
      match hi k with
      | Inf => Some (if fine_fns && lo_pos i then ipower i (of_Q q) else k)
      | _ => Some k
      end
  | None => None
  end.
Definition apow (b : expr) (i : itv) (w : aval) : aval :=
  match qconst b with
  | Some q => let q := Qred q in
      match (if Pos.eqb (Qden q) 1 then ipow i (Qnum q) else pow_q i q) with
      | Some k => AR k true | None => AR top false end
  | None => match w with
            | AR j d => if lo_pos i then AR (if fine_fns then ipower i j else positive_itv) d
                        else if lo_nonneg i && lo_pos j then AR nonneg_itv d else AR top false
            | _ => AR top false end
  end.
Definition and_d (d : bool) (v : aval) : aval :=
  match v with AR i d' => AR i (d && d') | AB t d' => AB t (d && d') | ATop => ATop end.
Definition only_real (v : aval) : aval := match v with AR _ _ => v | _ => AR top false end.
Definition ajoin (v w : aval) : aval :=
  match v, w with AR i d, AR j d' => AR (join i j) (d && d') | _, _ => AR top false end.
Definition abool2 (f : bool -> bool -> bool) (v w : aval) : aval :=
  match v, w with
  | AB (Some x) d, AB (Some y) d' => AB (Some (f x y)) (d && d')
  | AB _ d, AB _ d' => AB None (d && d')
  | _, _ => AB None false end.

(** a / (a + b) for a > 0 and b >= 0. *)
Definition part_itv (i j : itv) : itv :=
  if lo_pos i && lo_nonneg j then Itv (Bd zero true) (Bd one (lo_pos j)) else top.
(** x * (c + k x), k > 0, is at least - c^2 / (4 k). *)
Definition quad_itv (c k : Q) : itv :=
  if Qle_bool k 0 then top else Itv (Bd (q_dn (- (c * c) / ((4#1) * k))) false) Inf.
Definition quad (a b : expr) : itv :=
  match b with
  | EAdd (ENum c) (EMul (ENum k) x) => if eeqb a x then quad_itv c k else top
  | EAdd (ENum c) x => if eeqb a x then quad_itv c 1 else top
  | _ => top
  end.
Definition meet_a (i : itv) (v : aval) : aval := match v with AR j d => AR (meet j i) d | _ => v end.

(** ** Sums that need more than interval arithmetic *)
Section Special.
Variable sg : list sort.
Variable env : aenv.
Variable defs : program.
(** A temporary by its definition. *)
Definition unv (e : expr) : expr :=
  match e with EVar x => match dlook defs x with Some e' => e' | None => e end | _ => e end.
Definition stored (e : expr) : ainfo := match e with EVar x => alook env x | _ => (ATop, None) end.

(** A power of a quotient of linear forms. *)
Definition pform : Type := lfrac * positive.
Definition fone (f : lfrac) : bool := leqb (fst f) [1%Q] && leqb (snd f) [1%Q].
Definition pmul (f g : pform) : option pform :=
  if fone (fst f) then Some g else if fone (fst g) then Some f else
  if Pos.eqb (snd f) (snd g) then match fmul (fst f) (fst g) with Some h => Some (h, snd f) | None => None end else None.
Definition pinv (f : pform) : pform := (finv (fst f), snd f).
Fixpoint monom (n : nat) (e : expr) : option pform :=
  match n with
  | O => None
  | S n =>
    match e with
    | ENum q => Some (([q], [1%Q]), 1%positive)
    | EVar x => match snd (alook env x) with
                | Some f => Some (f, 1%positive)
                | None => match dlook defs x with Some e' => monom n e' | None => None end end
    | EPow a (ENum q) =>
        match Qred q with
        | Qmake (Zpos k) 1 => match monom n a with Some (f, j) => Some (f, (j * k)%positive) | None => None end
        | _ => None end
    | EMul a b => match monom n a, monom n b with Some f, Some g => pmul f g | _, _ => None end
    | EDiv a b => match monom n a, monom n b with Some f, Some g => pmul f (pinv g) | _, _ => None end
    | _ => None
    end
  end.
Definition pow_itv (e : expr) : itv :=
  match monom 8 e with Some (f, k) => ipow_pos (fitv sg f) k | None => top end.

(** cbrt x * x *)
Definition is_cbrt (x c : expr) : bool := match unv c with EFn1 FCbrt y => eeqb y x | _ => false end.
Definition four_thirds (x e : expr) : bool :=
  match unv e with EMul c y => (is_cbrt x c && eeqb y x) || (is_cbrt x y && eeqb c x) | _ => false end.
(** max (p, z)^(4/3), written as a conditional. *)
Definition clamped (u : expr) : option (expr * expr * expr) :=
  match unv u with
  | ECond c a b => match unv c with
                   | ECmp CLe p z => if four_thirds z a && four_thirds p b then Some (p, z, a) else None
                   | _ => None end
  | _ => None end.
Definition two : dy := D 2 0.
(** p + m = 2 *)
Definition sum_two (p m : expr) : bool :=
  match snd (stored p), snd (stored m) with
  | Some f, Some g => leqb (snd f) (snd g) && leqb (ladd (fst f) (fst g)) (lscale 2 (snd f))
  | _, _ => match unv p, unv m with
            | EAdd (ENum o) z, ESub (ENum o') z' => is_one o && is_one o' && eeqb z z'
            | _, _ => false end
  end.
Definition spin_sum (a b : expr) : itv :=
  match a, b with
  | EAdd u v, ENum q =>
      if Qeq_bool q 2 then
      match clamped u, clamped v with
      | Some (p, z, t), Some (m, z', _) =>
          if eeqb z z' && sum_two p m
             && lo_nonneg (as_itv (stored p)) && lo_nonneg (as_itv (stored m))
             && lo_pos (as_itv (stored z)) && bnd_lt (hi (as_itv (stored z))) (Bd one false)
          then Itv (Bd zero false) (hi (iadd (isub (imul (const two) (icbrt (const two))) (const two)) (as_itv (stored t))))
          else top
      | _, _ => top end
      else top
  | _, _ => top end.

(** The Perdew-Wang fit: A (1 + a x) ln (1 + k / (c1 s + c2 x + c3 t + c4 w)), s = sqrt x, t = x^(3/2). *)
Record pw := { pw_A : Q; pw_a : Q; pw_k : Q; pw_c1 : Q; pw_c2 : Q; pw_c3 : Q; pw_c4 : Q; pw_x : expr; pw_w : expr }.
Definition pw_fit (A : Q) (l g : expr) : option pw :=
  match unv l, unv g with
  | EAdd (ENum o) (EMul (ENum a) x0), EFn1 FLog (EAdd (ENum o') (EDiv (ENum k) d)) =>
      match unv d with
      | EAdd (EAdd (EAdd u1 u2) u3) u4 =>
      match unv u1, unv u2, unv u3, unv u4 with
      | EMul (ENum c1) s, EMul (ENum c2) x, EMul (ENum c3) t, EMul (ENum c4) w =>
          if is_one o && is_one o' && eeqb x0 x
             && match unv s with EFn1 FSqrt y => eeqb y x | _ => false end
             && match unv t with EPow y (ENum q) => eeqb y x && Qeq_bool q (3#2) | _ => false end
          then Some {| pw_A := A; pw_a := a; pw_k := k; pw_c1 := c1; pw_c2 := c2; pw_c3 := c3; pw_c4 := c4; pw_x := x; pw_w := w |}
          else None
      | _, _, _, _ => None end
      | _ => None end
  | _, _ => None end.
(** A * l * g *)
Definition pw_term (e : expr) : option pw :=
  match unv e with EMul (EMul (ENum A) l) g => pw_fit A l g | _ => None end.
(** - A * l * g *)
Definition pw_neg (e : expr) : option pw :=
  match unv e with EMul (EMul (ENeg (ENum A)) l) g => pw_fit A l g | _ => None end.
Definition qpos (q : Q) : bool := negb (Qle_bool q 0).
Definition pw_pos (f : pw) : bool :=
  qpos (pw_A f) && qpos (pw_a f) && qpos (pw_k f) && qpos (pw_c1 f) && qpos (pw_c2 f) && qpos (pw_c3 f) && qpos (pw_c4 f).
Local Open Scope Q_scope.
(** f2 <= 0.87 f0 *)
Definition pw_le (f0 f2 : pw) : bool :=
  let mu := pw_c3 f2 / pw_c3 f0 in
  Qle_bool (pw_c2 f0) (pw_c2 f2) && Qle_bool (pw_c4 f0) (pw_c4 f2)
  && Qle_bool ((pw_c3 f0 - pw_c3 f2) * 14) (pw_c1 f2 - pw_c1 f0)
  && Qle_bool (pw_k f0) (pw_k f2) && Qle_bool (pw_a f2) (pw_a f0)
  && Qle_bool (pw_A f2 * pw_k f2) ((87#100) * pw_A f0 * pw_k f0)
  && Qle_bool mu 1 && Qle_bool (mu * pw_c1 f0) (pw_c1 f2)
  && Qle_bool (pw_A f2 * pw_k f2 * pw_a f2) ((87#100) * pw_A f0 * pw_k f0 * mu * pw_a f0)
  && Qle_bool (pw_A f2 * pw_k f2 * (1 + 14 * pw_a f2)) ((87#100) * pw_A f0 * pw_k f0 * mu * (1 + 14 * pw_a f0)).
(** 0.13 f0 <= f1 *)
Definition pw_ge (f0 f1 : pw) : bool :=
  Qle_bool (pw_c1 f1) (3 * pw_c1 f0) && Qle_bool (pw_c2 f1) (3 * pw_c2 f0)
  && Qle_bool (pw_c3 f1) (3 * pw_c3 f0) && Qle_bool (pw_c4 f1) (3 * pw_c4 f0)
  && Qle_bool (pw_k f1) (3 * pw_k f0) && Qle_bool ((9#10) * pw_a f0) (pw_a f1)
  && Qle_bool ((13#100) * 3 * pw_A f0 * pw_k f0) ((9#10) * pw_A f1 * pw_k f1).
Local Close Scope Q_scope.
Definition same_arg (f g : pw) : bool := eeqb (pw_x f) (pw_x g) && eeqb (pw_w f) (pw_w g).
Definition in_unit (i : itv) : bool := lo_nonneg i && bnd_le (hi i) (Bd one false).
Definition small (i : itv) : bool := lo_nonneg i && bnd_le (hi i) (Bd (D 73 (-6)) false).
(** The factors of a product, and the factors before those of another one. *)
Fixpoint factors (e : expr) : list expr := match e with EMul a b => factors a ++ [b] | _ => [e] end.
Fixpoint leqe (a b : list expr) : bool :=
  match a, b with [], [] => true | x :: a, y :: b => eeqb x y && leqe a b | _, _ => false end.
Definition prod (l : list expr) : expr := match l with [] => ENum 1 | x :: l => fold_left EMul l x end.
Definition weight_ok (fl zf : list expr) : bool :=
  let n := (length zf - length fl)%nat in
  leqe (skipn n zf) fl &&
  match firstn n zf with
  | [] => true
  | zl => in_unit (meet (match zl with [z] => as_itv (stored z) | _ => top end) (pow_itv (prod zl))) end.
Definition prod_itv (l : list expr) : itv := fold_right (fun e i => imul (as_itv (stored e)) i) (const one) l.
(** - e0 + z f (- e1 + e0 - A2 p) + A2 f p *)
Definition pw_sum (a c : expr) : itv :=
  match a with
  | EAdd (ENeg e0) b =>
      match pw_term e0, unv c, unv b with
      | Some f0, EMul c' p, EMul zf d =>
          match factors c', unv p, unv d with
          | ENum A2 :: fl, EMul l g, ESub (EAdd e1 e0') (EMul (ENum A2') p') =>
              match pw_fit A2 l g, pw_neg e1 with
              | Some f2, Some f1 =>
                  if eeqb e0 e0' && Qeq_bool A2 A2' && eeqb p p' && same_arg f0 f1 && same_arg f0 f2
                     && pw_pos f0 && pw_pos f1 && pw_pos f2 && pw_le f0 f2 && pw_ge f0 f1
                     && lo_pos (as_itv (stored (pw_x f0))) && lo_pos (as_itv (stored (pw_w f0)))
                     && small (prod_itv fl) && weight_ok fl (factors zf)
                  then Itv Inf (Bd zero true) else top
              | _, _ => top end
          | _, _, _ => top end
      | _, _, _ => top end
  | _ => top end.
End Special.

Section Eval.
Variable sg : list sort.
Variable env : aenv.
Variable defs : program.

Fixpoint aev (n : nat) : list fact -> expr -> ainfo :=
  fix ev (fs : list fact) (e : expr) {struct e} : ainfo :=
  match e with
  | ENum q => (AR (of_Q q) true, Some ([q], [1%Q]))
  | EPi => (AR pi_itv true, None)
  | EVar x =>
      let v := alook env x in
      match n, fs with
      | S n', _ :: _ =>
          match fst v, dlook defs x with
          | AR i d, Some e' =>
              match aev n' fs e' with
              | (AR j d', _) => (AR (known fs e (meet i j)) (d || d'), snd v)
              | _ => (AR (known fs e i) d, snd v)
              end
          | AR i d, None => (AR (known fs e i) d, snd v)
          | _, Some e' => match aev n' fs e' with
                          | (AB t d, _) => (AB t d, None)
                          | _ => v end
          | _, _ => v
          end
      | _, _ => v
      end
  | ENeg a => let v := ev fs a in
      refine sg fs e (lift_a1 (fun i => Some (ineg i)) (fst v)) (option_map fneg (snd v))
  | EAdd a b => let v := ev fs a in let w := ev fs b in
      refine sg fs e (meet_a (pw_sum sg env defs a b) (lift_a2 (fun i j => Some (iadd i j)) (fst v) (fst w))) (f2 fadd v w)
  | ESub a b => let v := ev fs a in let w := ev fs b in
      refine sg fs e (meet_a (spin_sum env defs a b) (lift_a2 (fun i j => Some (isub i j)) (fst v) (fst w))) (f2 (fun f g => fadd f (fneg g)) v w)
  | EMul a b => let v := ev fs a in let w := ev fs b in
      refine sg fs e (meet_a (quad a b) (lift_a2 (fun i j => Some (imul i j)) (fst v) (fst w))) (f2 fmul v w)
  | EDiv a b => let v := ev fs a in let w := ev fs b in
      let part := match b with
                  | EAdd x y => if eeqb a x then part_itv (as_itv v) (as_itv (ev fs y))
                                else if eeqb a y then part_itv (as_itv v) (as_itv (ev fs x)) else top
                  | _ => top end in
      refine sg fs e (meet_a part (lift_a2 (fun i j => match iinv j with Some k => Some (imul i k) | None => None end) (fst v) (fst w)))
        (f2 (fun f g => fmul f (finv g)) v w)
  | EPow a b => let v := ev fs a in let w := ev fs b in
      refine sg fs e (match fst v with AR i d => and_d d (apow b i (fst w)) | _ => AR top false end) None
  | ECmp o a b => let v := ev fs a in let w := ev fs b in
      (match fst v, fst w with AR i d, AR j d' => AB (acmp o i j) (d && d') | _, _ => AB None false end, None)
  | EOr a b => (abool2 orb (fst (ev fs a)) (fst (ev fs b)), None)
  | EAnd a b => (abool2 andb (fst (ev fs a)) (fst (ev fs b)), None)
  | ECond c a b =>
      let vc := fst (ev fs c) in
      let fa b := match n with
                  | S n' => let c := match c with EVar x => match dlook defs x with Some e' => e' | None => c end | _ => c end in
                            assume (aev n' fs) c b ++ fs
                  | O => fs end in
      let f := fun v => and_d (adef vc) (only_real (fst v)) in
      (match vc with
       | AB (Some true) _ => f (ev (fa true) a)
       | AB (Some false) _ => f (ev (fa false) b)
       | AB None _ => ajoin (f (ev (fa true) a)) (f (ev (fa false) b))
       | _ => AR top false
       end, None)
  | EFn1 f a => refine sg fs e (lift_a1 (afn1 f) (fst (ev fs a))) None
  | EFn2 f a b => refine sg fs e (lift_a2 (fun _ _ => if beqb f "atan2" then Some top else None) (fst (ev fs a)) (fst (ev fs b))) None
  | EFn3 _ _ _ _ => (AR top false, None)
  end.
End Eval.

Definition depth : nat := 5.
(** One assignment: first without branch facts; if that does not show the value to be defined,
    with them. *)
Definition astep (sg : list sort) (env : aenv) (defs : program) (e : expr) : ainfo :=
  let v := aev sg env defs (match e with ECond _ _ _ => 1 | _ => 0 end) [] e in
  if adef (fst v) then v else aev sg env defs depth [] e.
Fixpoint arun (sg : list sort) (env : aenv) (defs : program) (p : program) : aenv :=
  match p with
  | [] => env
  | (x, e) :: p => let v := astep sg env defs e in arun sg ((x, v) :: env) ((x, e) :: defs) p
  end.

(** ** Names are assigned once, before they are read.  The numbers in the temporaries' names
    increase along a program. *)
Definition byte_N (b : Byte.byte) : N := Byte.to_N b.
Fixpoint digits (x : bstr) (n : N) : option N :=
  match x with
  | bnil => Some n
  | bcons c x => let d := byte_N c in
              if (48 <=? d)%N && (d <=? 57)%N then digits x (10 * n + (d - 48))%N else None
  end.
(** 1 + the number of a temporary, 0 for every other name. *)
Definition rank (x : bstr) : N :=
  match x with
  | bcons c x => if (byte_N c =? 116)%N then
      match x with bnil => 0%N | _ => match digits x 0 with Some n => N.succ n | None => 0%N end end else 0%N
  | bnil => 0%N
  end.
Fixpoint below (k : N) (e : expr) : bool :=
  match e with
  | ENum _ | EPi => true
  | EVar x => (rank x <? k)%N
  | ENeg a | EFn1 _ a => below k a
  | EAdd a b | ESub a b | EMul a b | EDiv a b | EPow a b | ECmp _ a b | EOr a b | EAnd a b | EFn2 _ a b => below k a && below k b
  | ECond a b c | EFn3 _ a b c => below k a && below k b && below k c
  end.
Fixpoint ssa (k : N) (p : program) : bool :=
  match p with
  | [] | [_] => true
  | (x, e) :: p => (k <? rank x)%N && below (rank x) e && ssa (rank x) p
  end.

(** The bounds of the result, if it is shown to be defined. *)
Definition shown (sg : list sort) (env : aenv) (p : program) : option itv :=
  match fst (alook (arun sg env [] p) "res") with AR i true => Some i | _ => None end.
End Precision.
