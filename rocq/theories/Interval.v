(** Interval arithmetic with dyadic bounds, rounded outwards.  The bounds carry strictness, so
    that positivity is kept apart from non-negativity. *)
From Coq Require Import ZArith QArith Bool List.
Open Scope Z_scope.

(** Shift to the left. *)
Definition shl (m k : Z) : Z :=
  match k with
  | Zpos n => match m with Zpos p => Zpos (Pos.iter xO p n) | Zneg p => Zneg (Pos.iter xO p n) | Z0 => Z0 end
  | _ => Z.shiftl m k end.

(** [D m e] is m * 2^e. *)
Inductive dy := D (m e : Z).
(** Bounds and intervals. *)
Inductive bnd := Inf | Bd (a : dy) (strict : bool).
Record itv := Itv { lo : bnd; hi : bnd }.

(** Bits kept; 2^steps-th powers and roots for the exponential and the logarithm; bounds of pi;
    whether the elementary functions are evaluated closely. *)
Class setting := Setting { prec : Z; steps : nat; pi_itv : itv; fine_fns : bool }.
Section Precision.
Context {prc : setting}.
Definition zero : dy := D 0 0.
Definition one : dy := D 1 0.

Definition dneg (a : dy) : dy := match a with D m e => D (- m) e end.
Definition rdn (a : dy) : dy :=
  match a with D m e =>
    let n := Z.log2 (Z.abs m) in
    if n <=? prec then a else let k := n - prec in D (Z.shiftr m k) (e + k) end.
Definition rup (a : dy) : dy := dneg (rdn (dneg a)).
Definition dadd (a b : dy) : dy :=
  match a, b with D m1 e1, D m2 e2 =>
    if e1 <=? e2 then D (m1 + shl m2 (e2 - e1)) e1 else D (shl m1 (e1 - e2) + m2) e2 end.
Definition dmul (a b : dy) : dy := match a, b with D m1 e1, D m2 e2 => D (m1 * m2) (e1 + e2) end.
Definition dsgn (a : dy) : comparison := match a with D m _ => m ?= 0 end.
Definition dcmp (a b : dy) : comparison :=
  match a, b with D m1 e1, D m2 e2 =>
    match m1 ?= 0, m2 ?= 0 with
    | Lt, Lt | Gt, Gt => dsgn (dadd a (dneg b))
    | Eq, Eq => Eq
    | Lt, _ | Eq, Gt => Lt
    | _, _ => Gt
    end end.
(** Lower bound of m / n * 2^e for n > 0. *)
Definition zdiv_dn (m : Z) (n : positive) (e : Z) : dy :=
  match n with
  | xH => rdn (D m e)
  | _ => let k := Z.max 0 (prec + Z.log2 (Zpos n) - Z.log2 (Z.abs m)) in
         rdn (D (shl m k / Zpos n) (e - k)) end.
(** 1 / b for b > 0. *)
Definition dinv_dn (b : dy) : dy := match b with D (Zpos n) e => zdiv_dn 1 n (- e) | _ => D 0 0 end.
Definition dinv_up (b : dy) : dy := match b with D (Zpos n) e => dneg (zdiv_dn (-1) n (- e)) | _ => D 0 0 end.
Definition q_dn (q : Q) : dy := zdiv_dn (Qnum q) (Qden q) 0.
Definition q_up (q : Q) : dy := dneg (zdiv_dn (- Qnum q) (Qden q) 0).

(** Integer n-th root by bisection: the largest r found with r^n <= m. *)
Fixpoint iroot (k : nat) (n m r : Z) : Z :=
  match k with
  | O => r
  | S k => let r' := r + shl 1 (Z.of_nat k) in iroot k n m (if Z.pow r' n <=? m then r' else r)
  end.
(** The same from half of the digits, with one step of Newton's method. *)
Fixpoint settle (k : nat) (n m r : Z) : Z :=
  match k with O => r | S k => if Z.pow r n <=? m then r else settle k n m (r - 1) end.
Fixpoint nroot (k : nat) (n m : Z) : Z :=
  let b := Z.log2 m / n in
  match k with
  | S k =>
      if b <=? 10 then iroot (Z.to_nat (b + 1)) n m 0
      else let h := b / 2 - 2 in
           let r := shl (nroot k n (Z.shiftr m (n * h)) + 1) h in
           settle 4 n m (((n - 1) * r + m / Z.pow r (n - 1)) / n)
  | O => iroot (Z.to_nat (b + 1)) n m 0
  end.
Definition zroot (n m : Z) : Z := Z.abs (if n =? 2 then Z.sqrt m else nroot 20 n m).
(** n-th root of a non-negative dyadic, n > 0, from below and from above. *)
Definition root_norm (n : Z) (a : dy) : Z * Z :=
  match a with D m e =>
    let k := Z.max 0 (n * prec - Z.log2 m) in
    let k := k + (e - k) mod n in
    (shl m k, (e - k) / n) end.
Definition droot_dn (n : Z) (a : dy) : dy :=
  let (m, e) := root_norm n a in
  let r := zroot n m in
  if Z.pow r n <=? m then rdn (D r e) else zero.
Definition droot_up (n : Z) (a : dy) : option dy :=
  let (m, e) := root_norm n a in
  let r := zroot n m in
  if Z.pow r n =? m then Some (rup (D r e))
  else if m <=? Z.pow (r + 1) n then Some (rup (D (r + 1) e)) else None.

(** The same without correction; and [Some (l, h)] with l^n <= m <= h^n. *)
Fixpoint newton (k : nat) (n m : Z) : Z :=
  let b := Z.log2 m / n in
  match k with
  | S k =>
      if b <=? 10 then iroot (Z.to_nat (b + 1)) n m 0
      else let h := b / 2 - 3 in
           let r := shl (newton k n (Z.shiftr m (n * h)) + 1) h in
           ((n - 1) * r + m / Z.pow r (n - 1)) / n
  | O => 0
  end.
Definition roots_at (x n m : Z) : option (Z * Z) :=
  if x <? 0 then None else
  let s := if n =? 3 then x * x else Z.pow x (n - 1) in
  let p := x * s in
  match p ?= m with
  | Eq => Some (x, x)
  | Lt => let y := x + 1 in if m <=? (if n =? 3 then p + (3 * (s + x) + 1) else Z.pow y n) then Some (x, y) else None
  | Gt => let y := x - 1 in
          if (0 <=? y) && ((if n =? 3 then p - (3 * (s - x) + 1) else Z.pow y n) <=? m) then Some (y, x) else None
  end.
Definition roots (n m : Z) : option (Z * Z) :=
  if n =? 2 then let (s, r) := Z.sqrtrem m in Some (s, if r =? 0 then s else s + 1)
  else roots_at (newton 20 n m) n m.

Definition top : itv := Itv Inf Inf.
Definition positive_itv : itv := Itv (Bd zero true) Inf.
Definition nonneg_itv : itv := Itv (Bd zero false) Inf.
Definition const (a : dy) : itv := Itv (Bd a false) (Bd a false).
Definition of_Q (q : Q) : itv := Itv (Bd (q_dn q) false) (Bd (q_up q) false).

(** Sign tests. *)
Definition lo_nonneg (i : itv) : bool := match lo i with Bd a _ => match dsgn a with Lt => false | _ => true end | Inf => false end.
Definition lo_pos (i : itv) : bool :=
  match lo i with Bd a s => match dsgn a with Gt => true | Eq => s | Lt => false end | Inf => false end.

Definition nbnd (b : bnd) : bnd := match b with Inf => Inf | Bd a s => Bd (dneg a) s end.
Definition ineg (i : itv) : itv := Itv (nbnd (hi i)) (nbnd (lo i)).
Definition badd_dn (a b : bnd) : bnd :=
  match a, b with Bd x s, Bd y t => Bd (rdn (dadd x y)) (s || t) | _, _ => Inf end.
Definition badd_up (a b : bnd) : bnd :=
  match a, b with Bd x s, Bd y t => Bd (rup (dadd x y)) (s || t) | _, _ => Inf end.
Definition iadd (i j : itv) : itv := Itv (badd_dn (lo i) (lo j)) (badd_up (hi i) (hi j)).
Definition isub (i j : itv) : itv := iadd i (ineg j).

(** The weaker of two lower (upper) bounds, and the stronger. *)
Definition lo_min (a b : bnd) : bnd :=
  match a, b with
  | Bd x s, Bd y t => match dcmp x y with Lt => a | Gt => b | Eq => Bd x (s && t) end
  | _, _ => Inf end.
Definition hi_max (a b : bnd) : bnd :=
  match a, b with
  | Bd x s, Bd y t => match dcmp x y with Lt => b | Gt => a | Eq => Bd x (s && t) end
  | _, _ => Inf end.
Definition lo_max (a b : bnd) : bnd :=
  match a, b with
  | Inf, _ => b | _, Inf => a
  | Bd x s, Bd y t => match dcmp x y with Lt => b | Gt => a | Eq => Bd x (s || t) end
  end.
Definition hi_min (a b : bnd) : bnd :=
  match a, b with
  | Inf, _ => b | _, Inf => a
  | Bd x s, Bd y t => match dcmp x y with Lt => a | Gt => b | Eq => Bd x (s || t) end
  end.
Definition join (i j : itv) : itv := Itv (lo_min (lo i) (lo j)) (hi_max (hi i) (hi j)).
Definition meet (i j : itv) : itv := Itv (lo_max (lo i) (lo j)) (hi_min (hi i) (hi j)).

(** Products. *)
Definition is_zero (b : bnd) : bool := match b with Bd a _ => match dsgn a with Eq => true | _ => false end | Inf => false end.
Definition bd_pos (b : bnd) : bool := match b with Bd a s => match dsgn a with Gt => true | _ => false end | Inf => false end.
(** Lower bound of a product of factors with non-negative lower bounds. *)
Definition bmul_dn (a b : bnd) : bnd :=
  match a, b with
  | Bd x s, Bd y t => Bd (rdn (dmul x y)) ((s && (bd_pos b || t)) || (t && (bd_pos a || s)))
  | _, _ => Inf end.
(** Upper bound of a product of non-negative factors. *)
Definition bmul_up (a b : bnd) : bnd :=
  if is_zero a || is_zero b then Bd zero false else
  match a, b with
  | Bd x s, Bd y t => Bd (rup (dmul x y)) ((s || t) && bd_pos a && bd_pos b)
  | _, _ => Inf end.
(** Both; the second product is found from the first if the bounds are close to each other. *)
Definition near (m m' : Z) : bool := (m <=? m') && (m' - m <? 1048576).
Definition bmul_both (a b a' b' : bnd) : itv :=
  match a, b, a', b' with
  | Bd (D m e) s, Bd (D n f) t, Bd (D m' e') s', Bd (D n' f') t' =>
      if (e =? e') && (f =? f') && near m m' && near n n' then
        let p := m * n in
        Itv (Bd (rdn (D p (e + f))) ((s && (bd_pos b || t)) || (t && (bd_pos a || s))))
            (if is_zero a' || is_zero b' then Bd zero false
             else Bd (rup (D (p + ((m' - m) * n' + (n' - n) * m)) (e + f))) ((s' || t') && bd_pos a' && bd_pos b'))
      else Itv (bmul_dn a b) (bmul_up a' b')
  | _, _, _, _ => Itv (bmul_dn a b) (bmul_up a' b')
  end.
Definition weak (b : bnd) : bnd := match b with Bd x _ => Bd x false | Inf => Inf end.
(** x in i, y in j, with 0 <= y. *)
Definition imul_pos (i j : itv) : itv :=
  if lo_nonneg i then bmul_both (lo i) (lo j) (hi i) (hi j)
  else if lo_nonneg (ineg i) then ineg (bmul_both (nbnd (hi i)) (lo j) (nbnd (lo i)) (hi j))
  else Itv (weak (nbnd (bmul_up (nbnd (lo i)) (hi j)))) (weak (bmul_up (hi i) (hi j))).
Definition imul (i j : itv) : itv :=
  if lo_nonneg j then imul_pos i j
  else if lo_nonneg (ineg j) then ineg (imul_pos i (ineg j))
  else if lo_nonneg i then imul_pos j i
  else if lo_nonneg (ineg i) then ineg (imul_pos j (ineg i))
  else Itv (weak (nbnd (hi_max (bmul_up (nbnd (lo i)) (hi j)) (bmul_up (hi i) (nbnd (lo j))))))
           (weak (hi_max (bmul_up (hi i) (hi j)) (bmul_up (nbnd (lo i)) (nbnd (lo j))))).

(** x / p. *)
Definition idiv_pos (i : itv) (p : positive) : itv :=
  Itv (match lo i with Bd (D m e) s => Bd (zdiv_dn m p e) s | Inf => Inf end)
      (match hi i with Bd (D m e) s => Bd (dneg (zdiv_dn (- m) p e)) s | Inf => Inf end).

(** 1 / x for x > 0. *)
Definition iinv_far (i : itv) : itv :=
  Itv (match hi i with Bd b s => if bd_pos (hi i) then Bd (dinv_dn b) s else Bd zero true | Inf => Bd zero true end)
      (match lo i with Bd a s => if bd_pos (lo i) then Bd (dinv_up a) s else Inf | Inf => Inf end).
Definition iinv_pos (i : itv) : itv :=
  match lo i, hi i with
  | Bd (D (Zpos m) e) s, Bd (D (Zpos n) f) t =>
      if (e =? f) && near (Zpos m) (Zpos n) then
        let k := Z.max 0 (prec + Z.log2 (Zpos n)) in
        let (q, r) := Z.div_eucl (shl 1 k) (Zpos n) in
        let q' := if r =? 0 then q else q + 1 in
        let d := Zpos n - Zpos m in
        let h := if d =? 0 then q' else q' + (d * q' / Zpos m + 1) in
        Itv (Bd (rdn (D q (- e - k))) t) (Bd (rup (D h (- e - k))) s)
      else iinv_far i
  | _, _ => iinv_far i
  end.
(** [None]: the interval may contain zero. *)
Definition iinv (i : itv) : option itv :=
  if lo_pos i then Some (iinv_pos i)
  else if lo_pos (ineg i) then Some (ineg (iinv_pos (ineg i)))
  else None.

(** |x| and natural powers. *)
Definition iabs (i : itv) : itv :=
  if lo_nonneg i then i else if lo_nonneg (ineg i) then ineg i
  else Itv (Bd zero false) (hi_max (hi i) (nbnd (lo i))).
Fixpoint ipow_pos (i : itv) (p : positive) : itv :=
  match p with
  | xH => i
  | xO p => let j := iabs (ipow_pos i p) in imul j j
  | xI p => let j := iabs (ipow_pos i p) in imul i (imul j j)
  end.
Definition ipow (i : itv) (z : Z) : option itv :=
  match z with
  | Z0 => Some (const one)
  | Zpos p => Some (ipow_pos i p)
  | Zneg p => iinv (ipow_pos i p)
  end.
(** n-th root of x >= 0; the upper bound is found from the lower one by the tangent if the two
    are close to each other. *)
Definition iroot_nonneg (n : Z) (i : itv) : itv :=
  match lo i, hi i with
  | Bd a s, Bd b t =>
      let (m, e) := root_norm n a in
      let (m', e') := root_norm n b in
      match roots n m with
      | Some (l, h) =>
          let d := m' - m in
          let g := if d =? 0 then 0 else if (0 <? d) && (0 <? l) then d / (n * (if n =? 2 then l else Z.pow l (n - 1))) + 1 else -1 in
          Itv (Bd (rdn (D l e)) s)
              (if (e =? e') && (0 <=? g) && (g <? shl 1 (prec / 2)) then Bd (rup (D (h + g) e)) t
               else match roots n m' with Some (_, h') => Bd (rup (D h' e')) t | None => Inf end)
      | None => Itv (Bd zero false) Inf
      end
  | Bd a s, Inf =>
      let (m, e) := root_norm n a in
      Itv (match roots n m with Some (l, _) => Bd (rdn (D l e)) s | None => Bd zero false end) Inf
  | _, _ => nonneg_itv
  end.
Definition isqrt (i : itv) : option itv := if lo_nonneg i then Some (iroot_nonneg 2 i) else None.
Definition icbrt (i : itv) : itv :=
  if lo_nonneg i then iroot_nonneg 3 i
  else if lo_nonneg (ineg i) then ineg (iroot_nonneg 3 (ineg i))
  else Itv (match lo i with Bd a _ => match droot_up 3 (dneg a) with Some r => Bd (dneg r) false | None => Inf end | Inf => Inf end)
           (match hi i with Bd b _ => match droot_up 3 b with Some r => Bd r false | None => Inf end | Inf => Inf end).
(** x^q for x >= 0. *)
Definition small_den : Z := 12.
Definition ipow_q (i : itv) (q : Q) : option itv :=
  let q := Qred q in
  if lo_pos i then
    if (Zpos (Qden q) <=? small_den) && (Z.abs (Qnum q) <=? 40) then
      match ipow i (Qnum q) with
      | Some j => if lo_nonneg j then Some (iroot_nonneg (Zpos (Qden q)) j) else None
      | None => None end
    else Some positive_itv
  else if lo_nonneg i && (0 <? Qnum q) then
    if (Zpos (Qden q) <=? small_den) && (Qnum q <=? 40) then
      match ipow i (Qnum q) with
      | Some j => if lo_nonneg j then Some (iroot_nonneg (Zpos (Qden q)) j) else None
      | None => None end
    else Some nonneg_itv
  else None.

(** Exponential: (1 + x/2^k)^(2^k) <= exp x <= 1 / (1 - x/2^k)^(2^k), with k = steps. *)
Fixpoint dsq_dn (k : nat) (a : dy) : dy := match k with O => a | S k => dsq_dn k (rdn (dmul a a)) end.
Fixpoint dsq_up (k : nat) (a : dy) : dy := match k with O => a | S k => dsq_up k (rup (dmul a a)) end.
Definition scale2 (a : dy) (k : Z) : dy := match a with D m e => D m (e + k) end.
Definition exp_dn (a : dy) : dy :=
  let y := rdn (dadd one (scale2 a (- Z.of_nat steps))) in
  match dsgn y with Gt => dsq_dn steps y | _ => zero end.
Definition exp_up (a : dy) : option dy :=
  let y := rdn (dadd one (dneg (scale2 a (- Z.of_nat steps)))) in
  match dsgn y with Gt => Some (dsq_up steps (dinv_up y)) | _ => None end.
Definition iexp (i : itv) : itv :=
  Itv (match lo i with
       | Bd a s => let y := exp_dn a in match dsgn y with Gt => Bd y s | _ => Bd zero true end
       | Inf => Bd zero true end)
      (match hi i with Bd b s => match exp_up b with Some y => Bd y s | None => Inf end | Inf => Inf end).
(** Logarithm: n (1 - 1/r) <= ln x <= n (r - 1) with r^n = x, n = 2^steps. *)
Fixpoint dsqrt_dn (k : nat) (a : dy) : dy := match k with O => a | S k => dsqrt_dn k (droot_dn 2 a) end.
Fixpoint dsqrt_up (k : nat) (a : dy) : option dy :=
  match k with O => Some a | S k => match droot_up 2 a with Some b => dsqrt_up k b | None => None end end.
Definition ln_up (a : dy) : option dy :=
  match dsqrt_up steps a with Some r => Some (rup (scale2 (dadd r (dneg one)) (Z.of_nat steps))) | None => None end.
Definition ln_dn (a : dy) : option dy :=
  let r := dsqrt_dn steps a in
  match dsgn r with Gt => Some (rdn (scale2 (dadd one (dneg (dinv_up r))) (Z.of_nat steps))) | _ => None end.
Definition iln (i : itv) : option itv :=
  if lo_pos i then
    Some (Itv (match lo i with Bd a s => match dsgn a with Gt => match ln_dn a with Some y => Bd y s | None => Inf end | _ => Inf end | Inf => Inf end)
              (match hi i with Bd b s => match dsgn b with Gt => match ln_up b with Some y => Bd y s | None => Inf end | _ => Inf end | Inf => Inf end))
  else None.

(** Comparison of all values of two intervals: [Some true] if always x <= y, [Some false] if
    never. *)
Definition bnd_lt (h l : bnd) : bool :=
  match h, l with Bd x s, Bd y t => match dcmp x y with Lt => true | Eq => s || t | Gt => false end | _, _ => false end.
Definition bnd_le (h l : bnd) : bool :=
  match h, l with Bd x _, Bd y _ => match dcmp x y with Gt => false | _ => true end | _, _ => false end.
Definition ile (i j : itv) : option bool :=
  if bnd_le (hi i) (lo j) then Some true else if bnd_lt (hi j) (lo i) then Some false else None.
Definition ilt (i j : itv) : option bool :=
  if bnd_lt (hi i) (lo j) then Some true else if bnd_le (hi j) (lo i) then Some false else None.
Definition ieq (i j : itv) : option bool :=
  if bnd_lt (hi i) (lo j) || bnd_lt (hi j) (lo i) then Some false else None.
End Precision.
