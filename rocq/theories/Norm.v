(** A normaliser for the generated programs.

    Values are generalised monomials  c * a1^q1 * ... * an^qn  with a rational
    coefficient and rational exponents over interned atoms; an atom is a variable,
    an integer (for its roots), a sum, a function application, a conditional, ...
    Two programs whose results normalise to the same term have the same value
    wherever both are defined; this is proved in NormSound.v.  Nothing in this file
    needs to be trusted. *)
From Coq Require Import Strings.Byte List Bool NArith ZArith QArith Qround FMapPositive.
From Verif Require Import Bytes Syntax.
Import ListNotations.

Module PM := PositiveMap.

(** ** Rationals, kept reduced *)
Definition qeqb (a b : Q) : bool := Z.eqb (Qnum a) (Qnum b) && Pos.eqb (Qden a) (Qden b).
Definition qis0 (a : Q) : bool := match Qnum a with Z0 => true | _ => false end.
(** [x/d] without the common divisor. *)
Definition qcross (x : Z) (d : positive) : Z * positive :=
  match d with
  | xH => (x, d)
  | _ =>
      match x with
      | Z0 => (Z0, xH)
      | Zpos xH | Zneg xH => (x, d)
      | Zpos p => let '(_, (p', d')) := Pos.ggcd p d in (Zpos p', d')
      | Zneg p => let '(_, (p', d')) := Pos.ggcd p d in (Zneg p', d')
      end
  end.
Definition qadd (a b : Q) : Q :=
  match Qden a, Qden b with
  | xH, xH => Qmake (Qnum a + Qnum b) 1
  | xH, d => Qmake (Qnum a * Zpos d + Qnum b) d
  | d, xH => Qmake (Qnum a + Qnum b * Zpos d) d
  | d, e =>
      if Pos.eqb d e then let '(x, d') := qcross (Qnum a + Qnum b) d in Qmake x d'
      else
        let '(g, (d', e')) := Pos.ggcd d e in
        let '(x, g') := qcross (Qnum a * Zpos e' + Qnum b * Zpos d') g in Qmake x (d' * e' * g')
  end.
Definition qmul (a b : Q) : Q :=
  match a, b with
  | Qmake x xH, Qmake y xH => Qmake (x * y) 1
  | Qmake (Zpos xH) xH, _ => b
  | _, Qmake (Zpos xH) xH => a
  | Qmake x d, Qmake y e =>
      let '(x, e) := qcross x e in let '(y, d) := qcross y d in Qmake (x * y) (d * e)
  end.
Definition qopp (a : Q) : Q := Qopp a.
Definition qsub (a b : Q) : Q := qadd a (qopp b).
Definition qinv (a : Q) : Q := Qinv a.
Definition qltb (a b : Q) : bool := match Qcompare a b with Lt => true | _ => false end.
Definition qleb (a b : Q) : bool := match Qcompare a b with Gt => false | _ => true end.
Definition qmin (a b : Q) : Q := if qleb a b then a else b.
Definition qmax (a b : Q) : Q := if qleb a b then b else a.
Definition q0 : Q := 0.
Definition q1 : Q := 1.
Definition qabs (a : Q) : Q := Qmake (Z.abs (Qnum a)) (Qden a).
Definition qint (a : Q) : option Z := match Qden a with xH => Some (Qnum a) | _ => None end.
Definition qoddden (a : Q) : bool := match Qden (Qred a) with xO _ => false | _ => true end.
Definition qevennum (a : Q) : bool := Z.even (Qnum (Qred a)).
(** p^k for integral k *)
Definition qpowz (p : positive) (k : Z) : Q :=
  match k with
  | Z0 => 1
  | Zpos n => Zpos (Pos.pow p n) # 1
  | Zneg n => 1 # Pos.pow p n
  end.
Definition qpown (a : Q) (n : positive) : Q := Qmake (Z.pow_pos (Qnum a) n) (Pos.pow (Qden a) n).

(** ** Terms *)
Definition aid := positive.
Definition mono := list (aid * Q).
Definition term := (Q * mono)%type.
Definition tzero : term := (q0, []).
Definition tone : term := (q1, []).
Definition tis0 (t : term) : bool := qis0 (fst t).

Inductive cond :=
| CTrue | CFalse
| CGe0 (t : term) | CGt0 (t : term) | CEq0 (t : term)
| COr (a b : cond) | CAnd (a b : cond).

Inductive def :=
| DVar (x : bstr) | DPi | DInt (p : positive)
| DSum (l : list term)
| DFn1 (f : fn1) (t : term) | DFn2 (f : bstr) (t u : term) | DFn3 (f : bstr) (t u w : term)
| DPow (t u : term)
| DIte (c : cond) (t u : term)
| DVal (t : term).

(** ** Equality tests *)
Fixpoint meqb (m n : mono) : bool :=
  match m, n with
  | [], [] => true
  | (a, e) :: m, (b, f) :: n => if Pos.eqb a b then if qeqb e f then meqb m n else false else false
  | _, _ => false
  end.
Definition teqb (t u : term) : bool := if qeqb (fst t) (fst u) then meqb (snd t) (snd u) else false.
Fixpoint leqb (l k : list term) : bool :=
  match l, k with
  | [], [] => true
  | t :: l, u :: k => if teqb t u then leqb l k else false
  | _, _ => false
  end.
Fixpoint ceqb (c d : cond) : bool :=
  match c, d with
  | CTrue, CTrue => true
  | CFalse, CFalse => true
  | CGe0 t, CGe0 u => teqb t u
  | CGt0 t, CGt0 u => teqb t u
  | CEq0 t, CEq0 u => teqb t u
  | COr a b, COr a' b' => if ceqb a a' then ceqb b b' else false
  | CAnd a b, CAnd a' b' => if ceqb a a' then ceqb b b' else false
  | _, _ => false
  end.
Definition fn1_eqb (f g : fn1) : bool :=
  match f, g with
  | FSqrt, FSqrt | FCbrt, FCbrt | FExp, FExp | FLog, FLog | FAtan, FAtan | FAsinh, FAsinh
  | FAtanh, FAtanh | FTanh, FTanh | FCosh, FCosh | FSin, FSin | FCos, FCos | FAbs, FAbs
  | FHeaviside, FHeaviside => true
  | FOp n, FOp m => beqb n m
  | _, _ => false
  end.
Definition deqb (d e : def) : bool :=
  match d, e with
  | DVar x, DVar y => beqb x y
  | DPi, DPi => true
  | DInt p, DInt q => Pos.eqb p q
  | DSum l, DSum k => leqb l k
  | DFn1 f t, DFn1 g u => if teqb t u then fn1_eqb f g else false
  | DFn2 f t u, DFn2 g t' u' => if teqb t t' then if teqb u u' then beqb f g else false else false
  | DFn3 f t u w, DFn3 g t' u' w' =>
      if teqb t t' then if teqb u u' then if teqb w w' then beqb f g else false else false else false
  | DPow t u, DPow t' u' => if teqb t t' then teqb u u' else false
  | DIte c t u, DIte d t' u' => if teqb t t' then if teqb u u' then ceqb c d else false else false
  | DVal t, DVal u => teqb t u
  | _, _ => false
  end.

(** ** Orders (only used to pick canonical forms) *)
Definition qcmp (a b : Q) : comparison :=
  match Z.compare (Qnum a) (Qnum b) with Eq => Pos.compare (Qden a) (Qden b) | c => c end.
Fixpoint mcmp (m n : mono) : comparison :=
  match m, n with
  | [], [] => Eq
  | [], _ => Lt
  | _, [] => Gt
  | (a, e) :: m, (b, f) :: n =>
      match Pos.compare a b with
      | Eq => match qcmp e f with Eq => mcmp m n | c => c end
      | c => c
      end
  end.
Definition tcmp (t u : term) : comparison :=
  match mcmp (snd t) (snd u) with Eq => qcmp (fst t) (fst u) | c => c end.
Definition ctag (c : cond) : positive :=
  (match c with CTrue => 1 | CFalse => 2 | CGe0 _ => 3 | CGt0 _ => 4 | CEq0 _ => 5 | COr _ _ => 6 | CAnd _ _ => 7 end)%positive.
Fixpoint ccmp (c d : cond) : comparison :=
  match c, d with
  | CGe0 t, CGe0 u | CGt0 t, CGt0 u | CEq0 t, CEq0 u => tcmp t u
  | COr a b, COr a' b' | CAnd a b, CAnd a' b' => match ccmp a a' with Eq => ccmp b b' | r => r end
  | _, _ => Pos.compare (ctag c) (ctag d)
  end.

(** ** Sign flags *)
Inductive flag := FU | FN | FP.     (* unknown, >= 0, > 0 *)
Definition fmin (f g : flag) : flag :=
  match f, g with FU, _ | _, FU => FU | FN, _ | _, FN => FN | FP, FP => FP end.
Definition is_pos (f : flag) : bool := match f with FP => true | _ => false end.
Definition is_nn (f : flag) : bool := match f with FU => false | _ => true end.

(** ** The table of atoms *)
Record tbl := Tbl { tmap : PM.t (def * flag); tnext : aid; thash : PM.t (list aid) }.
Definition empty_tbl : tbl := Tbl (PM.empty _) xH (PM.empty _).
Definition lookup (t : tbl) (a : aid) : option (def * flag) := PM.find a (tmap t).
Definition aflag (t : tbl) (a : aid) : flag := match lookup t a with Some (_, f) => f | None => FU end.

Fixpoint mflag (t : tbl) (m : mono) : flag :=
  match m with
  | [] => FP
  | (a, e) :: m =>
      let f := match aflag t a with
               | FP => FP
               | FN => FN
               | FU => if qoddden e && qevennum e then FN else FU
               end in
      match f with FU => FU | _ => fmin f (mflag t m) end
  end.
Definition tflag (t : tbl) (v : term) : flag :=
  match Qnum (fst v) with Z0 => FN | Zneg _ => FU | Zpos _ => mflag t (snd v) end.
Fixpoint lflag (t : tbl) (l : list term) : flag :=
  match l with
  | [] => FN
  | v :: l =>
      match tflag t v, lflag t l with
      | FU, _ | _, FU => FU
      | FN, FN => FN
      | _, _ => FP
      end
  end.
Definition dflag (vflag : bstr -> flag) (t : tbl) (d : def) : flag :=
  match d with
  | DVar x => vflag x
  | DPi => FP
  | DInt _ => FP
  | DSum l => lflag t l
  | DFn1 FExp _ => FP
  | DFn1 FAbs _ => FN
  | DIte _ u v => fmin (tflag t u) (tflag t v)
  | DVal u => tflag t u
  | _ => FU
  end.

(** A cheap hash, to find interned atoms quickly. *)
Definition zabsp (z : Z) : positive := match z with Z0 => xH | Zpos p => p | Zneg p => xO p end.
Fixpoint mhash (m : mono) : positive :=
  match m with [] => xH | (a, e) :: m => (a + xO (xO (Pos.min (zabsp (Qnum e)) 64)) + mhash m)%positive end.
Definition thashv (v : term) : positive := (mhash (snd v) + Pos.min (zabsp (Qnum (fst v))) 1024)%positive.
Fixpoint lhash (l : list term) : positive :=
  match l with [] => 3%positive | v :: l => (thashv v + lhash l)%positive end.
Definition dhash (d : def) : positive :=
  match d with
  | DVar x => enc x
  | DPi => xH
  | DInt p => xO p
  | DSum l => xI (lhash l)
  | DFn1 _ t => xI (xO (thashv t))
  | DFn2 _ t u => xI (xO (thashv t + thashv u))
  | DFn3 _ t u w => xI (xO (thashv t + thashv u + thashv w))
  | DPow t u => xO (xO (thashv t + thashv u))
  | DIte _ t u => xO (xI (thashv t + thashv u))
  | DVal t => xI (xI (thashv t))
  end.

(** ** State monad with failure *)
Definition M (A : Type) := tbl -> option (A * tbl).
Definition ret {A} (a : A) : M A := fun t => Some (a, t).
Definition bind {A B} (m : M A) (k : A -> M B) : M B :=
  fun t => match m t with Some (a, t) => k a t | None => None end.
Definition fail {A} : M A := fun _ => None.
Definition get : M tbl := fun t => Some (t, t).
Definition lift {A} (o : option A) : M A := match o with Some a => ret a | None => fail end.
Declare Scope norm_scope.
Notation "x <- m ;; k" := (bind m (fun x => k))
  (at level 61, m at next level, right associativity) : norm_scope.
Open Scope norm_scope.

Record config := Config {
  vflags : list (bstr * flag);
  known : list (cond * bool);
  excl : list (cond * cond);
  kmax : N }.
Definition vflag_of (l : list (bstr * flag)) (x : bstr) : flag :=
  match find (fun p => beqb x (fst p)) l with Some (_, f) => f | None => FU end.

Fixpoint find_atom (t : tbl) (d : def) (l : list aid) : option aid :=
  match l with
  | [] => None
  | a :: l =>
      match lookup t a with
      | Some (d', _) => if deqb d d' then Some a else find_atom t d l
      | None => find_atom t d l
      end
  end.

Section WithConfig.
Variable cfg : config.

Definition intern (d : def) : M aid := fun t =>
  let h := dhash d in
  let bucket := match PM.find h (thash t) with Some l => l | None => [] end in
  match find_atom t d bucket with
  | Some a => Some (a, t)
  | None =>
      let a := tnext t in
      match lookup t a with
      | Some _ => None
      | None =>
          Some (a, Tbl (PM.add a (d, dflag (vflag_of (vflags cfg)) t d) (tmap t))
                       (Pos.succ a) (PM.add h (a :: bucket) (thash t)))
      end
  end.
Definition atom (d : def) : M term := a <- intern d ;; ret (q1, [(a, q1)]).

(** ** Monomials *)
Fixpoint mmul (m : mono) : mono -> mono :=
  match m with
  | [] => fun n => n
  | (a, e) :: m' =>
      fix aux (n : mono) : mono :=
        match n with
        | [] => m
        | (b, f) :: n' =>
            match Pos.compare a b with
            | Lt => (a, e) :: mmul m' n
            | Gt => (b, f) :: aux n'
            | Eq => let g := qadd e f in if qis0 g then mmul m' n' else (a, g) :: mmul m' n'
            end
        end
  end.

(** Move the integral part of the exponents of integer atoms into the coefficient. *)
Fixpoint mfix (t : tbl) (m : mono) : Q * mono :=
  match m with
  | [] => (q1, [])
  | (a, e) :: m =>
      let '(c, m') := mfix t m in
      match lookup t a with
      | Some (DInt p, _) =>
          let k := Qfloor e in
          match k with
          | Z0 => (c, (a, e) :: m')
          | _ => let e' := qsub e (k # 1) in
                 (qmul c (qpowz p k), if qis0 e' then m' else (a, e') :: m')
          end
      | _ => (c, (a, e) :: m')
      end
  end.
Definition tmk (t : tbl) (c : Q) (m : mono) : term :=
  if qis0 c then tzero else let '(k, m') := mfix t m in (qmul c k, m').

Definition tmul (t : tbl) (v w : term) : term :=
  if qis0 (fst v) then tzero else if qis0 (fst w) then tzero
  else tmk t (qmul (fst v) (fst w)) (mmul (snd v) (snd w)).
Definition tscale (c : Q) (v : term) : term :=
  if qis0 c then tzero else if qis0 (fst v) then tzero else (qmul c (fst v), snd v).
Definition tneg (v : term) : term := (qopp (fst v), snd v).
Definition mscale (q : Q) (m : mono) : mono := map (fun p => (fst p, qmul (snd p) q)) m.
Definition mopp (m : mono) : mono := map (fun p => (fst p, qopp (snd p))) m.
Definition tinv (t : tbl) (v : term) : term :=
  if qis0 (fst v) then tzero else tmk t (qinv (fst v)) (mopp (snd v)).
Definition tpowi (t : tbl) (v : term) (n : positive) : term :=
  tmk t (qpown (fst v) n) (mscale (Zpos n # 1) (snd v)).

(** ** Sums: lists of terms ordered by monomial *)
Fixpoint ladd (l : list term) : list term -> list term :=
  match l with
  | [] => fun k => k
  | (c, m) :: l' =>
      fix aux (k : list term) : list term :=
        match k with
        | [] => l
        | (d, n) :: k' =>
            match mcmp m n with
            | Lt => (c, m) :: ladd l' k
            | Gt => (d, n) :: aux k'
            | Eq =>
                if meqb m n then
                  let e := qadd c d in if qis0 e then ladd l' k' else (e, m) :: ladd l' k'
                else (c, m) :: ladd l' k
            end
        end
  end.
Definition lsort (l : list term) : list term := fold_right (fun v acc => ladd [v] acc) [] l.

(** Number of terms of the full expansion. *)
Fixpoint nterms (t : tbl) (m : mono) : N :=
  match m with
  | [] => 1%N
  | (a, e) :: m =>
      match lookup t a, qint e with
      | Some (DSum l, _), Some (Zpos n) => (N.pow (N.of_nat (length l)) (Npos n) * nterms t m)%N
      | _, _ => nterms t m
      end
  end.
(** Take out one factor that is a sum. *)
Fixpoint pick_sum (t : tbl) (m : mono) : option (list term * mono) :=
  match m with
  | [] => None
  | (a, e) :: m' =>
      match lookup t a, qint e with
      | Some (DSum l, _), Some (Zpos n) =>
          Some (l, match n with xH => m' | _ => (a, Zpos (Pos.pred n) # 1) :: m' end)
      | _, _ => match pick_sum t m' with Some (l, r) => Some (l, (a, e) :: r) | None => None end
      end
  end.
(** Flat sums: only one sum at power one is taken apart, whatever the number of terms.  Chosen by
    [kmax] 1 (common factors stay in the sum) and 2 (they are taken out of sums of at most 8 terms). *)
Definition flat : bool := N.eqb (kmax cfg) 1 || N.eqb (kmax cfg) 2.
Fixpoint pick_flat (t : tbl) (m : mono) : option (list term * mono) :=
  match m with
  | [] => None
  | (a, e) :: m' =>
      match pick_flat t m' with
      | Some (l, r) => Some (l, (a, e) :: r)
      | None =>
          match lookup t a with
          | Some (DSum l, _) => if qeqb e q1 then Some (l, m') else None
          | _ => None
          end
      end
  end.
Fixpoint expand (n : nat) (t : tbl) (force : bool) (v : term) : option (list term) :=
  match n with
  | O => None
  | S n =>
      if tis0 v then Some []
      else if flat then
        match pick_flat t (snd v) with
        | Some (l, r) => Some (map (tmul t (fst v, r)) l)
        | None => Some [v]
        end
      else
        match pick_sum t (snd v) with
        | None => Some [v]
        | Some (l, []) => Some (map (tscale (fst v)) l)
        | Some (l, r) =>
            if orb force (N.leb (nterms t (snd v)) (kmax cfg)) then
              fold_right
                (fun u acc =>
                   match acc, expand n t true (tmul t (fst v, r) u) with
                   | Some acc, Some k => Some (ladd k acc)
                   | _, _ => None
                   end) (Some []) l
            else Some [v]
        end
  end.

(** Common monomial factor, with least exponents (negative ones included). *)
Fixpoint cmin (m : mono) : mono -> mono :=
  match m with
  | [] => fix aux (n : mono) : mono :=
      match n with
      | [] => []
      | (b, f) :: n' => if qltb f q0 then (b, f) :: aux n' else aux n'
      end
  | (a, e) :: m' =>
      fix aux (n : mono) : mono :=
        match n with
        | [] => if qltb e q0 then (a, e) :: cmin m' [] else cmin m' []
        | (b, f) :: n' =>
            match Pos.compare a b with
            | Lt => if qltb e q0 then (a, e) :: cmin m' n else cmin m' n
            | Gt => if qltb f q0 then (b, f) :: aux n' else aux n'
            | Eq => (a, qmin e f) :: cmin m' n'
            end
        end
  end.
Definition is_int_atom (t : tbl) (a : aid) : bool :=
  match lookup t a with Some (DInt _, _) => true | _ => false end.
Definition content (t : tbl) (l : list term) : mono :=
  if N.eqb (kmax cfg) 1 || (flat && Nat.ltb 8 (length l)) then [] else
  match l with
  | [] => []
  | v :: l =>
      filter (fun p => flat || negb (is_int_atom t (fst p)))
             (fold_left (fun g u => cmin g (snd u)) l (snd v))
  end.
Fixpoint mexp (m : mono) (a : aid) : option Q :=
  match m with [] => None | (b, e) :: m => if Pos.eqb a b then Some e else mexp m a end.
(** Lower the exponent of [a] by [k]. *)
Fixpoint msub (m : mono) (a : aid) (k : Q) : mono :=
  match m with
  | [] => [(a, qopp k)]
  | (b, e) :: m' =>
      match Pos.compare a b with
      | Eq => let e' := qsub e k in if qis0 e' then m' else (b, e') :: m'
      | Lt => if existsb (fun p => Pos.eqb a (fst p)) m' then (b, e) :: msub m' a k
              else (a, qopp k) :: m
      | Gt => (b, e) :: msub m' a k
      end
  end.
Definition pull1 (l : list term) (a : aid) (k : Q) : option (list term) :=
  if (if qltb q0 k
      then forallb (fun v => match mexp (snd v) a with Some e => qleb k e | None => false end) l
      else qltb k q0)
     && existsb (fun v => match mexp (snd v) a with Some e => qeqb e k | None => false end) l
  then Some (map (fun v => (fst v, msub (snd v) a k)) l)
  else None.
Fixpoint pull (l : list term) (g : mono) : option (list term) :=
  match g with
  | [] => Some l
  | (a, k) :: g => match pull1 l a k with Some l => pull l g | None => None end
  end.

Definition fromterms (l : list term) : M term :=
  match l with
  | [] => ret tzero
  | [v] => ret v
  | _ =>
      t <- get ;;
      let g := content t l in
      l <- lift (pull l g) ;;
      let l := lsort l in
      let lead := match l with v :: _ => fst v | [] => q1 end in
      if qis0 lead then fail
      else
        let il := qinv lead in
        s <- intern (DSum (map (fun v => (qmul il (fst v), snd v)) l)) ;;
        t <- get ;;
        ret (tmul t (q1, g) (lead, [(s, q1)]))
  end.

Fixpoint expand_all (t : tbl) (vs : list term) : option (list term) :=
  match vs with
  | [] => Some []
  | v :: vs =>
      match expand 60 t false v, expand_all t vs with
      | Some l, Some k => Some (ladd (lsort l) k)
      | _, _ => None
      end
  end.
Definition tsum (vs : list term) : M term :=
  match filter (fun v => negb (tis0 v)) vs with
  | [] => ret tzero
  | [v] => ret v
  | vs =>
      t <- get ;;
      let g := content t vs in
      vs <- lift (pull vs g) ;;
      l <- lift (expand_all t vs) ;;
      r <- fromterms l ;;
      t <- get ;;
      ret (tmul t (q1, g) r)
  end.

(** ** Powers *)
Definition small_primes : list positive :=
  [2; 3; 5; 7; 11; 13; 17; 19; 23; 29; 31; 37; 41; 43; 47; 53; 59]%positive.
Fixpoint divide_out (n : nat) (p : positive) (x : positive) (k : N) : positive * N :=
  match n with
  | O => (x, k)
  | S n =>
      match Z.modulo (Zpos x) (Zpos p), Z.div (Zpos x) (Zpos p) with
      | Z0, Zpos y => divide_out n p y (N.succ k)
      | _, _ => (x, k)
      end
  end.
Fixpoint factor_with (ps : list positive) (x : positive) : list (positive * positive) :=
  match ps with
  | [] => match x with xH => [] | _ => [(x, xH)] end
  | p :: ps =>
      let '(y, k) := divide_out 400 p x 0 in
      match k with
      | N0 => factor_with ps y
      | Npos k => (p, k) :: factor_with ps y
      end
  end.
Definition prod_factors (l : list (positive * positive)) : positive :=
  fold_right (fun p acc => (Pos.pow (fst p) (snd p) * acc)%positive) xH l.
Definition factor (x : positive) : list (positive * positive) :=
  let l := factor_with small_primes x in
  if Pos.eqb (prod_factors l) x then l else [(x, xH)].

(** prod p_i^(k_i q) as a term *)
Fixpoint cpow_list (q : Q) (l : list (positive * positive)) : M term :=
  match l with
  | [] => ret tone
  | (p, k) :: l =>
      r <- cpow_list q l ;;
      a <- intern (DInt p) ;;
      t <- get ;;
      ret (tmul t (tmk t q1 [(a, qmul q (Zpos k # 1))]) r)
  end.
(** (n/d)^q, n, d > 0 *)
Definition cpow (n d : positive) (q : Q) : M term :=
  x <- cpow_list q (factor n) ;;
  y <- cpow_list (qopp q) (factor d) ;;
  t <- get ;;
  ret (tmul t x y).

Definition tpowq (v : term) (q : Q) : M term :=
  match qint q with
  | Some Z0 => ret tone
  | Some (Zpos n) => t <- get ;; ret (tpowi t v n)
  | Some (Zneg n) => t <- get ;; ret (tpowi t (tinv t v) n)
  | None =>
      match Qnum (fst v) with
      | Z0 => ret (if qis0 q then tone else tzero)
      | Zpos n | Zneg n =>
          let neg := match Qnum (fst v) with Zneg _ => true | _ => false end in
          cr <- cpow n (Qden (fst v)) q ;;
          t <- get ;;
          let m := snd v in
          if orb (qoddden q) (andb (negb neg) (forallb (fun p => is_nn (aflag t (fst p))) m)) then
            let r := tmul t cr (tmk t q1 (mscale q m)) in
            ret (if neg && negb (qevennum q) then tneg r else r)
          else
            let P := filter (fun p => is_pos (aflag t (fst p))) m in
            let R := filter (fun p => negb (is_pos (aflag t (fst p)))) m in
            let r := tmul t cr (tmk t q1 (mscale q P)) in
            match neg, R with
            | false, [(a, e)] =>
                if qeqb e q1 then ret (tmul t r (q1, [(a, q)]))
                else x <- intern (DVal (q1, R)) ;; t <- get ;; ret (tmul t r (q1, [(x, q)]))
            | _, _ =>
                x <- intern (DVal (if neg then qopp q1 else q1, R)) ;; t <- get ;;
                ret (tmul t r (q1, [(x, q)]))
            end
      end
  end.

(** ** Conditions *)
Definition known_of (c : cond) : cond :=
  match find (fun p => ceqb c (fst p)) (known cfg) with
  | Some (_, true) => CTrue
  | Some (_, false) => CFalse
  | None => c
  end.
Definition is_excl (c d : cond) : bool :=
  existsb (fun p => orb (ceqb c (fst p) && ceqb d (snd p)) (ceqb c (snd p) && ceqb d (fst p))) (excl cfg).

(** Drop positive factors. *)
Definition strip_pos (t : tbl) (m : mono) : mono := filter (fun p => negb (is_pos (aflag t (fst p)))) m.
Definition tprim (t : tbl) (v : term) : term :=
  (match Qnum (fst v) with Zneg _ => qopp q1 | _ => q1 end, strip_pos t (snd v)).
Definition ge0 (t : tbl) (d : term) : cond :=
  match Qnum (fst d) with
  | Z0 => CTrue
  | Zpos _ => if is_nn (mflag t (snd d)) then CTrue else known_of (CGe0 (tprim t d))
  | Zneg _ => if is_pos (mflag t (snd d)) then CFalse else known_of (CGe0 (tprim t d))
  end.
Definition gt0 (t : tbl) (d : term) : cond :=
  match Qnum (fst d) with
  | Z0 => CFalse
  | Zpos _ => if is_pos (mflag t (snd d)) then CTrue else known_of (CGt0 (tprim t d))
  | Zneg _ => if is_nn (mflag t (snd d)) then CFalse else known_of (CGt0 (tprim t d))
  end.
Definition eq0 (t : tbl) (d : term) : cond :=
  match Qnum (fst d) with
  | Z0 => CTrue
  | _ => if is_pos (mflag t (snd d)) then CFalse
         else known_of (CEq0 (q1, strip_pos t (snd d)))
  end.
Definition ncmp (o : cmpop) (a b : term) : M cond :=
  d <- tsum [b; tneg a] ;;
  t <- get ;;
  ret (match o with CLe => ge0 t d | CLt => gt0 t d | CEq => eq0 t d end).
Definition nor (a b : cond) : cond :=
  match a, b with
  | CTrue, _ | _, CTrue => CTrue
  | CFalse, c | c, CFalse => c
  | _, _ => match ccmp a b with
            | Eq => if ceqb a b then a else COr a b
            | Lt => COr a b
            | Gt => COr b a
            end
  end.
Definition nand (a b : cond) : cond :=
  match a, b with
  | CFalse, _ | _, CFalse => CFalse
  | CTrue, c | c, CTrue => c
  | _, _ => match ccmp a b with
            | Eq => if ceqb a b then a else CAnd a b
            | Lt => CAnd a b
            | Gt => CAnd b a
            end
  end.

(** ** Conditionals *)
Definition as_ite (t : tbl) (v : term) : option (cond * term * term) :=
  match v with
  | (c, [(a, e)]) =>
      if qeqb e q1 then
        match lookup t a with
        | Some (DIte k x y, _) => Some (k, tscale c x, tscale c y)
        | _ => None
        end
      else None
  | _ => None
  end.
Fixpoint assume (n : nat) (t : tbl) (c : cond) (b : bool) (v : term) : term :=
  match n with
  | O => v
  | S n =>
      match as_ite t v with
      | Some (k, x, y) =>
          if ceqb k c then assume n t c b (if b then x else y)
          else if b && is_excl c k then assume n t c b y
          else v
      | None => v
      end
  end.
(** Factors common to both branches. *)
Definition div_ok (e k : Q) : bool :=
  ((qltb q0 k && qleb k e) || (qltb k q0 && qleb e k)) && (qoddden k || negb (qoddden e)).
Fixpoint icommon (m n : mono) : mono :=
  match m with
  | [] => []
  | (a, e) :: m =>
      match mexp n a with
      | Some f =>
          let k := if qltb q0 e then qmin e f else qmax e f in
          if div_ok e k && div_ok f k then (a, k) :: icommon m n else icommon m n
      | None => icommon m n
      end
  end.
Definition msub_safe (m : mono) (a : aid) (k : Q) : option mono :=
  match mexp m a with
  | Some e =>
      if div_ok e k then Some (msub m a k) else None
  | None => None
  end.
Fixpoint msubs (m : mono) (g : mono) : option mono :=
  match g with
  | [] => Some m
  | (a, k) :: g => match msub_safe m a k with Some m => msubs m g | None => None end
  end.
(** A long factor would make long powers: it stays inside. *)
Definition long (q : Q) : bool := Pos.ltb 1000000 (Qden q).
Definition ite0 (c : cond) (a b : term) : M term :=
  if teqb a b then ret a
  else
    let l := if tis0 a then fst b else if long (fst a) then q1 else fst a in
    if qis0 l then fail
    else
      let g := if tis0 a then [] else if tis0 b then [] else icommon (snd a) (snd b) in
      ma <- lift (msubs (snd a) g) ;;
      mb <- lift (msubs (snd b) g) ;;
      let il := qinv l in
      x <- intern (DIte c (qmul (fst a) il, ma) (qmul (fst b) il, mb)) ;;
      t <- get ;;
      ret (tmul t (l, g) (q1, [(x, q1)])).
(** ** Functions *)
Definition odd_fn (f : fn1) : bool :=
  match f with FAtan | FAsinh | FTanh | FSin | FAtanh => true | _ => false end.
Definition is_neg (v : term) : bool := match Qnum (fst v) with Zneg _ => true | _ => false end.
Definition nfn1 (f : fn1) (v : term) : M term :=
  match f with
  | FSqrt => tpowq v (1 # 2)
  | FCbrt => tpowq v (1 # 3)
  | FAbs =>
      t <- get ;;
      if tis0 v then ret tzero
      else if is_nn (mflag t (snd v)) then ret (qabs (fst v), snd v)
      else a <- intern (DFn1 FAbs (q1, snd v)) ;; ret (qabs (fst v), [(a, q1)])
  | FExp => if tis0 v then ret tone else atom (DFn1 FExp v)
  | FLog => if teqb v tone then ret tzero else atom (DFn1 FLog v)
  | _ =>
      if odd_fn f then
        if tis0 v then ret tzero
        else if is_neg v then r <- atom (DFn1 f (tneg v)) ;; ret (tneg r)
        else atom (DFn1 f v)
      else atom (DFn1 f v)
  end.
Definition npow (b x : term) : M term :=
  match snd x with
  | [] => tpowq b (fst x)
  | _ => if teqb b tone then ret tone else atom (DPow b x)
  end.

(** The condition compares [a] with 0. *)
Definition sign_cond (t : tbl) (c : cond) (a : term) : bool :=
  match c with CGt0 v | CGe0 v => negb (tis0 a) && teqb v (tprim t a) | _ => false end.
Definition nite (c : cond) (a b : term) : M term :=
  match c with
  | CTrue => ret a
  | CFalse => ret b
  | _ =>
      t <- get ;;
      let a := assume 20 t c true a in
      let b := assume 20 t c false b in
      if teqb a b then ret a
      else if teqb b (tneg a) && sign_cond t c a then nfn1 FAbs a
      else if teqb b (tneg a) && sign_cond t c b then r <- nfn1 FAbs a ;; ret (tneg r)
      else
        match as_ite t b with
        | Some (k, x, y) =>
            if is_excl c k && (match ccmp k c with Lt => true | _ => false end) then
              z <- ite0 c a y ;; ite0 k x z
            else ite0 c a b
        | None => ite0 c a b
        end
  end.

(** ** Expressions and programs *)
Inductive sval := SR (t : term) | SB (c : cond).
(** A value, or a sum whose terms have not been collected yet. *)
Inductive lval := LV (v : sval) | LSum (l : list term).

Definition senv := PM.t sval.

Definition force (x : lval) : M sval :=
  match x with
  | LV v => ret v
  | LSum l => t <- tsum l ;; ret (SR t)
  end.
Definition force_r (x : lval) : M term :=
  v <- force x ;; match v with SR t => ret t | SB _ => fail end.
Definition force_b (x : lval) : M cond :=
  v <- force x ;; match v with SB c => ret c | SR _ => fail end.
Definition aslist (x : lval) : M (list term) :=
  match x with LV (SR t) => ret [t] | LV (SB _) => fail | LSum l => ret l end.
Definition rr (m : M term) : M lval := t <- m ;; ret (LV (SR t)).
Definition bb (m : M cond) : M lval := c <- m ;; ret (LV (SB c)).

Fixpoint nexpr (env : senv) (e : expr) : M lval :=
  match e with
  | ENum q => ret (LV (SR (if qis0 q then tzero else (q, []))))
  | EPi => rr (atom DPi)
  | EVar x =>
      match PM.find (enc x) env with
      | Some v => ret (LV v)
      | None => rr (atom (DVar x))
      end
  | ENeg a => x <- nexpr env a ;; l <- aslist x ;; ret (LSum (map tneg l))
  | EAdd a b =>
      x <- nexpr env a ;; y <- nexpr env b ;;
      l <- aslist x ;; k <- aslist y ;; ret (LSum (l ++ k))
  | ESub a b =>
      x <- nexpr env a ;; y <- nexpr env b ;;
      l <- aslist x ;; k <- aslist y ;; ret (LSum (l ++ map tneg k))
  | EMul a b =>
      x <- nexpr env a ;; y <- nexpr env b ;;
      v <- force_r x ;; w <- force_r y ;; t <- get ;; ret (LV (SR (tmul t v w)))
  | EDiv a b =>
      x <- nexpr env a ;; y <- nexpr env b ;;
      v <- force_r x ;; w <- force_r y ;; t <- get ;; ret (LV (SR (tmul t v (tinv t w))))
  | EPow a b =>
      x <- nexpr env a ;; y <- nexpr env b ;;
      v <- force_r x ;; w <- force_r y ;; rr (npow v w)
  | ECmp o a b =>
      x <- nexpr env a ;; y <- nexpr env b ;;
      v <- force_r x ;; w <- force_r y ;; bb (ncmp o v w)
  | EOr a b =>
      x <- nexpr env a ;; y <- nexpr env b ;;
      v <- force_b x ;; w <- force_b y ;; ret (LV (SB (nor v w)))
  | EAnd a b =>
      x <- nexpr env a ;; y <- nexpr env b ;;
      v <- force_b x ;; w <- force_b y ;; ret (LV (SB (nand v w)))
  | ECond c a b =>
      x <- nexpr env c ;; y <- nexpr env a ;; z <- nexpr env b ;;
      k <- force_b x ;; v <- force_r y ;; w <- force_r z ;; rr (nite k v w)
  | EFn1 f a => x <- nexpr env a ;; v <- force_r x ;; rr (nfn1 f v)
  | EFn2 f a b =>
      x <- nexpr env a ;; y <- nexpr env b ;;
      v <- force_r x ;; w <- force_r y ;; rr (atom (DFn2 f v w))
  | EFn3 f a b c =>
      x <- nexpr env a ;; y <- nexpr env b ;; z <- nexpr env c ;;
      v <- force_r x ;; w <- force_r y ;; u <- force_r z ;; rr (atom (DFn3 f v w u))
  end.

Definition nval (env : senv) (e : expr) : M sval := x <- nexpr env e ;; force x.

Fixpoint nexec (env : senv) (p : program) : M senv :=
  match p with
  | [] => ret env
  | (x, e) :: p => v <- nval env e ;; nexec (PM.add (enc x) v env) p
  end.

(** Initial environment: some inputs are given by expressions over the base
    variables. *)
Fixpoint ninit (l : list (bstr * expr)) (env : senv) : M senv :=
  match l with
  | [] => ret env
  | (x, e) :: l => v <- nval (PM.empty _) e ;; env <- ninit l env ;; ret (PM.add (enc x) v env)
  end.

(** A run of a program, its result being bound to a name. *)
Record run := Run { run_name : bstr; run_prog : program; run_init : list (bstr * expr) }.
Definition nrun (r : run) : M sval :=
  env <- ninit (run_init r) (PM.empty _) ;;
  env <- nexec env (run_prog r) ;;
  match PM.find (enc "res"%b) env with Some (SR t) => ret (SR t) | _ => fail end.
Fixpoint nruns (l : list run) (env : senv) : M senv :=
  match l with
  | [] => ret env
  | r :: l => v <- nrun r ;; env <- nruns l env ;; ret (PM.add (enc (run_name r)) v env)
  end.
End WithConfig.

(** ** The equality checker *)
Record problem := Problem {
  pb_flags : list (bstr * flag);
  pb_known : list (expr * bool);
  pb_excl : list (expr * expr);
  pb_kmax : N;
  pb_runs : list run;
  pb_goals : list (expr * expr) }.

Definition ncond (cfg : config) (e : expr) : M cond :=
  v <- nval cfg (PM.empty _) e ;; match v with SB c => ret c | SR _ => fail end.
Fixpoint nknown (cfg : config) (l : list (expr * bool)) : M (list (cond * bool)) :=
  match l with
  | [] => ret []
  | (e, b) :: l => c <- ncond cfg e ;; k <- nknown cfg l ;; ret ((c, b) :: k)
  end.
Fixpoint nexcl (cfg : config) (l : list (expr * expr)) : M (list (cond * cond)) :=
  match l with
  | [] => ret []
  | (e, e') :: l => c <- ncond cfg e ;; d <- ncond cfg e' ;; k <- nexcl cfg l ;; ret ((c, d) :: k)
  end.
Definition sval_eqb (v w : sval) : bool :=
  match v, w with SR t, SR u => teqb t u | SB c, SB d => ceqb c d | _, _ => false end.
Fixpoint ngoals (cfg : config) (env : senv) (l : list (expr * expr)) : M bool :=
  match l with
  | [] => ret true
  | (a, b) :: l =>
      v <- nval cfg env a ;; w <- nval cfg env b ;;
      r <- ngoals cfg env l ;; ret (sval_eqb v w && r)
  end.

Definition nproblem (p : problem) : M bool :=
  let cfg0 := Config (pb_flags p) [] [] (pb_kmax p) in
  k <- nknown cfg0 (pb_known p) ;;
  x <- nexcl cfg0 (pb_excl p) ;;
  let cfg := Config (pb_flags p) k x (pb_kmax p) in
  env <- nruns cfg (pb_runs p) (PM.empty _) ;;
  ngoals cfg env (pb_goals p).

(** ** Well-formedness of the final table *)
Definition mono_lt (a : aid) (m : mono) : bool := forallb (fun p => Pos.ltb (fst p) a) m.
Definition term_lt (a : aid) (t : term) : bool := mono_lt a (snd t).
Fixpoint cond_lt (a : aid) (c : cond) : bool :=
  match c with
  | CTrue | CFalse => true
  | CGe0 t | CGt0 t | CEq0 t => term_lt a t
  | COr c d | CAnd c d => cond_lt a c && cond_lt a d
  end.
Definition def_lt (a : aid) (d : def) : bool :=
  match d with
  | DVar _ | DPi | DInt _ => true
  | DSum l => forallb (term_lt a) l
  | DFn1 _ t => term_lt a t
  | DFn2 _ t u => term_lt a t && term_lt a u
  | DFn3 _ t u w => term_lt a t && term_lt a u && term_lt a w
  | DPow t u => term_lt a t && term_lt a u
  | DIte c t u => cond_lt a c && term_lt a t && term_lt a u
  | DVal t => term_lt a t
  end.
Definition flag_le (f g : flag) : bool :=
  match f, g with FU, _ => true | FN, FU => false | FN, _ => true | FP, FP => true | FP, _ => false end.
Definition tbl_ok (fl : list (bstr * flag)) (t : tbl) : bool :=
  forallb (fun p => def_lt (fst p) (fst (snd p)) &&
                    flag_le (snd (snd p)) (dflag (vflag_of fl) t (fst (snd p))))
          (PM.elements (tmap t)).

Definition check (p : problem) : bool :=
  match nproblem p empty_tbl with
  | Some (true, t) => tbl_ok (pb_flags p) t
  | _ => false
  end.
