(** The generator of the wrapper of a libxc C file: /repo/gen_repo/libxc/wrap.py:20-85 and
    /repo/gen_repo/libxc/wrap.cc.jinja.

    Each [re.findall] is written out as the leftmost, non-overlapping matching of its regular
    expression, with lazy and greedy groups resolved as Python does.  The text is ASCII
    without the control characters 0x1c to 0x1f, which Python counts as blanks.  The
    set of struct names (wrap.py:42) is the list of the names in order of first appearance;
    Python iterates over it in an unspecified order.  File access and the text layer of the
    template are not modelled: the result is the list of macro calls. *)
From Coq Require Import Strings.Byte List Bool Arith.
From Verif Require Import Bytes Parser Impl Records.
Import ListNotations.

(** The text after the first occurrence of [p]. *)
Fixpoint find (p s : bstr) : option bstr :=
  match bstrip p s with
  | Some r => Some r
  | None => match s with bnil => None | bcons _ s => find p s end
  end.
(** Successive matches of a pattern given by its match at a position: the captured value and the
    rest of the text. *)
Section Findall.
Context {A : Type} (at_ : bstr -> option (A * bstr)).
Fixpoint findall_fuel (n : nat) (s : bstr) : list A :=
  match n with
  | O => []
  | S n =>
      match at_ s with
      | Some (a, r) => a :: findall_fuel n r
      | None => match s with bnil => [] | bcons _ s => findall_fuel n s end
      end
  end.
Definition findall (s : bstr) : list A := findall_fuel (S (blen s)) s.
End Findall.

(** ** wrap.py:24-28
    The name is the whole word before the parenthesis, since the suffix of the pattern ends with
    that parenthesis; the two lazy groups reach the first malloc. *)
Fixpoint bends (suf s : bstr) : bool := beqb suf s || match s with bnil => false | bcons _ s => bends suf s end.
Definition init_at (s : bstr) : option ((bstr * bstr) * bstr) :=
  let '(w, r) := span is_word s in
  if bends "_init" w then
    match bstrip "(xc_func_type *p)" r with
    | Some r =>
        match find "libxc_malloc(sizeof(" r with
        | Some r => let '(st, r) := span is_word r in Some ((w, st), r)
        | None => None
        end
    | None => None
    end
  else None.
Definition init_results (s : bstr) : list (bstr * bstr) := findall init_at s.

(** ** wrap.py:30-36, within one line *)
Fixpoint lines (s : bstr) : list bstr :=
  match s with
  | bnil => [bnil]
  | bcons b s =>
      if Byte.eqb b x0a then bnil :: lines s
      else match lines s with l :: ls => bcons b l :: ls | [] => [bcons b bnil] end
  end.
(** The greedy group, one arbitrary character, the letter c and the closing quote: the group and
    the rest of the line. *)
Fixpoint group_c (s : bstr) : option (bstr * bstr) :=
  match s with
  | bnil => None
  | bcons b s' =>
      match group_c s' with
      | Some (g, r) => Some (bcons b g, r)
      | None => match bstrip "c""" s' with Some r => Some (bnil, r) | None => None end
      end
  end.
(** The greedy prefix up to a slash: the last slash that leaves a match. *)
Fixpoint last_slash (s : bstr) : option (bstr * bstr) :=
  match s with
  | bnil => None
  | bcons b s' =>
      match last_slash s' with
      | Some x => Some x
      | None => if Byte.eqb b "/" then group_c s' else None
      end
  end.
Definition maple_at (s : bstr) : option (bstr * bstr) :=
  match bstrip "#include ""maple2c/" s with Some r => last_slash r | None => None end.
(** The same with a literal dot, for the work file. *)
Fixpoint group_dot_c (s : bstr) : option (bstr * bstr) :=
  match (match s with
         | bnil => None
         | bcons b s' => match group_dot_c s' with Some (g, r) => Some (bcons b g, r) | None => None end
         end) with
  | Some x => Some x
  | None => match bstrip ".c""" s with Some r => Some (bnil, r) | None => None end
  end.
Definition work_at (s : bstr) : option (bstr * bstr) :=
  match bstrip "#include """ s with
  | Some r =>
      match bstrip "work_" r with
      | Some r => match group_dot_c r with Some (g, r) => Some ("work_" +++ g, r) | None => None end
      | None => None
      end
  | None => None
  end.
Definition maple_names (s : bstr) : list bstr := flat_map (findall maple_at) (lines s).
Definition work_names (s : bstr) : list bstr := flat_map (findall work_at) (lines s).
Definition register_maple (s : bstr) : res (option (bstr * bstr)) :=
  match maple_names s, work_names s with
  | _ :: _ :: _, _ => Err ValueError
  | _, _ :: _ :: _ => Err ValueError
  | _, [] => Ok None
  | [], [_] => Err IndexError
  | [m], [w] => Ok (Some (w, m))
  end.

(** ** wrap.py:46-50: the body lazily, up to a closing brace, blanks and the name *)
Definition drop_ws (s : bstr) : bstr := snd (span is_space s).
Definition closing (name s : bstr) : option bstr :=
  match bstrip "}" s with
  | Some r => match name with bnil => Some r | _ => bstrip name (drop_ws r) end
  | None => None
  end.
Fixpoint body_until (name s : bstr) : option (bstr * bstr) :=
  match closing name s with
  | Some r => Some (bnil, r)
  | None =>
      match s with
      | bnil => None
      | bcons b s => match body_until name s with Some (x, r) => Some (bcons b x, r) | None => None end
      end
  end.
Definition struct_at (name s : bstr) : option (bstr * bstr) :=
  match bstrip "typedef struct" s with
  | Some r => match bstrip "{" (drop_ws r) with Some r => body_until name r | None => None end
  | None => None
  end.
Definition struct_results (name s : bstr) : list bstr := findall (struct_at name) s.

(** ** wrap.py:60-76: the fields of a struct body *)
(** re.sub of a pattern by nothing. *)
Section Delete.
Context (at_ : bstr -> option bstr).
Fixpoint delete_fuel (n : nat) (s : bstr) : bstr :=
  match n with
  | O => s
  | S n =>
      match at_ s with
      | Some r => delete_fuel n r
      | None => match s with bnil => bnil | bcons b s => bcons b (delete_fuel n s) end
      end
  end.
Definition delete (s : bstr) : bstr := delete_fuel (S (blen s)) s.
End Delete.
(** wrap.py:61: a comment, lazily *)
Definition comment_at (s : bstr) : option bstr := match bstrip "/*" s with Some r => find "*/" r | None => None end.
(** wrap.py:63: a bracketed run of digits *)
Definition dim_at (s : bstr) : option bstr := match bstrip "[" s with Some r => bstrip "]" (snd (span is_digit r)) | None => None end.
(** Splitting at every byte of a class. *)
Fixpoint split_on (f : byte -> bool) (s : bstr) : list bstr :=
  match s with
  | bnil => [bnil]
  | bcons b s =>
      if f b then bnil :: split_on f s
      else match split_on f s with l :: ls => bcons b l :: ls | [] => [bcons b bnil] end
  end.
Definition strip (s : bstr) : bstr := brev (drop_ws (brev (drop_ws s))).
Definition is_semicolon (b : byte) : bool := Byte.eqb b ";".
Definition is_comma_or_blank (b : byte) : bool := Byte.eqb b "," || Byte.eqb b " ".
Definition nonempty (s : bstr) : bool := match s with bnil => false | _ => true end.
(** wrap.py:67-75 *)
Definition group_fields (g : bstr) : list bstr :=
  match filter nonempty (split_on is_comma_or_blank (strip g)) with
  | [] => []
  | m :: ms => if beqb m "const" then tl ms else ms
  end.
Definition body_fields (body : bstr) : list bstr :=
  flat_map group_fields (split_on is_semicolon (delete dim_at (delete comment_at body))).

(** ** wrap.py:20-85 *)
Fixpoint once (l : list bstr) : list bstr :=
  match l with [] => [] | x :: l => x :: filter (fun y => negb (beqb x y)) (once l) end.
Definition struct_entry (content : bstr) (results : list (bstr * bstr)) (s : bstr) : res (bstr * list bstr * list bstr) :=
  match struct_results s content with
  | [body] => Ok (s, body_fields body, map fst (filter (fun p => beqb (snd p) s) results))
  | _ => Err RuntimeError
  end.
Inductive macro :=
| REGISTER_PARAMS (struct : bstr) (fields : list bstr)
| REGISTER_INIT (init struct : bstr)
| REGISTER_MAPLE (work name : bstr).
(** wrap.cc.jinja:7-17 *)
Definition render (rs : list (bstr * list bstr * list bstr)) (rm : option (bstr * bstr)) : list macro :=
  flat_map (fun e => let '(s, fields, inits) := e in REGISTER_PARAMS s fields :: map (fun i => REGISTER_INIT i s) inits) rs ++
  match rm with Some (w, m) => [REGISTER_MAPLE w m] | None => [] end.
Definition wrap_file (content : bstr) : res (list macro) :=
  let results := init_results content in
  rm <- register_maple content;;
  rs <- rmap (struct_entry content results) (once (map snd results));;
  Ok (render rs rm).

(** register.h:26-40 and 62-76: what the macros of a wrapped file do when the extension is loaded.
    [addr] gives the addresses of the file's functions. *)
Fixpoint fields_of (ms : list macro) (s : bstr) : list bstr :=
  match ms with
  | REGISTER_PARAMS s' fields :: ms => if beqb s' s then fields else fields_of ms s
  | _ :: ms => fields_of ms s
  | [] => []
  end.
Definition load (addr : bstr -> ptr) (ms : list macro) : registries := {|
  registry := flat_map (fun m => match m with REGISTER_INIT i s => [(addr i, fields_of ms s)] | _ => [] end) ms;
  work_to_maple_name := flat_map (fun m => match m with REGISTER_MAPLE w n => [(addr w, n)] | _ => [] end) ms |}.
(** The extension is linked from all wrapped files; static initialisers of different files run one
    file after the other. *)
Definition link (rs : list registries) : registries := {|
  registry := flat_map registry rs; work_to_maple_name := flat_map work_to_maple_name rs |}.
