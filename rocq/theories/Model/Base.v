(** * Base notions shared by the whole model

    Python exceptions as values, Python strings as lists of code points,
    insertion-ordered dictionaries, decimal digits.  Nothing in this file models
    a particular function of /repo: it models the Python built-ins the code
    relies on (str, dict, int <-> str). *)
From Coq Require Export List Bool NArith ZArith String Ascii.
Export ListNotations.

#[global] Arguments N.add : simpl never.
#[global] Arguments N.sub : simpl never.
#[global] Arguments N.mul : simpl never.
#[global] Arguments N.div : simpl never.
#[global] Arguments N.modulo : simpl never.
#[global] Arguments N.pow : simpl never.
#[global] Arguments Z.add : simpl never.
#[global] Arguments Z.sub : simpl never.
#[global] Arguments Z.mul : simpl never.
#[global] Arguments Z.div : simpl never.
#[global] Arguments Z.modulo : simpl never.
#[global] Arguments Z.pow : simpl never.
#[global] Arguments N.of_nat : simpl never.
#[global] Arguments Z.of_nat : simpl never.
#[global] Arguments Z.of_N : simpl never.
#[global] Arguments N.ltb : simpl never.
#[global] Arguments N.leb : simpl never.
#[global] Arguments Z.ltb : simpl never.
#[global] Arguments Z.leb : simpl never.

(** The Python exceptions the modelled code can raise; messages are dropped.
    [EJSONDecode] is json.decoder.JSONDecodeError (a ValueError). *)
Inductive exn : Type :=
| EKey | EValue | EType | EAssertion | EInvalidOperation | EDivisionByZero
| EOverflow            (* decimal.Overflow *)
| EOverflowError       (* builtin OverflowError *)
| EOS | EImport | EReference | EIndex | EAttribute | EException | ECompilation
| EBase                (* a BaseException that is not an Exception *)
| EUnicode | EName | EUnboundLocal | ERecursion | ETimeout | EJSONDecode | ESyntax | EUnknown.

(** what a Python expression gives: a value or an exception (no line of /repo in particular) *)
Inductive result (A : Type) : Type :=
| Ok (a : A)
| Err (e : exn).
Arguments Ok {A} a.
Arguments Err {A} e.

(** sequencing: an exception ends the evaluation (Python semantics) *)
Definition bindr {A B} (m : result A) (k : A -> result B) : result B :=
  match m with Ok a => k a | Err e => Err e end.
Notation "'do' x <- m ; k" := (bindr m (fun x => k))
  (at level 200, x pattern, m at level 100, k at level 200, right associativity).
(** a function applied to the value, if there is one (Python semantics) *)
Definition mapr {A B} (f : A -> B) (m : result A) : result B :=
  match m with Ok a => Ok (f a) | Err e => Err e end.
(** [assert cond]: AssertionError when false. *)
Definition assertr (b : bool) : result unit := if b then Ok tt else Err EAssertion.
(** no exception was raised *)
Definition is_ok {A} (r : result A) : bool := match r with Ok _ => true | Err _ => false end.

(** ** Python strings: lists of code points *)
Definition pystr : Type := list N.

(** a Python str literal, given by Coq's ASCII string *)
Fixpoint u (s : string) : pystr :=
  match s with
  | EmptyString => []
  | String c s' => N_of_ascii c :: u s'
  end.
(** One character. *)
Definition ch (s : string) : N :=
  match s with String c _ => N_of_ascii c | EmptyString => 0%N end.

(** Python: a == b for str *)
Fixpoint str_eqb (a b : pystr) : bool :=
  match a, b with
  | [], [] => true
  | x :: a', y :: b' => N.eqb x y && str_eqb a' b'
  | _, _ => false
  end.

(** [s.startswith(p)] *)
Fixpoint startswith (s p : pystr) {struct p} : bool :=
  match p, s with
  | [], _ => true
  | _ :: _, [] => false
  | x :: p', y :: s' => N.eqb x y && startswith s' p'
  end.
(** [s.endswith(p)] *)
Definition endswith (s p : pystr) : bool := startswith (rev s) (rev p).

(** [c in s] for a one-character c *)
Definition has_char (c : N) (s : pystr) : bool := existsb (N.eqb c) s.

(** [s.split(c, 1)]: [Some (before, after)] at the first c, [None] if absent. *)
Fixpoint split1 (c : N) (s : pystr) : option (pystr * pystr) :=
  match s with
  | [] => None
  | x :: s' =>
      if N.eqb x c then Some ([], s')
      else match split1 c s' with
           | Some (a, b) => Some (x :: a, b)
           | None => None
           end
  end.

(** [s.split(c)] (all pieces) *)
Fixpoint split_all (c : N) (s : pystr) : list pystr :=
  match s with
  | [] => [[]]
  | x :: s' =>
      if N.eqb x c then [] :: split_all c s'
      else match split_all c s' with
           | [] => [[x]]
           | p :: ps => (x :: p) :: ps
           end
  end.

(** [s.replace(a, b)] for one-character a, b *)
Definition replace_char (a b : N) (s : pystr) : pystr :=
  map (fun x => if N.eqb x a then b else x) s.
(** [s.replace(a, '')] *)
Definition remove_char (a : N) (s : pystr) : pystr := filter (fun x => negb (N.eqb x a)) s.

(** [sep.join(parts)] *)
Fixpoint join (sep : pystr) (ps : list pystr) : pystr :=
  match ps with
  | [] => []
  | [p] => p
  | p :: ps' => p ++ sep ++ join sep ps'
  end.

(** Lexicographic order on code points (Python str comparison) *)
Fixpoint str_ltb (a b : pystr) : bool :=
  match a, b with
  | [], [] => false
  | [], _ :: _ => true
  | _ :: _, [] => false
  | x :: a', y :: b' => if N.ltb x y then true else if N.eqb x y then str_ltb a' b' else false
  end.
(** insertion into a sorted list: a step of Python's sorted() on str *)
Fixpoint str_insert (x : pystr) (l : list pystr) : list pystr :=
  match l with
  | [] => [x]
  | y :: l' => if str_ltb y x then y :: str_insert x l' else x :: l
  end.
(** [sorted(l)] on strings *)
Definition str_sort (l : list pystr) : list pystr := fold_right str_insert [] l.

(** Python: x in l for a list or set of str *)
Definition str_mem (x : pystr) (l : list pystr) : bool := existsb (str_eqb x) l.

(** ** Insertion-ordered dictionaries with string keys *)
Definition dict (V : Type) : Type := list (pystr * V).

(** Python: d.get(k) / d[k] *)
Fixpoint dget {V} (k : pystr) (d : dict V) : option V :=
  match d with
  | [] => None
  | (k', v) :: d' => if str_eqb k k' then Some v else dget k d'
  end.
(** [d[k] = v]: replaces in place, or appends *)
Fixpoint dset {V} (k : pystr) (v : V) (d : dict V) : dict V :=
  match d with
  | [] => [(k, v)]
  | (k', v') :: d' => if str_eqb k k' then (k', v) :: d' else (k', v') :: dset k v d'
  end.
(** [del d[k]] / [d.pop(k, None)] *)
Definition ddel {V} (k : pystr) (d : dict V) : dict V :=
  filter (fun kv => negb (str_eqb k (fst kv))) d.
(** Python: k in d *)
Definition dmem {V} (k : pystr) (d : dict V) : bool :=
  match dget k d with Some _ => true | None => false end.
(** Python: list(d.keys()) *)
Definition dkeys {V} (d : dict V) : list pystr := map fst d.
(** [d.update(e)] *)
Definition dupdate {V} (d e : dict V) : dict V :=
  fold_left (fun acc kv => dset (fst kv) (snd kv) acc) e d.

(** ** Decimal digits *)
Definition digit_char (d : N) : N := (48 + d)%N.
(** an ASCII digit: '0' <= c <= '9' *)
Definition is_digit (c : N) : bool := (N.leb 48 c && N.leb c 57)%bool.

(** Digits of n, most significant first; [fuel] bounds the number of digits. *)
Fixpoint digits_aux (fuel : nat) (n : N) (acc : pystr) : pystr :=
  match fuel with
  | O => acc
  | S f =>
      let acc' := digit_char (n mod 10)%N :: acc in
      if N.ltb n 10 then acc' else digits_aux f (n / 10)%N acc'
  end.
(** [str(n)] for a natural number *)
Definition str_of_N (n : N) : pystr := digits_aux (S (N.to_nat (N.size n))) n [].
(** [str(z)] for an int, without the 4300-digit limit *)
Definition str_of_Z (z : Z) : pystr :=
  match z with
  | Zneg p => ch "-" :: str_of_N (Npos p)
  | _ => str_of_N (Z.to_N z)
  end.
(** The number of decimal digits of n (1 for 0). *)
Definition ndigits (n : N) : nat := List.length (str_of_N n).
(** [str(z)] as Python computes it: ValueError above 4300 digits
    (sys.int_max_str_digits, CPython 3.11). *)
Definition py_int_str (z : Z) : result pystr :=
  if Z.leb (Z.of_nat (ndigits (Z.abs_N z))) 4300 then Ok (str_of_Z z) else Err EValue.

(** Value of a digit string, [None] if some character is not an ASCII digit. *)
Fixpoint N_of_digits_acc (acc : N) (s : pystr) : option N :=
  match s with
  | [] => Some acc
  | c :: s' => if is_digit c then N_of_digits_acc (10 * acc + (c - 48))%N s' else None
  end.
(** Python: int(s) of a non-empty string of ASCII digits *)
Definition N_of_digits (s : pystr) : option N :=
  match s with [] => None | _ => N_of_digits_acc 0%N s end.
