(** * Decimals: stdlib/bridge/decimal.py and the part of Python's [decimal] it uses

    A finite [decimal.Decimal] is sign * coefficient * 10^exponent.  The context
    operations follow Lib/_pydecimal.py (CPython 3.11) branch by branch, for the
    context of decimal.py:9-15 (prec=60, ROUND_FLOOR, Emin=-100, Emax=100, default
    traps InvalidOperation, DivisionByZero, Overflow).  That context is installed
    only in the importing thread (decimal.setcontext): the model is of that thread. *)
From Verif Require Import Model.Base.
Local Open Scope N_scope.

(** A finite Decimal: (-1)^fneg * fcoef * 10^fexp. *)
Record fd : Type := mkfd { fneg : bool; fcoef : N; fexp : Z }.
(** Any Decimal; NaN payloads are dropped. *)
Inductive dec : Type := DFin (d : fd) | DInf (neg : bool) | DNaN.

(** decimal.py:9-14: the context; Etiny = Emin - prec + 1, Etop = Emax - prec + 1. *)
Definition PREC : Z := 60.
(** decimal.py 9-14: Emax and Emin of the context *)
Definition EMAX : Z := 100.
(** decimal.py 9-14: Emax and Emin of the context *)
Definition EMIN : Z := -100.
(** Emin - prec + 1 of the context of decimal.py 9-14 (Lib/_pydecimal.py Context.Etiny) *)
Definition ETINY : Z := -159.
(** Emax - prec + 1 of the context of decimal.py 9-14 (Lib/_pydecimal.py Context.Etop) *)
Definition ETOP : Z := 41.

(** 10 ** k (Lib/_pydecimal.py) *)
Definition pow10 (k : Z) : N := 10 ^ Z.to_N k.
(** number of digits of the coefficient *)
Definition flen (d : fd) : Z := Z.of_nat (ndigits (fcoef d)).
(** Decimal.adjusted() *)
Definition adjusted (d : fd) : Z := (fexp d + flen d - 1)%Z.
(** Lib/_pydecimal.py Decimal.__bool__, negated (decimal.py 73-74) *)
Definition is_zero (d : fd) : bool := N.eqb (fcoef d) 0.

(** _pydecimal._round_floor: drop k digits, rounding toward minus infinity:
    the magnitude is rounded up exactly when the number is negative and a
    non-zero digit is dropped. *)
Definition shift_floor (neg : bool) (c : N) (k : Z) : N :=
  let q := c / pow10 k in
  if (neg && negb (N.eqb (c mod pow10 k) 0))%bool then q + 1 else q.

(** _pydecimal.Decimal._rescale(exp, ROUND_FLOOR) *)
Definition rescale (d : fd) (e : Z) : fd :=
  if is_zero d then mkfd (fneg d) 0 e
  else if Z.leb e (fexp d) then mkfd (fneg d) (fcoef d * pow10 (fexp d - e)) e
  else if Z.ltb (flen d + fexp d - e) 0 then mkfd (fneg d) (if fneg d then 1 else 0) e
  else mkfd (fneg d) (shift_floor (fneg d) (fcoef d) (e - fexp d)) e.

(** _pydecimal.Decimal._fix(context); Overflow is trapped, the other signals
    (Inexact, Rounded, Subnormal, Underflow, Clamped) are not and leave no
    observable effect. *)
Definition fix_ctx (d : fd) : result fd :=
  if is_zero d then
    Ok (mkfd (fneg d) 0 (Z.min (Z.max (fexp d) ETINY) EMAX))
  else
    let exp_min0 := (flen d + fexp d - PREC)%Z in
    if Z.ltb ETOP exp_min0 then Err EOverflow
    else
      let exp_min := Z.max exp_min0 ETINY in
      if Z.ltb (fexp d) exp_min then
        let digits := (flen d + fexp d - exp_min)%Z in
        let coeff := if Z.ltb digits 0 then (if fneg d then 1 else 0)
                     else shift_floor (fneg d) (fcoef d) (exp_min - fexp d) in
        let '(coeff', e') :=
          if Z.ltb PREC (Z.of_nat (ndigits coeff)) then (coeff / 10, (exp_min + 1)%Z)
          else (coeff, exp_min) in
        if Z.ltb ETOP e' then Err EOverflow else Ok (mkfd (fneg d) coeff' e')
      else Ok d.

(** _pydecimal.Decimal.normalize(): strip trailing zeros while exp < Emax. *)
Fixpoint strip_zeros (fuel : nat) (c : N) (e : Z) : N * Z :=
  match fuel with
  | O => (c, e)
  | S f => if (N.eqb (c mod 10) 0 && Z.ltb e EMAX)%bool then strip_zeros f (c / 10) (e + 1)%Z
           else (c, e)
  end.
(** Lib/_pydecimal.py Decimal.normalize, used by decimal.py 46-50 through fix_precision *)
Definition normalize (d : fd) : result fd :=
  do f <- fix_ctx d;
  if is_zero f then Ok (mkfd (fneg f) 0 0)
  else let '(c, e) := strip_zeros (ndigits (fcoef f)) (fcoef f) (fexp f) in
       Ok (mkfd (fneg f) c e).

(** _pydecimal.Decimal.quantize(exp, ROUND_FLOOR) for a finite receiver and a
    target exponent [e] within [Etiny, Emax]. *)
Definition quantize (d : fd) (e : Z) : result fd :=
  if is_zero d then fix_ctx (mkfd (fneg d) 0 e)
  else if Z.ltb EMAX (adjusted d) then Err EInvalidOperation
  else if Z.ltb PREC (adjusted d - e + 1) then Err EInvalidOperation
  else
    let a := rescale d e in
    if Z.ltb EMAX (adjusted a) then Err EInvalidOperation
    else if Z.ltb PREC (flen a) then Err EInvalidOperation
    else fix_ctx a.

(** Signed coefficient *)
Definition scoef (d : fd) : Z := if fneg d then (- Z.of_N (fcoef d))%Z else Z.of_N (fcoef d).
(** Exact numeric comparison (_pydecimal.Decimal._cmp), finite operands *)
Definition fd_compare (a b : fd) : comparison :=
  let m := Z.min (fexp a) (fexp b) in
  Z.compare (scoef a * Z.of_N (pow10 (fexp a - m))) (scoef b * Z.of_N (pow10 (fexp b - m))).
(** Lib/_pydecimal.py Decimal._cmp as the comparison operators of decimal.py 76-89 use it *)
Definition fd_ltb (a b : fd) : bool := match fd_compare a b with Lt => true | _ => false end.
(** Lib/_pydecimal.py Decimal._cmp as the comparison operators of decimal.py 76-89 use it *)
Definition fd_eqb (a b : fd) : bool := match fd_compare a b with Eq => true | _ => false end.
(** Lib/_pydecimal.py Decimal._cmp as the comparison operators of decimal.py 76-89 use it *)
Definition fd_leb (a b : fd) : bool := match fd_compare a b with Gt => false | _ => true end.

(** Decimal.__add__ (finite): exact sum, then _fix.  The sum has the smaller
    exponent; an exact zero is negative iff ROUND_FLOOR and the signs differ, or
    both are negative.  Simplification: _pydecimal._normalize shortens operands
    of very different size before adding; it is documented not to change the
    rounded result, so the model adds exactly. *)
Definition fd_of_Z (neg0 : bool) (n : Z) (e : Z) : fd :=
  if Z.eqb n 0 then mkfd neg0 0 e else mkfd (Z.ltb n 0) (Z.abs_N n) e.
(** Lib/_pydecimal.py Decimal.__add__, used by decimal.py 106-110 *)
Definition fd_add (a b : fd) : result fd :=
  let e := Z.min (fexp a) (fexp b) in
  let neg0 := if xorb (fneg a) (fneg b) then true else fneg a in
  let n := (scoef a * Z.of_N (pow10 (fexp a - e)) + scoef b * Z.of_N (pow10 (fexp b - e)))%Z in
  fix_ctx (fd_of_Z neg0 n e).
(** Decimal.__sub__: self + other.copy_negate() *)
Definition fd_flip (a : fd) : fd := mkfd (negb (fneg a)) (fcoef a) (fexp a).
(** Lib/_pydecimal.py Decimal.__sub__, used by decimal.py 112-116 *)
Definition fd_sub (a b : fd) : result fd := fd_add a (fd_flip b).
(** Decimal.__mul__ *)
Definition fd_mul (a b : fd) : result fd :=
  fix_ctx (mkfd (xorb (fneg a) (fneg b)) (fcoef a * fcoef b) (fexp a + fexp b)).
(** Decimal.__neg__ / __abs__ under ROUND_FLOOR *)
Definition fd_negate (a : fd) : result fd := fix_ctx (fd_flip a).
(** Lib/_pydecimal.py Decimal.__abs__, used by decimal.py 103-104 *)
Definition fd_abs (a : fd) : result fd := if fneg a then fd_negate a else fix_ctx a.

(** Decimal.__truediv__: integer division with PREC+1 extra digits and a sticky
    last digit; exact quotients are shortened toward the ideal exponent. *)
Fixpoint shorten (fuel : nat) (c : N) (e ideal : Z) : N * Z :=
  match fuel with
  | O => (c, e)
  | S f => if (Z.ltb e ideal && N.eqb (c mod 10) 0)%bool then shorten f (c / 10) (e + 1)%Z ideal
           else (c, e)
  end.
(** Lib/_pydecimal.py Decimal.__truediv__, used by decimal.py 124-128 *)
Definition fd_div (a b : fd) : result fd :=
  if is_zero b then (if is_zero a then Err EInvalidOperation else Err EDivisionByZero)
  else
    let sign := xorb (fneg a) (fneg b) in
    if is_zero a then fix_ctx (mkfd sign 0 (fexp a - fexp b))
    else
      let shift := (flen b - flen a + PREC + 1)%Z in
      let e := (fexp a - fexp b - shift)%Z in
      let num := if Z.leb 0 shift then fcoef a * pow10 shift else fcoef a in
      let den := if Z.leb 0 shift then fcoef b else fcoef b * pow10 (- shift) in
      let coeff := num / den in
      let rem := num mod den in
      let '(c', e') :=
        if N.eqb rem 0 then shorten (ndigits coeff) coeff e (fexp a - fexp b)
        else (if N.eqb (coeff mod 5) 0 then coeff + 1 else coeff, e) in
      fix_ctx (mkfd sign c' e').

(** Decimal._divide: (quotient truncated toward zero, remainder with the sign of
    the dividend); DivisionImpossible (an InvalidOperation) if the quotient needs
    more than PREC digits. *)
Definition fd_divide (a b : fd) : result (fd * fd) :=
  let sign := xorb (fneg a) (fneg b) in
  let ideal := Z.min (fexp a) (fexp b) in
  let expdiff := (adjusted a - adjusted b)%Z in
  if (is_zero a || Z.leb expdiff (-2))%bool then Ok (mkfd sign 0 0, rescale a ideal)
  else if Z.leb expdiff PREC then
    let x := fcoef a * pow10 (fexp a - ideal) in
    let y := fcoef b * pow10 (fexp b - ideal) in
    let q := x / y in
    if N.ltb q (pow10 PREC) then Ok (mkfd sign q 0, mkfd (fneg a) (x mod y) ideal)
    else Err EInvalidOperation
  else Err EInvalidOperation.
(** Lib/_pydecimal.py Decimal.__floordiv__, used by decimal.py 136-140 *)
Definition fd_floordiv (a b : fd) : result fd :=
  if is_zero b then (if is_zero a then Err EInvalidOperation else Err EDivisionByZero)
  else do qr <- fd_divide a b; Ok (fst qr).
(** Lib/_pydecimal.py Decimal.__mod__, used by decimal.py 130-134 *)
Definition fd_mod (a b : fd) : result fd :=
  if is_zero b then Err EInvalidOperation
  else do qr <- fd_divide a b; fix_ctx (snd qr).

(** Decimal.__str__(eng): [eng = true] is to_eng_string, [false] is str() *)
Definition sgn_str (neg : bool) : pystr := if neg then u "-" else [].
(** '0' * k (Lib/_pydecimal.py Decimal.__str__) *)
Definition zeros (k : Z) : pystr := repeat (ch "0") (Z.to_nat k).
(** '%+d' % z (Lib/_pydecimal.py Decimal.__str__) *)
Definition plus_d (z : Z) : pystr := if Z.ltb z 0 then str_of_Z z else ch "+" :: str_of_Z z.
(** Lib/_pydecimal.py Decimal.__str__(eng), used by decimal.py 91-95 and 25-39 *)
Definition fd_to_str (eng : bool) (d : fd) : pystr :=
  let int := str_of_N (fcoef d) in
  let leftdigits := (fexp d + flen d)%Z in
  let dotplace :=
    if (Z.leb (fexp d) 0 && Z.ltb (-6) leftdigits)%bool then leftdigits
    else if negb eng then 1%Z
    else if is_zero d then ((leftdigits + 1) mod 3 - 1)%Z
    else ((leftdigits - 1) mod 3 + 1)%Z in
  let mant :=
    if Z.leb dotplace 0 then u "0." ++ zeros (- dotplace) ++ int
    else if Z.leb (flen d) dotplace then int ++ zeros (dotplace - flen d)
    else firstn (Z.to_nat dotplace) int ++ u "." ++ skipn (Z.to_nat dotplace) int in
  let expo := if Z.eqb leftdigits dotplace then [] else ch "E" :: plus_d (leftdigits - dotplace) in
  sgn_str (fneg d) ++ mant ++ expo.

(** ** Parsing numbers from text *)

(** str.strip() whitespace.  Simplification: only ASCII whitespace is recognised
    (Python strips Unicode whitespace too), and only ASCII digits count as digits. *)
Definition is_space (c : N) : bool :=
  ((N.leb 9 c && N.leb c 13) || (N.leb 28 c && N.leb c 32))%bool.
(** Python: s.lstrip(), s.strip() before Decimal(s) (decimal.py 60-71) *)
Fixpoint lstrip (s : pystr) : pystr :=
  match s with c :: s' => if is_space c then lstrip s' else s | [] => [] end.
(** Python: s.lstrip(), s.strip() before Decimal(s) (decimal.py 60-71) *)
Definition strip (s : pystr) : pystr := rev (lstrip (rev (lstrip s))).
(** int() and float() skip C's whitespace only (Py_ISSPACE) *)
Definition is_cspace (c : N) : bool := ((N.leb 9 c && N.leb c 13) || N.eqb c 32)%bool.
(** leading and trailing C whitespace, before float(s) and int(s) (decimal.py 25-39) *)
Fixpoint lstrip_c (s : pystr) : pystr :=
  match s with c :: s' => if is_cspace c then lstrip_c s' else s | [] => [] end.
(** leading and trailing C whitespace, before float(s) and int(s) (decimal.py 25-39) *)
Definition strip_c (s : pystr) : pystr := rev (lstrip_c (rev (lstrip_c s))).
(** Python: c.lower() for ASCII (Decimal(s) accepts any case) *)
Definition lower_ascii (c : N) : N := if (N.leb 65 c && N.leb c 90)%bool then c + 32 else c.

(** longest prefix of digits *)
Fixpoint span_digits (s : pystr) : pystr * pystr :=
  match s with
  | c :: s' => if is_digit c then let '(a, b) := span_digits s' in (c :: a, b) else ([], s)
  | [] => ([], [])
  end.
(** optional sign *)
Definition take_sign (s : pystr) : bool * pystr :=
  match s with
  | c :: s' => if N.eqb c (ch "-") then (true, s') else if N.eqb c (ch "+") then (false, s') else (false, s)
  | [] => (false, [])
  end.
(** value of a digit string, 0 when empty *)
Definition N_of_digs (s : pystr) : N := fold_left (fun a c => 10 * a + (c - 48)) s 0.

(** exponent part of the numeric grammar: "" or E[+-]digits; None = no match *)
Definition parse_exp (s : pystr) : option Z :=
  match s with
  | [] => Some 0%Z
  | c :: s' =>
      if N.eqb (lower_ascii c) (ch "e") then
        let '(neg, s2) := take_sign s' in
        let '(ds, rest) := span_digits s2 in
        match ds, rest with
        | _ :: _, [] => let n := Z.of_N (N_of_digs ds) in Some (if neg then (- n)%Z else n)
        | _, _ => None
        end
      else None
  end.
(** numeric body (after the sign): digits[.digits][exp], at least one digit *)
Definition parse_body (neg : bool) (s : pystr) : option fd :=
  let '(ip, r1) := span_digits s in
  let '(fp, r2) := match r1 with
                   | c :: r' => if N.eqb c (ch ".") then span_digits r' else ([], r1)
                   | [] => ([], [])
                   end in
  match ip ++ fp with
  | [] => None
  | _ => match parse_exp r2 with
         | Some e => Some (mkfd neg (N_of_digs (ip ++ fp)) (e - Z.of_nat (List.length fp)))
         | None => None
         end
  end.
(** Lib/_pydecimal.py _parser: the grammar of Decimal(s), without sign *)
Definition parse_number (s : pystr) : option dec :=
  let '(neg, r) := take_sign s in
  match parse_body neg r with
  | Some d => Some (DFin d)
  | None =>
      let l := map lower_ascii r in
      if (str_eqb l (u "inf") || str_eqb l (u "infinity"))%bool then Some (DInf neg)
      else let l' := if startswith l (u "s") then tl l else l in
           if (startswith l' (u "nan") && forallb is_digit (skipn 3 l'))%bool then Some DNaN else None
  end.
(** Decimal(text): value.strip().replace('_', ''), grammar, and the exponent range
    of the C implementation (MAX_EMAX = 999999999999999999, MIN_ETINY =
    -1999999999999999997); every failure is InvalidOperation. *)
Definition dec_of_str (s : pystr) : result dec :=
  match parse_number (remove_char (ch "_") (strip s)) with
  | None => Err EInvalidOperation
  | Some (DFin d) =>
      if (Z.ltb 999999999999999999 (adjusted d) || Z.ltb (fexp d) (-1999999999999999997))%bool
      then Err EInvalidOperation else Ok (DFin d)
  | Some x => Ok x
  end.

(** Python's underscore rule for int() and float(): an underscore only between digits *)
Fixpoint underscores_ok (prev_digit : bool) (s : pystr) : bool :=
  match s with
  | [] => true
  | c :: s' =>
      if N.eqb c (ch "_") then
        match s' with
        | c2 :: _ => (prev_digit && is_digit c2 && underscores_ok false s')%bool
        | [] => false
        end
      else underscores_ok (is_digit c) s'
  end.
(** int(text): ValueError on a syntax error or on more than 4300 digits *)
Definition int_of_str (s : pystr) : result Z :=
  let t := strip_c s in
  if negb (underscores_ok false t) then Err EValue
  else
    let '(neg, r) := take_sign (remove_char (ch "_") t) in
    match N_of_digits r with
    | Some n => if Z.leb (Z.of_nat (List.length r)) 4300
                then Ok (if neg then (- Z.of_N n)%Z else Z.of_N n) else Err EValue
    | None => Err EValue
    end.
(** [float(text) > 9].  A finite text denotes an exact decimal v; float rounds it
    to nearest-even, so float(v) > 9 iff v > 9 + 2^-50 (half an ulp above 9, the tie
    going to 9).  ValueError on a syntax error.  nan > 9 is False. *)
Definition nine_plus : fd := mkfd false (9 * 2 ^ 50 * 5 ^ 50 + 5 ^ 50) (-50).
(** decimal.py 28: float(base) > 9 of neg_sci_not *)
Definition float_gt9 (s : pystr) : result bool :=
  let t := strip_c s in
  if negb (underscores_ok false t) then Err EValue
  else match parse_number (remove_char (ch "_") t) with
       | Some (DFin d) => Ok (fd_ltb nine_plus d)
       | Some (DInf neg) => Ok (negb neg)
       | Some DNaN =>
           (* float() accepts only "nan" itself *)
           if str_eqb (map lower_ascii (snd (take_sign t))) (u "nan") then Ok false else Err EValue
       | None => Err EValue
       end.

(** [s.split('e-')] with exactly two pieces, else None (the tuple unpacking of
    decimal.py:27 raises ValueError otherwise, which decimal.py:38 catches). *)
Fixpoint split_em (s : pystr) : option (pystr * pystr) :=
  match s with
  | a :: s' =>
      match s' with
      | b :: s'' => if (N.eqb a (ch "e") && N.eqb b (ch "-"))%bool then Some ([], s'')
                    else match split_em s' with Some (x, y) => Some (a :: x, y) | None => None end
      | [] => None
      end
  | [] => None
  end.
(** decimal.py 27: s.split('e-') of neg_sci_not *)
Definition split_em2 (s : pystr) : option (pystr * pystr) :=
  match split_em s with
  | Some (x, y) => match split_em y with None => Some (x, y) | Some _ => None end
  | None => None
  end.

(** decimal.py:25-39 neg_sci_not.  Simplification: '0' * (huge) is not limited by memory. *)
Definition neg_sci_not (s : pystr) : pystr :=
  match split_em2 s with
  | None => s
  | Some (base, ex) =>
      match float_gt9 base with
      | Err _ => s
      | Ok true => s
      | Ok false =>
          let base' := remove_char (ch ".") base in
          match int_of_str ex with
          | Err _ => s
          | Ok n => let numbers := zeros (n - 1) ++ base' in
                    if Z.ltb 0 n then u "0." ++ numbers else numbers
          end
      end
  end.

(** ** fix_precision and ContractingDecimal *)

(** decimal.py:42 MAX_DECIMAL = Decimal('1' + '0'*29): 10^29 with exponent 0 *)
Definition MAX_DECIMAL : fd := mkfd false (10 ^ 29) 0.
(** decimal.py:43 MIN_DECIMAL = Decimal('0.' + '0'*29 + '1'): exponent -30 *)
Definition MIN_EXP : Z := -30.

(** decimal.py:46-49 fix_precision *)
Definition fix_precision (x : dec) : result fd :=
  match x with
  | DNaN => Err EInvalidOperation
  | DInf false => Ok MAX_DECIMAL
  | DInf true => Err EInvalidOperation
  | DFin d =>
      if fd_ltb MAX_DECIMAL d then Ok MAX_DECIMAL
      else do q <- quantize d MIN_EXP; normalize q
  end.

(** decimal.py:60-71 ContractingDecimal.__init__, by the type of the argument.
    The object is its [_d] field. *)
Definition cd_of_str (s : pystr) : result fd :=
  do d <- dec_of_str (neg_sci_not s); fix_precision d.
(** decimal.py 60-71 __init__ of an int *)
Definition cd_of_int (z : Z) : result fd := do s <- py_int_str z; cd_of_str s.
(** a float is given by its repr *)
Definition cd_of_float (repr : pystr) : result fd := cd_of_str repr.
(** decimal.py 60-71 __init__ of a Decimal *)
Definition cd_of_dec (d : dec) : result fd := fix_precision d.
(** decimal.py 60-71 __init__ of a finite Decimal *)
Definition cd_of_fd (d : fd) : result fd := fix_precision (DFin d).

(** decimal.py:106-143: every operator is ContractingDecimal(fix_precision(op)) *)
Definition wrap (r : result fd) : result fd :=
  do x <- r; do y <- fix_precision (DFin x); cd_of_fd y.
(** decimal.py 106-107 __add__ *)
Definition cd_add (a b : fd) : result fd := wrap (fd_add a b).
(** decimal.py 112-113 __sub__ *)
Definition cd_sub (a b : fd) : result fd := wrap (fd_sub a b).
(** decimal.py 118-119 __mul__ *)
Definition cd_mul (a b : fd) : result fd := wrap (fd_mul a b).
(** decimal.py 124-125 __truediv__ *)
Definition cd_div (a b : fd) : result fd := wrap (fd_div a b).
(** decimal.py 130-131 __mod__ *)
Definition cd_mod (a b : fd) : result fd := wrap (fd_mod a b).
(** decimal.py 136-137 __floordiv__ *)
Definition cd_floordiv (a b : fd) : result fd := wrap (fd_floordiv a b).
(** decimal.py:97-104 *)
Definition cd_neg (a : fd) : result fd := do x <- fd_negate a; cd_of_fd x.
(** decimal.py 103-104 __abs__ *)
Definition cd_abs (a : fd) : result fd := do x <- fd_abs a; cd_of_fd x.
(** decimal.py:73-74: __bool__ is _d > 0 *)
Definition cd_bool (a : fd) : bool := fd_ltb (mkfd false 0 0) a.
(** decimal.py:91-95: __str__ and __repr__ are to_eng_string *)
Definition cd_str (a : fd) : pystr := fd_to_str true a.
(** decimal.py:148-149: __int__ truncates toward zero *)
Definition cd_int (a : fd) : Z :=
  if Z.leb 0 (fexp a) then (scoef a * Z.of_N (pow10 (fexp a)))%Z
  else Z.quot (scoef a) (Z.of_N (pow10 (- fexp a))).

(** decimal.py:53-58 _get_other for an int operand: clamped and quantized before use.
    (bool operands: str is 'True'/'False', Decimal raises InvalidOperation.) *)
Definition get_other_int (z : Z) : result fd := cd_of_int z.
(** decimal.py 53-58 _get_other of a float *)
Definition get_other_float (repr : pystr) : result fd := cd_of_float repr.
(** decimal.py 53-58 _get_other of a bool, which is an int *)
Definition get_other_bool (b : bool) : result fd :=
  cd_of_str (if b then u "True" else u "False").

(** decimal.py:76-89 the comparison operators between two contract decimals *)
Definition cd_eq (a b : fd) : bool := fd_eqb a b.
(** decimal.py 79-80 __lt__ *)
Definition cd_lt (a b : fd) : bool := fd_ltb a b.
(** decimal.py 82-83 __le__ *)
Definition cd_le (a b : fd) : bool := fd_leb a b.
(** decimal.py 85-86 __gt__ *)
Definition cd_gt (a b : fd) : bool := fd_ltb b a.
(** decimal.py 88-89 __ge__ *)
Definition cd_ge (a b : fd) : bool := fd_leb b a.
(** decimal.py:53-58,76-89 a comparison with an int: the int is made a decimal first *)
Definition cd_cmp_int (op : fd -> fd -> bool) (a : fd) (z : Z) : result bool :=
  do o <- get_other_int z; Ok (op a o).
(** decimal.py:53-58,106-143 an operator with an int on the right *)
Definition cd_op_int (op : fd -> fd -> result fd) (a : fd) (z : Z) : result fd :=
  do o <- get_other_int z; op a o.
(** decimal.py:53-58,109-141 the reflected operators: an int on the left *)
Definition cd_rop_int (op : fd -> fd -> result fd) (z : Z) (a : fd) : result fd :=
  do o <- get_other_int z; op o a.
