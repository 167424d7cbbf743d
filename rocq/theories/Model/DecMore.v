(** * More of bridge/decimal.py and bridge/random.py: power, rounding, the decimal context of other threads, getrandbits *)
From Verif Require Import Model.Base Model.Dec.
Local Open Scope Z_scope.

(** decimal.py 142-146 __pow__, __rpow__: [raw] is what libmpdec's power gives (not modelled: any Decimal, or an exception) *)
Definition cd_pow (raw : result dec) : result fd :=
  do x <- raw; do y <- fix_precision x; cd_of_fd y.

(** decimal.py 154-155 __round__ without digits: round(_d) of Modules/_decimal/_decimal.c PyDec_Round, an int, half to even *)
Definition cd_round_int (a : fd) : Z :=
  if Z.leb 0 (fexp a) then scoef a * Z.of_N (pow10 (fexp a))
  else
    let p := Z.of_N (pow10 (- fexp a)) in
    let q := scoef a / p in
    let r := scoef a mod p in
    if Z.ltb (2 * r) p then q
    else if Z.ltb p (2 * r) then q + 1
    else if Z.even q then q else q + 1.
(** decimal.py 154-155 __round__ with [n] digits: PyDec_Round quantizes to the exponent -n in the current context, whose rounding is ROUND_FLOOR
    (decimal.py 9-15); an exponent outside [Etiny, Emax] is an InvalidOperation.  The result is a Decimal, not a ContractingDecimal. *)
Definition cd_round (a : fd) (n : Z) : result fd :=
  if (Z.ltb EMAX (- n) || Z.ltb (- n) ETINY)%bool then Err EInvalidOperation else quantize a (- n).

(** ** The context of a thread other than the one that imported the module

    decimal.py 15: decimal.setcontext sets the context of the calling thread only; another thread starts with Python's DefaultContext
    (28 digits; the exponent range is far outside what is used here; the rounding of quantize is given explicitly, decimal.py 49). *)
Definition DEFAULT_PREC : Z := 28.
(** decimal.py 46-50 fix_precision's quantize under the default context (prec 28, ROUND_HALF_EVEN) *)
Definition quantize_default (d : fd) (e : Z) : result fd :=
  if is_zero d then Ok (mkfd (fneg d) 0 e)
  else if Z.ltb DEFAULT_PREC (adjusted d - e + 1) then Err EInvalidOperation
  else
    let a := rescale d e in
    if Z.ltb DEFAULT_PREC (flen a) then Err EInvalidOperation else Ok a.
(** Decimal.normalize of a number of at most 28 digits *)
Definition normalize_default (f : fd) : fd :=
  if is_zero f then mkfd (fneg f) 0 0
  else let '(c, e) := strip_zeros (ndigits (fcoef f)) (fcoef f) (fexp f) in mkfd (fneg f) c e.
(** decimal.py 46-49 *)
Definition fix_precision_default (x : dec) : result fd :=
  match x with
  | DNaN => Err EInvalidOperation
  | DInf false => Ok MAX_DECIMAL
  | DInf true => Err EInvalidOperation
  | DFin d =>
      if fd_ltb MAX_DECIMAL d then Ok MAX_DECIMAL
      else do q <- quantize_default d MIN_EXP; Ok (normalize_default q)
  end.
(** decimal.py 60-71 (conversion of text to Decimal does not use the context's precision) *)
Definition cd_of_str_default (s : pystr) : result fd :=
  do d <- dec_of_str (neg_sci_not s); fix_precision_default d.

(** ** random.py 46-56 getrandbits: [draw i] says whether the i-th random.random() is greater than 0.5 *)
Definition bits_value (bits : list bool) : Z :=
  fold_left (fun acc (b : bool) => 2 * acc + (if b then 1 else 0)) bits 0.
(** bridge/random.py 46-56 getrandbits *)
Definition getrandbits (seeded : bool) (draw : nat -> bool) (k : Z) : result Z :=
  if negb seeded then Err EAssertion
  else
    let b_str := map draw (seq 0 (Z.to_nat k)) in
    (* int('', 2) raises ValueError *)
    match b_str with [] => Err EValue | _ => Ok (bits_value b_str) end.
