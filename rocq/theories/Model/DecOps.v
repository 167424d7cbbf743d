(** * Python's operators on the decimals of stdlib/bridge/decimal.py, for operands of any type *)
From Verif Require Import Model.Base Model.Dec Model.Time Model.Value Model.TimeOps.
Local Open Scope Z_scope.

(** the arithmetic operators of decimal.py 106-140 *)
Inductive arith : Type := AAdd | ASub | AMul | ADiv | AMod | AFloordiv.
(** decimal.py 106-140: which method an operator is *)
Definition cd_arith (o : arith) : fd -> fd -> result fd :=
  match o with AAdd => cd_add | ASub => cd_sub | AMul => cd_mul | ADiv => cd_div | AMod => cd_mod | AFloordiv => cd_floordiv end.
(** decimal.py 53-58 _get_other: numbers become Decimals; anything else is used as it is, which Decimal's operators do not
    know (a plain Decimal they do; it is handled by [plain] below).  bool is a subclass of int, its str is 'True' or 'False'. *)
Definition get_other (v : pyval) : option (result fd) :=
  match v with
  | VDec d => Some (Ok d)
  | VInt z => Some (get_other_int z)
  | VFloat r => Some (get_other_float r)
  | VBool b => Some (get_other_bool b)
  | _ => None
  end.
(** a plain decimal.Decimal (what round(x, n) gives) is used unchanged; an infinite one is not modelled *)
Definition plain (v : pyval) : option fd := match v with VDecimal (DFin d) => Some d | _ => None end.
(** decimal.py 104-143, decimal on the left: a value that is no number makes Decimal's operator raise TypeError, whatever
    that value's own reflected operator is (lists, texts, dates, ... have none for Decimal) *)
Definition dec_left (o : arith) (a : fd) (b : pyval) : result pyval :=
  match get_other b, plain b with
  | Some r, _ => do y <- r; do z <- cd_arith o a y; Ok (VDec z)
  | None, Some y => do z <- cd_arith o a y; Ok (VDec z)
  | None, None => Err EType
  end.
(** ... on the right: int, bool, float and Decimal do not know the class, so its reflected method runs; None, lists, tuples,
    dicts, dates and durations end in a TypeError too.  str % value and bytes % value are formatting, not modelled ([None]). *)
Definition dec_right (o : arith) (b : pyval) (a : fd) : option (result pyval) :=
  match o, b with
  | AMod, VStr _ | AMod, VBytes _ => None
  | _, _ =>
    Some (match get_other b, plain b with
          | Some r, _ => do y <- r; do z <- cd_arith o y a; Ok (VDec z)
          | None, Some y => do z <- cd_arith o y a; Ok (VDec z)
          | None, None => Err EType
          end)
  end.
(** Comparisons, decimal.py 76-89; != is the negation of == (object.__ne__) *)
Definition cd_cmp (o : cmpop) (a b : fd) : bool :=
  match o with OLt => cd_lt a b | OLe => cd_le a b | OEq => cd_eq a b | ONe => negb (cd_eq a b) | OGe => cd_ge a b | OGt => cd_gt a b end.
(** Decimal against another type: NotImplemented on both sides, so == is False and the order is a TypeError; dates and
    durations raise for every comparison (time.py 46-74, 124-152) *)
Definition dec_cmp (o : cmpop) (a : fd) (b : pyval) : result bool :=
  match get_other b, plain b with
  | Some r, _ => do y <- r; Ok (cd_cmp o a y)
  | None, Some y => Ok (cd_cmp o a y)
  | None, None =>
      match b, o with
      | VTime _, _ | VDelta _, _ => Err EType
      | _, OEq => Ok false
      | _, ONe => Ok true
      | _, _ => Err EType
      end
  end.
(** with the decimal on the right, the other type's method gives NotImplemented and the decimal's swapped one runs *)
Definition cmp_dec (o : cmpop) (b : pyval) (a : fd) : result bool := dec_cmp (swapped o) a b.
