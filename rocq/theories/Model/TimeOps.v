(** * Python's operators on the dates and durations of stdlib/bridge/time.py, for operands of any type *)
From Verif Require Import Model.Base Model.Dec Model.Time Model.Value.
Local Open Scope Z_scope.

(** What a method gives: NotImplemented, or a value or an exception *)
Inductive meth (A : Type) : Type := NotImpl | Gives (r : result A).
Arguments NotImpl {A}. Arguments Gives {A} r.
(** a function applied to the value, if there is one *)
Definition rmap {A B} (f : A -> B) (r : result A) : result B :=
  match r with Ok x => Ok (f x) | Err e => Err e end.
(** isinstance(other, int): bool is a subclass of int *)
Definition as_int (v : pyval) : option Z :=
  match v with VInt z => Some z | VBool b => Some (b2z b) | _ => None end.

(** time.py 82-85 Datetime.__add__ and 155-164 Timedelta.__add__.  The other types' own + gives
    NotImplemented for a date or a duration, or raises the TypeError that follows anyway
    (str, list, tuple: sequence concatenation; ContractingDecimal: decimal.py 101-102, Decimal gives
    NotImplemented and so do time.py's methods).  Here and below: for operands of which at least one
    is a date or a duration. *)
Definition m_add (a b : pyval) : meth pyval :=
  match a, b with
  | VTime x, VDelta y => Gives (rmap VTime (dt_add x y))
  | VDelta x, VDelta y => Gives (rmap VDelta (td_add x y))
  | VDelta x, VTime y => Gives (rmap VTime (dt_add y x))
  | _, _ => NotImpl
  end.
(** time.py 76-80 Datetime.__sub__ and 166-175 Timedelta.__sub__ *)
Definition m_sub (a b : pyval) : meth pyval :=
  match a, b with
  | VTime x, VTime y => Gives (rmap VDelta (dt_sub x y))
  | VDelta x, VDelta y => Gives (rmap VDelta (td_sub x y))
  | VDelta x, VTime y => Gives (rmap VTime (td_sub_dt x y))
  | _, _ => NotImpl
  end.
(** time.py 177-185 Timedelta.__mul__; Datetime has none *)
Definition m_mul (a b : pyval) : meth pyval :=
  match a, b with
  | VDelta x, VDelta y => Gives (rmap VDelta (td_mul x y))
  | VDelta x, other =>
    match as_int other with Some k => Gives (rmap VDelta (td_mul_int x k)) | None => NotImpl end
  | _, _ => NotImpl
  end.
(** time.py defines no __radd__, __rsub__, __rmul__ (the class bodies end at 104 and 212).
    ContractingDecimal's (decimal.py 104-105, 110-111, 116-117) call the date's or duration's operator
    on a Decimal, which gives NotImplemented on both sides: TypeError. *)
Definition m_reflected (b a : pyval) : meth pyval :=
  match b with VDec _ => Gives (Err EType) | _ => NotImpl end.
(** CPython Objects/abstract.c binary_op1: the left operand's method, then the right operand's
    reflected method, then TypeError *)
Definition binary (m : pyval -> pyval -> meth pyval) (a b : pyval) : result pyval :=
  match m a b with
  | Gives r => r
  | NotImpl => match m_reflected b a with Gives r => r | NotImpl => Err EType end
  end.
(** Python: a + b for dates and durations (time.py 82-85, 155-164) *)
Definition py_add := binary m_add.
(** Python: a - b for dates and durations (time.py 76-80, 166-175) *)
Definition py_sub := binary m_sub.
(** Python: a * b for durations (time.py 177-185) *)
Definition py_mul := binary m_mul.

(** ** Comparisons *)
Inductive cmpop : Type := OLt | OLe | OEq | ONe | OGe | OGt.
(** CPython Objects/object.c: the reflected comparison *)
Definition swapped (o : cmpop) : cmpop :=
  match o with OLt => OGt | OLe => OGe | OEq => OEq | ONe => ONe | OGe => OLe | OGt => OLt end.
(** time.py 46-74: the comparison methods of Datetime *)
Definition dt_cmp (o : cmpop) (a b : datetime) : bool :=
  match o with OLt => dt_lt a b | OLe => dt_le a b | OEq => dt_eq a b | ONe => dt_ne a b | OGe => dt_ge a b | OGt => dt_gt a b end.
(** time.py 124-152: the comparison methods of Timedelta *)
Definition td_cmp (o : cmpop) (a b : timedelta) : bool :=
  match o with OLt => td_lt a b | OLe => td_le a b | OEq => td_eq a b | ONe => td_ne a b | OGe => td_ge a b | OGt => td_gt a b end.
(** time.py 46-74 and 124-152: every comparison method of a date or duration raises TypeError for
    another type, == and != too; the other types give NotImplemented (ContractingDecimal, decimal.py 74-87:
    Decimal's comparison gives NotImplemented and the date's reflected method raises; its != is the
    negation of its ==). *)
Definition m_cmp (o : cmpop) (a b : pyval) : meth bool :=
  match a, b with
  | VTime x, VTime y => Gives (Ok (dt_cmp o x y))
  | VTime _, _ => Gives (Err EType)
  | VDelta x, VDelta y => Gives (Ok (td_cmp o x y))
  | VDelta _, _ => Gives (Err EType)
  | _, _ => NotImpl
  end.
(** CPython Objects/object.c do_richcompare: the left operand's method, then the right operand's with
    the operation swapped (the case left over needs no date at all; object.c then compares identities
    for == and !=, which is not modelled) *)
Definition py_cmp (o : cmpop) (a b : pyval) : result bool :=
  match m_cmp o a b with
  | Gives r => r
  | NotImpl => match m_cmp (swapped o) b a with Gives r => r | NotImpl => Err EType end
  end.
(** CPython Objects/listobject.c list_contains, x in [..] for a date or duration x that is not itself
    an object in the list: each element is compared with x in order, an exception ends it *)
Fixpoint py_in (x : pyval) (l : list pyval) : result bool :=
  match l with
  | [] => Ok false
  | v :: l' =>
    match py_cmp OEq v x with
    | Ok true => Ok true
    | Ok false => py_in x l'
    | Err e => Err e
    end
  end.
