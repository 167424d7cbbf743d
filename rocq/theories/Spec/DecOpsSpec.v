(** * What operators between a decimal and another value should give *)
From Verif Require Import Model.Base Model.Dec Model.Value Model.TimeOps Model.DecOps Spec.DecSpec.
Local Open Scope Z_scope.

(** The number a value stands for, in units of 10^-30; a float is rounded down *)
Inductive number : pyval -> Z -> Prop :=
| num_dec d n : constructed d -> has_units d n -> number (VDec d) n
| num_int z : number (VInt z) (z * ONE)
| num_bool b : number (VBool b) (if b then ONE else 0)
| num_float f : frepr_ok f -> number (VFloat (frepr_text f)) (floor_units (frepr_value f)).
(** Numbers a decimal can hold *)
Definition in_range (n : Z) : Prop := - LIMU < n <= MAXU.
(** The operators on units *)
Definition arith_units (o : arith) (x y : Z) : result Z :=
  match o with
  | AAdd => store (x + y) | ASub => store (x - y) | AMul => store (x * y / ONE)
  | ADiv => if y =? 0 then Err (if x =? 0 then EInvalidOperation else EDivisionByZero) else store (x * ONE / y)
  | AFloordiv => if y =? 0 then Err (if x =? 0 then EInvalidOperation else EDivisionByZero) else store (Z.quot x y * ONE)
  | AMod => if y =? 0 then Err EInvalidOperation else Ok (Z.rem x y)
  end.
Definition is_dec (r : result pyval) (s : result Z) : Prop :=
  match r, s with
  | Ok (VDec d), Ok n => has_units d n
  | Err e, Err e' => e = e'
  | _, _ => False
  end.
Definition cmp_units (o : cmpop) (x y : Z) : bool :=
  match o with OLt => x <? y | OLe => x <=? y | OEq => x =? y | ONe => negb (x =? y) | OGe => y <=? x | OGt => y <? x end.
(** Values that are no numbers *)
Definition not_number (v : pyval) : Prop :=
  match v with VNone | VStr _ | VBytes _ | VTime _ | VDelta _ | VList _ | VTuple _ | VDict _ => True | _ => False end.
Definition is_date (v : pyval) : bool := match v with VTime _ | VDelta _ => true | _ => false end.
(** The exceptions: a bool, and a negative float whose text has a negative exponent *)
Inductive odd_number : pyval -> Prop :=
| odd_bool b : odd_number (VBool b)
| odd_float f k : frepr_ok f -> fr_neg f = true -> fr_exp f = Some (true, k) -> odd_number (VFloat (frepr_text f)).
