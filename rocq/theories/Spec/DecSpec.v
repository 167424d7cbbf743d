(** * Specification of contract decimals, in whole units of 10^-30

    Independent of the decimal algorithms: a contract decimal is an integer number
    of units of 10^-30, and every operation is integer arithmetic. *)
From Verif Require Import Model.Base Model.Dec.
Local Open Scope Z_scope.

(** 1 is [ONE] units; the largest value 10^29 is [MAXU] units; -10^30 is [-LIMU] units. *)
Definition ONE : Z := 10 ^ 30.
Definition MAXU : Z := 10 ^ 59.
Definition LIMU : Z := 10 ^ 60.

(** The decimal (-1)^neg * coefficient * 10^exponent equals n units. *)
Definition has_units (d : fd) (n : Z) : Prop :=
  -30 <= fexp d /\
  n = (if fneg d then -1 else 1) * Z.of_N (fcoef d) * 10 ^ (fexp d + 30).

(** An arbitrary finite decimal, rounded down (toward minus infinity) to whole units. *)
Definition floor_units (d : fd) : Z :=
  let s := (if fneg d then -1 else 1) * Z.of_N (fcoef d) in
  if -30 <=? fexp d then s * 10 ^ (fexp d + 30) else s / 10 ^ (- 30 - fexp d).

(** What storing an exact result of n units (already rounded down) must give:
    clamped at 10^29, an error at -10^30 or below. *)
Definition store (n : Z) : result Z :=
  if MAXU <? n then Ok MAXU else if n <=? - LIMU then Err EInvalidOperation else Ok n.

(** [r] is the decimal result [s] (an error, or a number of units). *)
Definition agrees (r : result fd) (s : result Z) : Prop :=
  match r, s with
  | Ok d, Ok n => has_units d n
  | Err e, Err e' => e = e'
  | _, _ => False
  end.

(** The decimals a contract can hold: anything a constructor or an operator returned. *)
Inductive constructed : fd -> Prop :=
| c_str s d : cd_of_str s = Ok d -> constructed d
| c_int z d : cd_of_int z = Ok d -> constructed d
| c_float r d : cd_of_float r = Ok d -> constructed d
| c_dec x d : cd_of_dec x = Ok d -> constructed d
| c_add a b d : constructed a -> constructed b -> cd_add a b = Ok d -> constructed d
| c_sub a b d : constructed a -> constructed b -> cd_sub a b = Ok d -> constructed d
| c_mul a b d : constructed a -> constructed b -> cd_mul a b = Ok d -> constructed d
| c_div a b d : constructed a -> constructed b -> cd_div a b = Ok d -> constructed d
| c_mod a b d : constructed a -> constructed b -> cd_mod a b = Ok d -> constructed d
| c_floordiv a b d : constructed a -> constructed b -> cd_floordiv a b = Ok d -> constructed d
| c_neg a d : constructed a -> cd_neg a = Ok d -> constructed d
| c_abs a d : constructed a -> cd_abs a = Ok d -> constructed d.

(** The texts [repr] gives for finite floats: an optional sign, digits, an optional
    fraction, and an optional exponent e-XX or e+XX (then with one leading digit). *)
Record frepr : Type := mkfrepr {
  fr_neg : bool; fr_int : pystr; fr_frac : pystr; fr_exp : option (bool * pystr) }.
Definition frepr_text (f : frepr) : pystr :=
  (if fr_neg f then u "-" else []) ++ fr_int f
  ++ (match fr_frac f with [] => [] | ds => u "." ++ ds end)
  ++ (match fr_exp f with
      | None => []
      | Some (true, k) => u "e-" ++ k
      | Some (false, k) => u "e+" ++ k
      end).
Definition digits_value (s : pystr) : N := fold_left (fun a c => 10 * a + (c - 48))%N s 0%N.
(** the exact value: (-1)^neg * digits * 10^(exponent - number of fraction digits) *)
Definition frepr_value (f : frepr) : fd :=
  mkfd (fr_neg f) (digits_value (fr_int f ++ fr_frac f))
       ((match fr_exp f with
         | None => 0
         | Some (neg, k) => if neg then - Z.of_N (digits_value k) else Z.of_N (digits_value k)
         end) - Z.of_nat (List.length (fr_frac f))).
Definition frepr_ok (f : frepr) : Prop :=
  forallb is_digit (fr_int f) = true /\ forallb is_digit (fr_frac f) = true /\
  fr_int f <> [] /\ (List.length (fr_int f) <= 400)%nat /\ (List.length (fr_frac f) <= 400)%nat /\
  match fr_exp f with
  | None => True
  | Some (neg, k) => forallb is_digit k = true /\ (1 <= List.length k <= 3)%nat /\
                     List.length (fr_int f) = 1%nat /\ (1 <= digits_value k)%N
  end.
(** a decimal result read as units (for examples) *)
Definition map_result_units (r : result fd) : result Z :=
  match r with Ok d => Ok (floor_units d) | Err e => Err e end.
