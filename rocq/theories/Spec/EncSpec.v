(** * Which values can be stored, and when two values are the same *)
From Verif Require Import Model.Base Model.Dec Model.Time Model.Value Spec.DecSpec Spec.TimeSpec.

(** Text: Unicode code points, no high surrogate directly followed by a low one. *)
Fixpoint text_ok (s : pystr) : Prop :=
  match s with
  | [] => True
  | c :: s' => (c <= 1114111)%N /\
      match s' with
      | c2 :: _ => ~ ((55296 <= c <= 56319)%N /\ (56320 <= c2 <= 57343)%N)
      | [] => True
      end /\ text_ok s'
  end.
Definition reserved : list pystr :=
  [u "__time__"; u "__delta__"; u "__bytes__"; u "__fixed__"; u "__big_int__"].

(** The repr of a float: a special name, or a numeral with a fraction or an exponent and
    no superfluous leading zero. *)
Definition float_repr (r : pystr) : Prop :=
  r = u "nan" \/ r = u "inf" \/ r = u "-inf" \/
  exists f, r = frepr_text f /\ frepr_ok f /\ (fr_frac f <> [] \/ fr_exp f <> None) /\
            (fr_int f = u "0" \/ hd 0%N (fr_int f) <> 48%N).

(** Ints must have at most 4300 digits (a limit of CPython, not of the code). *)
Definition int_ok (z : Z) : Prop := (Z.abs z < 10 ^ 4300)%Z.

(** Storable values: None, booleans, integers, floats, text, bytes, decimals, datetimes,
    timedeltas, and lists and string-keyed dicts of these without reserved keys. *)
Fixpoint storable (v : pyval) : Prop :=
  match v with
  | VNone | VBool _ => True
  | VInt z => int_ok z
  | VFloat r => float_repr r
  | VStr s => text_ok s
  | VBytes b => Forall (fun x => (x < 256)%N) b
  | VDec d => constructed d
  | VTime t => is_datetime t
  | VDelta t => is_timedelta t
  | VList l => (fix all l := match l with [] => True | x :: l' => storable x /\ all l' end) l
  | VDict d =>
      NoDup (map fst d) /\
      (fix all d := match d with
        | [] => True
        | (k, x) :: d' => (exists s, k = KStr s /\ text_ok s /\ ~ In s reserved) /\ storable x /\ all d'
        end) d
  | _ => False
  end.

(** The same Python value: equal, with decimals compared by their numeric value. *)
Inductive same : pyval -> pyval -> Prop :=
| same_refl v : same v v
| same_dec a b n : has_units a n -> has_units b n -> same (VDec a) (VDec b)
| same_list l m : Forall2 same l m -> same (VList l) (VList m)
| same_dict d e : Forall2 (fun x y => fst x = fst y /\ same (snd x) (snd y)) d e -> same (VDict d) (VDict e).

(** ** The two halves of "storable": well-formed leaves, and the JSON shape *)
(** Leaves that exist as Python values; dict keys are distinct.  Says nothing about shapes. *)
Fixpoint leaves_ok (v : pyval) : Prop :=
  match v with
  | VNone | VBool _ | VDecimal _ | VOther _ => True
  | VInt z => int_ok z
  | VFloat r => float_repr r
  | VStr s => text_ok s
  | VBytes b => Forall (fun x => (x < 256)%N) b
  | VDec d => constructed d
  | VTime t => is_datetime t
  | VDelta t => is_timedelta t
  | VList l | VTuple l => (fix all l := match l with [] => True | x :: l' => leaves_ok x /\ all l' end) l
  | VDict d =>
      NoDup (map fst d) /\
      (fix all d := match d with
        | [] => True
        | (k, x) :: d' => match k with KStr s => text_ok s | KFloat r => float_repr r | _ => True end /\ leaves_ok x /\ all d'
        end) d
  end.
(** No tuple, raw decimal.Decimal or other object anywhere; all dict keys are strings, none reserved. *)
Fixpoint json_shape (v : pyval) : Prop :=
  match v with
  | VTuple _ | VDecimal _ | VOther _ => False
  | VList l => (fix all l := match l with [] => True | x :: l' => json_shape x /\ all l' end) l
  | VDict d =>
      (fix all d := match d with
        | [] => True
        | (k, x) :: d' => (exists s, k = KStr s /\ ~ In s reserved) /\ json_shape x /\ all d'
        end) d
  | _ => True
  end.

(** ** Lists in positions the encoder looks at *)
(** Every list is the value of a dict entry and has no list (or tuple) as an element. *)
Fixpoint lists_under_dicts (v : pyval) : Prop :=
  match v with
  | VList _ | VTuple _ => False
  | VDict d =>
      (fix all d := match d with
        | [] => True
        | (_, x) :: d' =>
            match x with
            | VList l => (fix alli l := match l with [] => True | i :: l' => lists_under_dicts i /\ alli l' end) l
            | _ => lists_under_dicts x
            end /\ all d'
        end) d
  | _ => True
  end.

(** ** Characters outside string literals of a JSON text *)
Fixpoint outside (in_string escaped : bool) (t : pystr) : pystr :=
  match t with
  | [] => []
  | c :: t' =>
      if in_string then
        if escaped then outside true false t'
        else if N.eqb c 92 then outside true true t'
        else if N.eqb c 34 then outside false false t' else outside true false t'
      else if N.eqb c 34 then outside true false t' else c :: outside false false t'
  end.

(** ** All integers of a parsed document within the open interval *)
Fixpoint ints_in_range (v : pyval) : Prop :=
  match v with
  | VInt z => (- 2 ^ 63 < z < 2 ^ 63 - 1)%Z
  | VList l | VTuple l => (fix all l := match l with [] => True | x :: l' => ints_in_range x /\ all l' end) l
  | VDict d => (fix all d := match d with [] => True | (_, x) :: d' => ints_in_range x /\ all d' end) d
  | _ => True
  end.
