(** * The Python values contracts and the storage layer handle *)
From Verif Require Import Model.Base Model.Dec Model.Time.

(** Dictionary keys: the hashable values json.dumps accepts as keys, and others. *)
Inductive pykey : Type :=
| KStr (s : pystr) | KInt (z : Z) | KBool (b : bool) | KNone | KFloat (repr : pystr) | KOther (id : N).

(** Values.  [VFloat] carries the float's repr.  [VDecimal] is a raw decimal.Decimal,
    [VDec] a ContractingDecimal.  [VOther] stands for every other object (modules,
    functions, sets, ...), which json.dumps refuses. *)
Inductive pyval : Type :=
| VNone | VBool (b : bool) | VInt (z : Z) | VFloat (repr : pystr) | VStr (s : pystr)
| VBytes (b : list N) | VDec (d : fd) | VDecimal (d : dec) | VTime (t : datetime) | VDelta (t : timedelta)
| VList (l : list pyval) | VTuple (l : list pyval) | VDict (d : list (pykey * pyval)) | VOther (id : N).

(** Nested induction *)
Section pyval_ind.
  Variable P : pyval -> Prop.
  Hypothesis Hnone : P VNone.
  Hypothesis Hbool : forall b, P (VBool b).
  Hypothesis Hint : forall z, P (VInt z).
  Hypothesis Hfloat : forall r, P (VFloat r).
  Hypothesis Hstr : forall s, P (VStr s).
  Hypothesis Hbytes : forall b, P (VBytes b).
  Hypothesis Hdec : forall d, P (VDec d).
  Hypothesis Hdecimal : forall d, P (VDecimal d).
  Hypothesis Htime : forall t, P (VTime t).
  Hypothesis Hdelta : forall t, P (VDelta t).
  Hypothesis Hlist : forall l, Forall P l -> P (VList l).
  Hypothesis Htuple : forall l, Forall P l -> P (VTuple l).
  Hypothesis Hdict : forall d, Forall (fun kv => P (snd kv)) d -> P (VDict d).
  Hypothesis Hother : forall i, P (VOther i).
  (** induction over values, no code *)
  Fixpoint pyval_nested_ind (v : pyval) : P v :=
    match v with
    | VNone => Hnone | VBool b => Hbool b | VInt z => Hint z | VFloat r => Hfloat r | VStr s => Hstr s
    | VBytes b => Hbytes b | VDec d => Hdec d | VDecimal d => Hdecimal d | VTime t => Htime t | VDelta t => Hdelta t
    | VList l => Hlist l ((fix go l := match l return Forall P l with
                             | [] => Forall_nil _ | x :: l' => Forall_cons x (pyval_nested_ind x) (go l') end) l)
    | VTuple l => Htuple l ((fix go l := match l return Forall P l with
                             | [] => Forall_nil _ | x :: l' => Forall_cons x (pyval_nested_ind x) (go l') end) l)
    | VDict d => Hdict d ((fix go d := match d return Forall (fun kv => P (snd kv)) d with
                             | [] => Forall_nil _ | kv :: d' => Forall_cons kv (pyval_nested_ind (snd kv)) (go d') end) d)
    | VOther i => Hother i
    end.
End pyval_ind.

(** Traversal of a list of results, left to right (Python evaluation order) *)
Fixpoint seqr {A B} (f : A -> result B) (l : list A) : result (list B) :=
  match l with
  | [] => Ok []
  | x :: l' => do y <- f x; do ys <- seqr f l'; Ok (y :: ys)
  end.

(** str.encode() (UTF-8): length in bytes; UnicodeEncodeError on surrogates. *)
Definition is_surrogate (c : N) : bool := (N.leb 55296 c && N.leb c 57343)%bool.
(** UTF-8: the bytes of one character *)
Definition utf8_char_len (c : N) : nat :=
  if N.ltb c 128 then 1 else if N.ltb c 2048 then 2 else if N.ltb c 65536 then 3 else 4.
(** Python: len(s.encode()) *)
Definition utf8_len (s : pystr) : result nat :=
  if existsb is_surrogate s then Err EUnicode
  else Ok (fold_right (fun c n => utf8_char_len c + n) 0 s).
