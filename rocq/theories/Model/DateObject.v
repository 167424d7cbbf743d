(** * Datetime objects: what they compare by and what they show

    Model/Time.v has a Datetime as one value.  It is an object with two parts: _datetime, by which it is compared, added to and printed, and
    the attributes year ... microsecond, which are written to storage.  linter.py 65-73 keeps contract code from the first and not from
    the second: `d.month = 13` is contract code. *)
From Verif Require Import Model.Base Model.Dec Model.Time Model.TimeText Model.Value Model.Encoder.

(** time.py 27-44: self._datetime, and the seven attributes in their order *)
Record date_object : Type := mkDate { wrapped : datetime; shown : list pyval }.
(** time.py 27-44 Datetime.__init__ *)
Definition new_date (y mo d h mi s us : Z) : result date_object :=
  do t <- mk_datetime y mo d h mi s us; Ok (mkDate t (map VInt (dt_fields t))).
(** the i-th of a list is replaced *)
Fixpoint replace (i : nat) (v : pyval) (l : list pyval) : list pyval :=
  match l, i with [], _ => [] | _ :: l', O => v :: l' | x :: l', S j => x :: replace j v l' end.
(** d.year = v is 0, d.month = v is 1, ... d.microsecond = v is 6: Python's attribute assignment *)
Definition assign (i : nat) (v : pyval) (o : date_object) : date_object := mkDate (wrapped o) (replace i v (shown o)).
(** time.py 46-74: comparisons are of _datetime *)
Definition same_date (a b : date_object) : bool := dt_eq (wrapped a) (wrapped b).
(** time.py 46-49 *)
Definition earlier (a b : date_object) : bool := dt_lt (wrapped a) (wrapped b).
(** time.py 76-80 __sub__ *)
Definition apart (a b : date_object) : result timedelta := dt_sub (wrapped a) (wrapped b).
(** time.py 82-85 __add__, 94-101 _from_datetime *)
Definition later_by (a : date_object) (d : timedelta) : result date_object := do t <- dt_add (wrapped a) d; Ok (mkDate t (map VInt (dt_fields t))).
(** time.py 87-88 __str__ *)
Definition as_text (a : date_object) : pystr := dt_str (wrapped a).
(** encoder.py 32-35 and json.dumps: what is stored *)
Definition written (a : date_object) : result pystr := do l <- seqr to_json (shown a); Ok (print_json (JObj [(u "__time__", JList l)])).
(** encoder.py 108-110, 124-134: what is read from a text is a new object *)
Definition read_back (x : pystr) : result (option date_object) :=
  do v <- decode (Some x); Ok (match v with VTime t => Some (mkDate t (map VInt (dt_fields t))) | _ => None end).

(** ** The date called now *)
(** A statement of a contract: now.<attribute i> = v, or a write of now to a key of its own *)
Inductive now_statement : Type := AssignNow (i : nat) (v : pyval) | StoreNow (key : pystr).
(** executor.py 95 and module.py 109-110: every contract of a transaction gets the same object, that of the environment dict; the client keeps
    its environment (client.py 162-168), so the object is that of later transactions too.  The state: the object, and what was written, last first. *)
Definition now_state : Type := date_object * list (pystr * pystr * result pystr).
(** one statement of the contract [c] *)
Definition now_step (c : pystr) (s : now_statement) (q : now_state) : now_state :=
  match s with AssignNow i v => (assign i v (fst q), snd q) | StoreNow k => (fst q, (c, k, written (fst q)) :: snd q) end.
(** the statements of a history, each with its contract *)
Definition now_run (l : list (pystr * now_statement)) (q : now_state) : now_state := fold_left (fun q s => now_step (fst s) (snd s) q) l q.
