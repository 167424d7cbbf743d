(** * stdlib/bridge/random.py 59-84 over CPython 3.11's Lib/random.py

    The generator is any source of numbers: [ds] is the list of what it gives next, each taken modulo
    the range asked for.  The answer is [None] if the source ends before the function does (the loop
    of [randbelow] is still drawing), otherwise the answer and the rest of the source.
    Simplifications: the arguments are ints and lists (randrange also takes floats with whole values,
    choice takes any sequence). *)
From Verif Require Import Model.Base.
Local Open Scope Z_scope.

(** computations that consume the numbers the generator draws (no code) *)
Definition rnd (A : Type) : Type := list Z -> option (result A * list Z).
(** computations that consume the numbers the generator draws (no code) *)
Definition rret {A} (r : result A) : rnd A := fun ds => Some (r, ds).
(** computations that consume the numbers the generator draws (no code) *)
Definition rbind {A B} (m : rnd A) (k : A -> rnd B) : rnd B :=
  fun ds => match m ds with
  | None => None
  | Some (Err e, ds') => Some (Err e, ds')
  | Some (Ok x, ds') => k x ds'
  end.
(** int.bit_length for n >= 0 *)
Definition bit_length (n : Z) : Z := if n <=? 0 then 0 else Z.log2 n + 1.
(** Lib/random.py Random._randbelow_with_getrandbits, for n > 0: k = n.bit_length(); draw k bits until r < n *)
Fixpoint draw_below (n k : Z) (ds : list Z) : option (result Z * list Z) :=
  match ds with
  | [] => None
  | d :: ds' => let r := d mod 2 ^ k in if n <=? r then draw_below n k ds' else Some (Ok r, ds')
  end.
(** Lib/random.py Random._randbelow_with_getrandbits *)
Definition randbelow (n : Z) : rnd Z := draw_below n (bit_length n).
(** Lib/random.py Random.randrange(start): ValueError for an empty range *)
Definition py_randrange1 (start : Z) : rnd Z :=
  if 0 <? start then randbelow start else rret (Err EValue).
(** Random.randrange(start, stop) *)
Definition py_randrange2 (start stop : Z) : rnd Z :=
  let width := stop - start in
  if 0 <? width then rbind (randbelow width) (fun r => rret (Ok (start + r))) else rret (Err EValue).
(** Random.randint *)
Definition py_randint (a b : Z) : rnd Z := py_randrange2 a (b + 1).
(** Random.choice: IndexError for an empty list, otherwise seq[self._randbelow(len(seq))] *)
Definition py_choice {A} (l : list A) : rnd A :=
  if (List.length l =? 0)%nat then rret (Err EIndex)
  else rbind (randbelow (Z.of_nat (List.length l)))
    (fun r => rret (match nth_error l (Z.to_nat r) with Some x => Ok x | None => Err EIndex end)).
(** x[i], x[j] = x[j], x[i] *)
Fixpoint set_at {A} (i : nat) (x : A) (l : list A) : list A :=
  match i, l with
  | _, [] => []
  | O, _ :: l' => x :: l'
  | S i', y :: l' => y :: set_at i' x l'
  end.
(** Lib/random.py Random.shuffle: x[i], x[j] = x[j], x[i] *)
Definition swap {A} (i j : nat) (l : list A) : list A :=
  match nth_error l i, nth_error l j with
  | Some a, Some b => set_at j a (set_at i b l)
  | _, _ => l
  end.
(** Random.shuffle: for i in reversed(range(1, len(x))): j = randbelow(i + 1); swap *)
Fixpoint shuffle_from {A} (i : nat) (l : list A) : rnd (list A) :=
  match i with
  | O => rret (Ok l)
  | S i' => rbind (randbelow (Z.of_nat i + 1)) (fun j => shuffle_from i' (swap i (Z.to_nat j) l))
  end.
(** Lib/random.py Random.shuffle *)
Definition py_shuffle {A} (l : list A) : rnd (list A) := shuffle_from (List.length l - 1) l.
(** The double nearest to p (ties to even), for p >= 0: 53 significant bits *)
Definition round53 (p : Z) : Z :=
  if p <? 2 ^ 53 then p
  else
    let unit := 2 ^ (Z.log2 p - 52) in
    let q := p / unit in
    let r := p mod unit in
    (if ((2 * r <? unit) || ((2 * r =? unit) && Z.even q))%bool then q else q + 1) * unit.
(** Random.random() is m / 2^53 for a 53-bit m; floor(random() * n), where n is a float (n < 2^53: exact);
    the division by 2^53 is exact *)
Definition float_index (m n : Z) : Z := round53 (m * n) / 2 ^ 53.
(** Random.choices(population, k=k) without weights: [population[floor(random() * n)] for i in repeat(None, k)];
    a k below 0 repeats nothing *)
Fixpoint choices_n {A} (l : list A) (k : nat) : rnd (list A) :=
  match k with
  | O => rret (Ok [])
  | S k' => fun ds =>
    match ds with
    | [] => None
    | d :: ds' =>
      match nth_error l (Z.to_nat (float_index (d mod 2 ^ 53) (Z.of_nat (List.length l)))) with
      | None => Some (Err EIndex, ds')
      | Some x => rbind (choices_n l k') (fun xs => rret (Ok (x :: xs))) ds'
      end
    end
  end.
(** Lib/random.py Random.choices(population, k=k) *)
Definition py_choices {A} (l : list A) (k : Z) : rnd (list A) := choices_n l (Z.to_nat k).

(** random.py 59-84: each asserts that seed() was called in this transaction, then calls Python's.
    shuffle changes the list it is given: the answer here is that list afterwards. *)
Definition when_seeded {A} (seeded : bool) (m : rnd A) : rnd A :=
  if seeded then m else rret (Err EAssertion).
(** bridge/random.py 59-61 shuffle *)
Definition r_shuffle {A} (seeded : bool) (l : list A) := when_seeded seeded (py_shuffle l).
(** bridge/random.py 64-66 randrange *)
Definition r_randrange (seeded : bool) (k : Z) := when_seeded seeded (py_randrange1 k).
(** bridge/random.py 69-71 randint *)
Definition r_randint (seeded : bool) (a b : Z) := when_seeded seeded (py_randint a b).
(** bridge/random.py 74-76 choice *)
Definition r_choice {A} (seeded : bool) (l : list A) := when_seeded seeded (py_choice l).
(** bridge/random.py 79-81 choices *)
Definition r_choices {A} (seeded : bool) (l : list A) (k : Z) := when_seeded seeded (py_choices l k).
