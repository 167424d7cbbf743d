(** * Dates as text: stdlib/bridge/time.py 87-88 __str__ and 103-105 strptime over CPython 3.11's Lib/_strptime.py

    Modelled: the directives %Y %m %d %H %M %S %f and %%, whitespace and literal characters.  A format
    with any other directive Python knows has the answer [None] (not modelled). *)
From Verif Require Import Model.Base Model.Time.
Local Open Scope Z_scope.

(** What Python's re knows about characters: \d with the digit's value (int() of such a text uses the same
    values), \s, and equality under IGNORECASE *)
Record chars : Type := mkchars { c_digit : N -> option Z; c_space : N -> bool; c_same : N -> N -> bool }.

(** ** Patterns.  _strptime.py TimeRE.__init__: each directive is a list of alternatives tried in this order *)
Inductive cls : Type :=
| CRange (lo hi : N)     (* [1-9], or a single character *)
| CDig.                  (* \d *)
Inductive directive : Type := DY | Dm | Dd | DH | DM | DS | Df.
(** [c] and [a-b] of a regular expression *)
Definition r1 (s : string) : cls := CRange (ch s) (ch s).
(** [c] and [a-b] of a regular expression *)
Definition rg (a b : string) : cls := CRange (ch a) (ch b).
(** [0-9]{1,6} is greedy: six digits, then five, ... *)
Definition alternatives (d : directive) : list (list cls) :=
  match d with
  | Dd => [[r1 "3"; rg "0" "1"]; [rg "1" "2"; CDig]; [r1 "0"; rg "1" "9"]; [rg "1" "9"]; [r1 " "; rg "1" "9"]]
  | Df => map (fun n => repeat (rg "0" "9") n) [6; 5; 4; 3; 2; 1]%nat
  | DH => [[r1 "2"; rg "0" "3"]; [rg "0" "1"; CDig]; [CDig]]
  | Dm => [[r1 "1"; rg "0" "2"]; [r1 "0"; rg "1" "9"]; [rg "1" "9"]]
  | DM => [[rg "0" "5"; CDig]; [CDig]]
  | DS => [[r1 "6"; rg "0" "1"]; [rg "0" "5"; CDig]; [CDig]]
  | DY => [[CDig; CDig; CDig; CDig]]
  end.
(** Lib/_strptime.py TimeRE.pattern: the pieces of a format *)
Inductive tok : Type := TLit (c : N) | TSpace | TDir (d : directive).

(** Lib/_strptime.py: the directives modelled *)
Definition directive_of (c : N) : option directive :=
  if N.eqb c (ch "Y") then Some DY else if N.eqb c (ch "m") then Some Dm else if N.eqb c (ch "d") then Some Dd
  else if N.eqb c (ch "H") then Some DH else if N.eqb c (ch "M") then Some DM else if N.eqb c (ch "S") then Some DS
  else if N.eqb c (ch "f") then Some Df else None.
(** the other keys of TimeRE *)
Definition other_directive (c : N) : bool := has_char c (u "IGjUwuVyzAaBbpZWcxX").
(** _strptime.py TimeRE.pattern: special characters of regular expressions are escaped and stand for themselves;
    a run of whitespace becomes \s+; after % the next character is looked up (KeyError for an unknown one, also
    for the backslash that now stands before a special character or whitespace; IndexError at the end: both
    become ValueError).  [insp]: the character before was whitespace. *)
Inductive parsed : Type := PToks (l : list tok) | PBad | POther.
(** one more piece in front *)
Definition pcons (t : tok) (p : parsed) : parsed := match p with PToks l => PToks (t :: l) | _ => p end.
(** Lib/_strptime.py TimeRE.pattern *)
Fixpoint parse_format (C : chars) (insp : bool) (f : pystr) : parsed :=
  match f with
  | [] => PToks []
  | c :: f' =>
    if N.eqb c (ch "%") then
      match f' with
      | [] => PBad
      | k :: f'' =>
        if N.eqb k (ch "%") then pcons (TLit (ch "%")) (parse_format C false f'')
        else match directive_of k with
             | Some d => pcons (TDir d) (parse_format C false f'')
             | None => if other_directive k
                       then match parse_format C false f'' with PBad => PBad | _ => POther end
                       else PBad
             end
      end
    else if c_space C c then (if insp then parse_format C true f' else pcons TSpace (parse_format C true f'))
    else pcons (TLit c) (parse_format C false f')
  end.
(** re.compile: a group name may be defined only once (re.error, an Exception) *)
Definition dir_eqb (a b : directive) : bool :=
  match a, b with DY, DY | Dm, Dm | Dd, Dd | DH, DH | DM, DM | DS, DS | Df, Df => true | _, _ => false end.
(** re.compile: a group name defined twice (re.error) *)
Fixpoint duplicate (l : list tok) : bool :=
  match l with
  | [] => false
  | TDir d :: l' => existsb (fun t => match t with TDir d' => dir_eqb d d' | _ => false end) l' || duplicate l'
  | _ :: l' => duplicate l'
  end.

(** ** Matching: re's backtracking.  The answer is the groups and the text after the match *)
Definition in_cls (C : chars) (k : cls) (c : N) : bool :=
  match k with
  | CRange lo hi => (N.leb lo c && N.leb c hi)%bool
  | CDig => match c_digit C c with Some _ => true | None => false end
  end.
(** re: the text begins with characters of these classes *)
Fixpoint take_cls (C : chars) (ks : list cls) (s : pystr) : option (pystr * pystr) :=
  match ks, s with
  | [], _ => Some ([], s)
  | k :: ks', c :: s' =>
    if in_cls C k c then match take_cls C ks' s' with Some (a, r) => Some (c :: a, r) | None => None end else None
  | _ :: _, [] => None
  end.
(** re: the first alternative that leads to a match *)
Fixpoint first_some {A B} (f : A -> option B) (l : list A) : option B :=
  match l with [] => None | x :: l' => match f x with Some b => Some b | None => first_some f l' end end.
(** re: how many characters \s+ can take *)
Fixpoint spaces (C : chars) (s : pystr) : nat :=
  match s with c :: s' => if c_space C c then S (spaces C s') else O | [] => O end.
(** re: matching with backtracking *)
Fixpoint match_toks (C : chars) (l : list tok) (s : pystr) {struct l} : option (list (directive * pystr) * pystr) :=
  match l with
  | [] => Some ([], s)
  | TLit c :: l' =>
    match s with
    | c' :: s' => if c_same C c c' then match_toks C l' s' else None
    | [] => None
    end
  | TSpace :: l' =>
    (* \s+ : as many as there are, then one less, ... at least one *)
    first_some (fun n => match_toks C l' (skipn n s)) (rev (seq 1 (spaces C s)))
  | TDir d :: l' =>
    first_some (fun ks =>
      match take_cls C ks s with
      | Some (a, r) => match match_toks C l' r with Some (g, e) => Some ((d, a) :: g, e) | None => None end
      | None => None
      end) (alternatives d)
  end.

(** int() of a matched group: digits, before them at most a space *)
Definition digit_value (C : chars) (c : N) : Z :=
  match c_digit C c with Some v => v | None => 0 end.
(** Python: int(found_dict['...']) (Lib/_strptime.py _strptime) *)
Definition int_of_group (C : chars) (s : pystr) : Z :=
  fold_left (fun acc c => acc * 10 + digit_value C c) (match s with c :: s' => if N.eqb c (ch " ") then s' else s | [] => s end) 0.
(** Python: found_dict.get('...') (Lib/_strptime.py _strptime) *)
Fixpoint group (d : directive) (g : list (directive * pystr)) : option pystr :=
  match g with [] => None | (d', t) :: g' => if dir_eqb d d' then Some t else group d g' end.
(** Lib/_strptime.py _strptime: a field or its default *)
Definition field (C : chars) (g : list (directive * pystr)) (d : directive) (default : Z) : Z :=
  match group d g with Some t => int_of_group C t | None => default end.
(** %f: padded with zeros to six digits *)
Definition fraction (C : chars) (g : list (directive * pystr)) : Z :=
  match group Df g with Some t => int_of_group C (t ++ repeat (ch "0") (6 - List.length t)) | None => 0 end.

(** _strptime.py _strptime and _strptime_datetime, then time.py 94-101 _from_datetime.  Without %Y the year is 1900
    (29 February is first looked at in 1904, and then refused in 1900).  datetime_date(year, month, day) raises the
    same ValueError as the constructor for a day the month does not have. *)
Definition dt_strptime (C : chars) (text format : pystr) : option (result datetime) :=
  match parse_format C false format with
  | POther => None
  | PBad => Some (Err EValue)
  | PToks l =>
    if duplicate l then Some (Err EException)
    else
      match match_toks C l text with
      | None => Some (Err EValue)                  (* does not match format *)
      | Some (g, _ :: _) => Some (Err EValue)      (* unconverted data remains *)
      | Some (g, []) =>
        Some (mk_datetime (field C g DY 1900) (field C g Dm 1) (field C g Dd 1)
                (field C g DH 0) (field C g DM 0) (field C g DS 0) (fraction C g))
      end
  end.

(** time.py 87-88: str(datetime) is isoformat(sep=' '): "%04d-%02d-%02d %02d:%02d:%02d", and ".%06d" if there are microseconds *)
Fixpoint padded (width : nat) (n : Z) : pystr :=
  match width with
  | O => []
  | S w => padded w (n / 10) ++ [Z.to_N (48 + n mod 10)]
  end.
(** time.py 87-88 __str__ *)
Definition dt_str (t : datetime) : pystr :=
  padded 4 (dt_year t) ++ u "-" ++ padded 2 (dt_month t) ++ u "-" ++ padded 2 (dt_day t) ++ u " "
  ++ padded 2 (dt_hour t) ++ u ":" ++ padded 2 (dt_minute t) ++ u ":" ++ padded 2 (dt_second t)
  ++ (if dt_micro t =? 0 then [] else u "." ++ padded 6 (dt_micro t)).

(** An instance of [chars] for ASCII text *)
Definition ascii_chars : chars := {|
  c_digit := fun c => if (N.leb 48 c && N.leb c 57)%bool then Some (Z.of_N c - 48) else None;
  c_space := fun c => has_char c [9; 10; 11; 12; 13; 28; 29; 30; 31; 32]%N;
  c_same := fun a b => N.eqb a b || ((N.leb 65 a && N.leb a 90 && N.eqb b (a + 32)) || (N.leb 97 a && N.leb a 122 && N.eqb a (b + 32)))%N |}.
