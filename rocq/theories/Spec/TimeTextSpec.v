(** * What it means that a text spells a date by a format *)
From Verif Require Import Model.Base Model.Time Model.TimeText.
Local Open Scope Z_scope.

(** The characters of ASCII are what they are: digits have their values (0 to 9 in every script), the space is a space and no digit,
    digits and % are no spaces, and every character is the same as itself *)
Record plain (C : chars) : Prop := {
  pl_value : forall c x, c_digit C c = Some x -> 0 <= x <= 9;
  pl_digit : forall n, 0 <= n <= 9 -> c_digit C (Z.to_N (48 + n)) = Some n;
  pl_dspace : forall n, 0 <= n <= 9 -> c_space C (Z.to_N (48 + n)) = false;
  pl_blank : c_space C 32%N = true /\ c_digit C 32%N = None;
  pl_percent : c_space C (ch "%") = false;
  pl_same : forall c, c_same C c c = true }.

(** [s] is a row of digits (of any script) with value [v] *)
Inductive numeral (C : chars) : pystr -> Z -> Prop :=
| num_nil : numeral C [] 0
| num_snoc s v c x : numeral C s v -> c_digit C c = Some x -> numeral C (s ++ [c]) (v * 10 + x).
Definition width (s : pystr) : Z := Z.of_nat (List.length s).

(** [t] is a number written for the directive character [k], and [v] its value (microseconds for %f) *)
Inductive written (C : chars) : N -> pystr -> Z -> Prop :=
| wr_two k t v : In k (u "mdHMS") -> 1 <= width t <= 2 -> numeral C t v -> written C k t v
| wr_day t v : width t = 1 -> numeral C t v -> written C (ch "d") (ch " " :: t) v
| wr_year t v : width t = 4 -> numeral C t v -> written C (ch "Y") t v
| wr_frac t v : 1 <= width t <= 6 -> numeral C t v -> written C (ch "f") t (v * 10 ^ (6 - width t)).

(** The text spells the values [F] (directive characters with numbers) by the format: %% is a percent sign, whitespace
    stands for any whitespace, other characters for themselves in upper or lower case *)
Inductive spells (C : chars) : pystr -> pystr -> list (N * Z) -> Prop :=
| sp_end : spells C [] [] []
| sp_char c c' f s F : c <> ch "%" -> c_space C c = false -> c_same C c c' = true ->
    spells C f s F -> spells C (c :: f) (c' :: s) F
| sp_percent c' f s F : c_same C (ch "%") c' = true ->
    spells C f s F -> spells C (ch "%" :: ch "%" :: f) (c' :: s) F
| sp_space w w' f s F : w <> [] -> w' <> [] -> Forall (fun c => c_space C c = true) w -> Forall (fun c => c_space C c = true) w' ->
    spells C f s F -> spells C (w ++ f) (w' ++ s) F
| sp_number k t v f s F : written C k t v -> spells C f s F ->
    spells C (ch "%" :: k :: f) (t ++ s) ((k, v) :: F).

(** The same in full width: numbers with all their digits, in 0-9 and in the range of the directive; literal characters as in the format *)
Definition range_of (k : N) (lo hi w : Z) : Prop :=
  In (k, lo, hi, w) [(ch "Y", 0, 9999, 4); (ch "m", 1, 12, 2); (ch "d", 1, 31, 2); (ch "H", 0, 23, 2);
    (ch "M", 0, 59, 2); (ch "S", 0, 59, 2); (ch "f", 0, 999999, 6)].
Inductive prints (C : chars) : pystr -> pystr -> list (N * Z) -> Prop :=
| pt_end : prints C [] [] []
| pt_char c f s F : c <> ch "%" -> c_space C c = false -> prints C f s F -> prints C (c :: f) (c :: s) F
| pt_percent f s F : prints C f s F -> prints C (ch "%" :: ch "%" :: f) (ch "%" :: s) F
| pt_space w w' f s F : w <> [] -> w' <> [] -> Forall (fun c => c_space C c = true) w -> Forall (fun c => c_space C c = true) w' ->
    (forall c f', f = c :: f' -> c_space C c = false) -> prints C f s F -> prints C (w ++ f) (w' ++ s) F
| pt_number k t v lo hi w f s F : range_of k lo hi w -> lo <= v <= hi -> width t = w -> numeral C t v ->
    Forall (fun c => 48 <= Z.of_N c <= 57) t -> prints C f s F ->
    prints C (ch "%" :: k :: f) (t ++ s) ((k, v) :: F).

(** The date has the values [F], and 1 January 1900 0:00 for what is missing *)
Definition shows (F : list (N * Z)) (d : datetime) : Prop :=
  forall k default x,
    In (k, default, x) [(ch "Y", 1900, dt_year d); (ch "m", 1, dt_month d); (ch "d", 1, dt_day d); (ch "H", 0, dt_hour d);
      (ch "M", 0, dt_minute d); (ch "S", 0, dt_second d); (ch "f", 0, dt_micro d)] ->
    (In (k, x) F) \/ ((forall v, ~ In (k, v) F) /\ x = default).
