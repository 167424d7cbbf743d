(** * What the hash functions hash, and what a key is *)
From Verif Require Import Model.Base.
Local Open Scope N_scope.

Definition hex_lower : list N := u "0123456789abcdef".
Definition hex_upper : list N := u "0123456789ABCDEF".
(** [c] is the hexadecimal digit with value [x] *)
Definition hexdigit (c x : N) : Prop := nth_error hex_lower (N.to_nat x) = Some c \/ nth_error hex_upper (N.to_nat x) = Some c.
Definition blank (c : N) : Prop := In c [9; 10; 11; 12; 13; 32].
(** Text that stands for bytes: pairs of digits, blanks between the pairs *)
Inductive hex_text : pystr -> list N -> Prop :=
| HexEnd : hex_text [] []
| HexBlank c s b : blank c -> hex_text s b -> hex_text (c :: s) b
| HexByte c d x y s b : hexdigit c x -> hexdigit d y -> hex_text s b -> hex_text (c :: d :: s) (16 * x + y :: b).

(** UTF-8, from the bit patterns of RFC 3629 *)
Inductive utf8_bytes : N -> list N -> Prop :=
| U1 a : a < 128 -> utf8_bytes a [a]
| U2 a b : a < 32 -> b < 64 -> 128 <= 64 * a + b -> utf8_bytes (64 * a + b) [192 + a; 128 + b]
| U3 a b c : a < 16 -> b < 64 -> c < 64 -> 2048 <= 4096 * a + 64 * b + c -> utf8_bytes (4096 * a + 64 * b + c) [224 + a; 128 + b; 128 + c]
| U4 a b c d : a < 8 -> b < 64 -> c < 64 -> d < 64 -> 65536 <= 262144 * a + 4096 * b + 64 * c + d ->
    utf8_bytes (262144 * a + 4096 * b + 64 * c + d) [240 + a; 128 + b; 128 + c; 128 + d].
Definition surrogate (c : N) : Prop := 55296 <= c <= 57343.
Inductive utf8_text : pystr -> list N -> Prop :=
| UNil : utf8_text [] []
| UCons c s b bs : ~ surrogate c -> utf8_bytes c b -> utf8_text s bs -> utf8_text (c :: s) (b ++ bs).
(** Python's strings: code points *)
Definition python_str (s : pystr) : Prop := Forall (fun c => c < 1114112) s.

(** The bytes a string stands for: those it spells if it is hexadecimal text, else its UTF-8 form *)
Definition stands_for (s : pystr) (b : list N) : Prop := hex_text s b \/ ((forall b', ~ hex_text s b') /\ utf8_text s b).
(** The lower case hexadecimal text of bytes *)
Inductive lower_hex : list N -> pystr -> Prop :=
| LHNil : lower_hex [] []
| LHCons c d x y b s : nth_error hex_lower (N.to_nat x) = Some c -> nth_error hex_lower (N.to_nat y) = Some d -> lower_hex b s -> lower_hex (16 * x + y :: b) (c :: d :: s).

(** ** What int(text, 16) takes *)
(** digits with single underscores between them *)
Inductive grouped_hex : pystr -> Prop :=
| GDigit c x : hexdigit c x -> grouped_hex [c]
| GMore c x s : hexdigit c x -> grouped_hex s -> grouped_hex (c :: s)
| GGroup c x s : hexdigit c x -> grouped_hex s -> grouped_hex (c :: ch "_" :: s).
Definition optional (a : list pystr) (s : pystr) : Prop := s = [] \/ In s a.
Definition hex_number (s : pystr) : Prop :=
  exists b1 sign prefix digits b2, s = b1 ++ sign ++ prefix ++ digits ++ b2 /\ Forall blank b1 /\ Forall blank b2 /\
    optional [u "+"; u "-"] sign /\ optional [u "0x"; u "0X"; u "0x_"; u "0X_"] prefix /\ grouped_hex digits.
