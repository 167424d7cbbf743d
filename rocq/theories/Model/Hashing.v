(** * stdlib/bridge/hashing.py and stdlib/bridge/crypto.py
    The hash functions and the signature check are parameters: functions of bytes.  Arguments are strings. *)
From Verif Require Import Model.Base Model.Dec Model.Value Model.Encoder.
Local Open Scope N_scope.

(** str.encode(): UTF-8; UnicodeEncodeError on surrogates *)
Definition utf8_char (c : N) : list N :=
  if N.ltb c 128 then [c]
  else if N.ltb c 2048 then [192 + c / 64; 128 + c mod 64]
  else if N.ltb c 65536 then [224 + c / 4096; 128 + (c / 64) mod 64; 128 + c mod 64]
  else [240 + c / 262144; 128 + (c / 4096) mod 64; 128 + (c / 64) mod 64; 128 + c mod 64].
(** Python: s.encode() (bridge/hashing.py 10-35) *)
Definition utf8 (s : pystr) : result (list N) := if existsb is_surrogate s then Err EUnicode else Ok (flat_map utf8_char s).
(** hashing.py 11-14, 25-28 *)
Definition hash_input (s : pystr) : result (list N) :=
  match fromhex s with
  | Err EValue => utf8 s
  | r => r
  end.
(** hashing.py 10-21 sha3, 24-35 sha256: the same function but for the hash *)
Definition hash_of (H : list N -> list N) (s : pystr) : result pystr := do b <- hash_input s; Ok (hex_of_bytes (H b)).

(** int(text, 16).  [uni]: what CPython makes of a character above 126 before it looks at the text: a space, a digit 0-9 or '?'
    (_PyUnicode_TransformDecimalAndSpaceToASCII; NUL and everything after a '?' do not matter: both are syntax errors) *)
Section Int16.
  Variable uni : N -> N.
  (** CPython's conversion of a character before int(text, 16) (bridge/crypto.py 18-27 key_is_valid) *)
  Definition ascii_char (c : N) : N := if N.ltb c 127 then c else uni c.
  (** a hexadecimal digit *)
  Definition is_hex (c : N) : bool := match hex_val c with Some _ => true | None => false end.
  (** long_from_binary_base: digits, with single underscores between them *)
  Fixpoint hex_digits_ok (after_digit : bool) (s : pystr) : bool :=
    match s with
    | [] => after_digit
    | c :: s' => if N.eqb c (ch "_") then (after_digit && hex_digits_ok false s')%bool else (is_hex c && hex_digits_ok true s')%bool
    end.
  (** PyLong_FromString, base 16: 0x or 0X, after which one underscore is allowed *)
  Definition skip_0x (s : pystr) : pystr :=
    match s with
    | z :: x :: r => if (N.eqb z (ch "0") && (N.eqb x (ch "x") || N.eqb x (ch "X")))%bool
                     then match r with c :: r' => if N.eqb c (ch "_") then r' else r | [] => r end
                     else s
    | _ => s
    end.
  (** Python: int(text, 16) raises no ValueError (bridge/crypto.py 18-27 key_is_valid) *)
  Definition int16_ok (s : pystr) : bool :=
    let '(_, r) := take_sign (strip_c (map ascii_char s)) in hex_digits_ok false (skip_0x r).
  (** crypto.py 18-27 *)
  Definition key_is_valid (key : pystr) : bool := if negb (Nat.eqb (List.length key) 64) then false else int16_ok key.
End Int16.

(** crypto.py 5-15.  [signing]: the attribute nacl.signing, which exists only if some other code has imported it (crypto.py 2 imports nacl alone);
    its VerifyKey.verify accepts or raises.  VerifyKey(vk) raises ValueError unless vk has 32 bytes. *)
Definition verify (signing : option (list N -> list N -> list N -> bool)) (vk msg signature : pystr) : result bool :=
  do k <- fromhex vk;
  do m <- utf8 msg;
  do s <- fromhex signature;
  match signing with
  | None => Err EAttribute
  | Some check => if Nat.eqb (List.length k) 32 then Ok (check k m s) else Err EValue
  end.
