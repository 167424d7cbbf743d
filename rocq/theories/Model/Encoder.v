(** * storage/encoder.py and the json module it calls *)
From Verif Require Import Model.Base Model.Dec Model.Time Model.Value.
Local Open Scope N_scope.

(** ** JSON documents (what json.dumps walks over and json.loads reads) *)
Inductive json : Type :=
| JNull | JBool (b : bool) | JInt (z : Z) | JFloat (text : pystr) | JStr (s : pystr)
| JList (l : list json) | JObj (d : list (pystr * json)).

Section json_ind.
  Variable P : json -> Prop.
  Hypothesis Hnull : P JNull.
  Hypothesis Hbool : forall b, P (JBool b).
  Hypothesis Hint : forall z, P (JInt z).
  Hypothesis Hfloat : forall r, P (JFloat r).
  Hypothesis Hstr : forall s, P (JStr s).
  Hypothesis Hlist : forall l, Forall P l -> P (JList l).
  Hypothesis Hobj : forall d, Forall (fun kv => P (snd kv)) d -> P (JObj d).
  (** induction over documents, no code *)
  Fixpoint json_nested_ind (v : json) : P v :=
    match v with
    | JNull => Hnull | JBool b => Hbool b | JInt z => Hint z | JFloat r => Hfloat r | JStr s => Hstr s
    | JList l => Hlist l ((fix go l := match l return Forall P l with
                             | [] => Forall_nil _ | x :: l' => Forall_cons x (json_nested_ind x) (go l') end) l)
    | JObj d => Hobj d ((fix go d := match d return Forall (fun kv => P (snd kv)) d with
                             | [] => Forall_nil _ | kv :: d' => Forall_cons kv (json_nested_ind (snd kv)) (go d') end) d)
    end.
End json_ind.

(** ** Encoding *)

(** encoder.py:8-9,60-66 encode_int.  A bool is an int and stays as it is. *)
Definition BIG_KEY : pystr := u "__big_int__".
(** encoder.py 8-9, 61-62: MONGO_MIN_INT < value < MONGO_MAX_INT *)
Definition mongo_ok (z : Z) : bool := (Z.ltb (- 2 ^ 63) z && Z.ltb z (2 ^ 63 - 1))%bool.
(** encoder.py 60-66 encode_int *)
Definition encode_int (z : Z) : result pyval :=
  if mongo_ok z then Ok (VInt z)
  else do s <- py_int_str z; Ok (VDict [(KStr BIG_KEY, VStr s)]).

(** encoder.py:69-88 encode_ints_in_dict.  The keys of a Python dict are distinct,
    so rebuilding it keeps all entries in order. *)
Fixpoint encode_ints_in_dict (v : pyval) : result pyval :=
  match v with
  | VDict d =>
      do d' <- (fix go (d : list (pykey * pyval)) : result (list (pykey * pyval)) :=
        match d with
        | [] => Ok []
        | (k, x) :: d' =>
            do x' <-
              match x with
              | VInt z => encode_int z
              | VDict _ => encode_ints_in_dict x
              | VList l =>
                  do l' <- (fix goi (l : list pyval) : result (list pyval) :=
                    match l with
                    | [] => Ok []
                    | i :: l' =>
                        do i' <- match i with
                                 | VDict _ => encode_ints_in_dict i
                                 | VInt z => encode_int z
                                 | _ => Ok i
                                 end;
                        do r <- goi l'; Ok (i' :: r)
                    end) l; Ok (VList l')
              | _ => Ok x
              end;
            do r <- go d'; Ok ((k, x') :: r)
        end) d; Ok (VDict d')
  | _ => Ok v
  end.

(** json float text: repr, except the three special names *)
Definition float_text (repr : pystr) : pystr :=
  if str_eqb repr (u "nan") then u "NaN"
  else if str_eqb repr (u "inf") then u "Infinity"
  else if str_eqb repr (u "-inf") then u "-Infinity" else repr.
(** json.dumps dictionary keys: str, int, bool, None, float; anything else is a TypeError *)
Definition json_key (k : pykey) : result pystr :=
  match k with
  | KStr s => Ok s
  | KInt z => py_int_str z
  | KBool true => Ok (u "true")
  | KBool false => Ok (u "false")
  | KNone => Ok (u "null")
  | KFloat r => Ok (float_text r)
  | KOther _ => Err EType
  end.
(** a digit of bytes.hex() (encoder.py 40-43) *)
Definition hex_digit (n : N) : N := if N.ltb n 10 then 48 + n else 87 + n.
(** bytes.hex() *)
Definition hex_of_bytes (b : list N) : pystr := flat_map (fun x => [hex_digit (x / 16); hex_digit (x mod 16)]) b.
(** Python: str(Decimal) (encoder.py 44-54) *)
Definition dec_str (d : fd) : pystr := fd_to_str false d.

(** json.JSONEncoder with encoder.py:30-57 Encoder.default.  ValueError on ints of
    more than 4300 digits, TypeError on other objects.  Simplification: no recursion limit. *)
Definition jints (l : list Z) : json := JList (map JInt l).
(** json.JSONEncoder.iterencode with encoder.py 30-57 default *)
Fixpoint to_json (v : pyval) : result json :=
  match v with
  | VNone => Ok JNull
  | VBool b => Ok (JBool b)
  | VInt z => do _ <- py_int_str z; Ok (JInt z)
  | VFloat r => Ok (JFloat (float_text r))
  | VStr s => Ok (JStr s)
  | VBytes b => Ok (JObj [(u "__bytes__", JStr (hex_of_bytes b))])
  | VDec d => do x <- fix_precision (DFin d); Ok (JObj [(u "__fixed__", JStr (dec_str x))])
  | VDecimal d => do x <- fix_precision d; Ok (JObj [(u "__fixed__", JStr (dec_str x))])
  | VTime t => Ok (JObj [(u "__time__", jints (dt_fields t))])
  | VDelta t => Ok (JObj [(u "__delta__", jints [td_days t; td_secs t])])
  | VList l | VTuple l =>
      do l' <- (fix go l := match l with [] => Ok [] | x :: l' => do y <- to_json x; do ys <- go l'; Ok (y :: ys) end) l;
      Ok (JList l')
  | VDict d =>
      do d' <- (fix go d := match d with
                  | [] => Ok []
                  | (k, x) :: d' => do k' <- json_key k; do y <- to_json x; do ys <- go d'; Ok ((k', y) :: ys)
                  end) d;
      Ok (JObj d')
  | VOther _ => Err EType
  end.

(** json.encoder.py_encode_basestring_ascii *)
Definition hex4 (n : N) : pystr :=
  [hex_digit (n / 4096 mod 16); hex_digit (n / 256 mod 16); hex_digit (n / 16 mod 16); hex_digit (n mod 16)].
(** json.encoder: the \uXXXX escape *)
Definition esc_u (n : N) : pystr := u "\u" ++ hex4 n.
(** json.encoder.py_encode_basestring_ascii, one character *)
Definition esc_char (c : N) : pystr :=
  if N.eqb c 34 then u "\" ++ [34]
  else if N.eqb c 92 then u "\\"
  else if (N.leb 32 c && N.leb c 126)%bool then [c]
  else if N.eqb c 8 then u "\b"
  else if N.eqb c 12 then u "\f"
  else if N.eqb c 10 then u "\n"
  else if N.eqb c 13 then u "\r"
  else if N.eqb c 9 then u "\t"
  else if N.ltb c 65536 then esc_u c
  else esc_u (55296 + (c - 65536) / 1024) ++ esc_u (56320 + (c - 65536) mod 1024).
(** json.encoder.py_encode_basestring_ascii *)
Definition print_str (s : pystr) : pystr := [34] ++ flat_map esc_char s ++ [34].
(** json.dumps(..., separators=(',', ':')) *)
Fixpoint print_json (j : json) : pystr :=
  match j with
  | JNull => u "null"
  | JBool true => u "true"
  | JBool false => u "false"
  | JInt z => str_of_Z z
  | JFloat t => t
  | JStr s => print_str s
  | JList l => u "[" ++ join (u ",") (map print_json l) ++ u "]"
  | JObj d => u "{" ++ join (u ",") (map (fun kv => print_str (fst kv) ++ u ":" ++ print_json (snd kv)) d) ++ u "}"
  end.

(** encoder.py:92-105 encode *)
Definition preprocess (v : pyval) : result pyval :=
  match v with
  | VInt z => encode_int z
  | VDict _ => encode_ints_in_dict v
  | _ => Ok v
  end.
(** encoder.py 92-105 encode *)
Definition encode (v : pyval) : result pystr :=
  do v' <- preprocess v; do j <- to_json v'; Ok (print_json j).

(** ** Decoding *)

(** int(x) for the values a decoded document can hold.  Floats are not modelled (EUnknown). *)
Definition py_int (v : pyval) : result Z :=
  match v with
  | VInt z => Ok z
  | VBool b => Ok (if b then 1 else 0)%Z
  | VStr s => int_of_str s
  | VDec d => Ok (cd_int d)
  | VFloat _ => Err EUnknown
  | _ => Err EType
  end.
(** ContractingDecimal(x) (bridge/decimal.py:60-71) for a decoded x.  A list is a ValueError
    (simplification: Decimal accepts three-element lists describing a number). *)
Definition cd_of_val (v : pyval) : result fd :=
  match v with
  | VInt z => cd_of_int z
  | VBool b => get_other_bool b
  | VFloat r => cd_of_float r
  | VStr s => cd_of_str s
  | VDecimal d => cd_of_dec d
  | VList _ => Err EValue
  | _ => Err EType
  end.
(** an argument of datetime.datetime(): an int *)
Definition dt_arg (v : pyval) : result Z :=
  match v with
  | VInt z => Ok z
  | VBool b => Ok (if b then 1 else 0)%Z
  | _ => Err EType
  end.
(** Datetime( *x ) (bridge/time.py:27-36) *)
Definition time_of_val (v : pyval) : result datetime :=
  match v with
  | VList l =>
      if ((List.length l <? 3) || (7 <? List.length l))%nat%bool then Err EType
      else
        do a <- seqr dt_arg l;
        let g i := nth i a 0%Z in mk_datetime (g 0%nat) (g 1%nat) (g 2%nat) (g 3%nat) (g 4%nat) (g 5%nat) (g 6%nat)
  | _ => Err EType
  end.
(** Timedelta(days=x[0], seconds=x[1]) *)
Definition delta_of_val (v : pyval) : result timedelta :=
  match v with
  | VList (a :: b :: _) => do x <- py_int a; do y <- py_int b; mk_timedelta 0 x 0 0 y
  | VList _ => Err EIndex
  | VStr (a :: b :: _) => do x <- int_of_str [a]; do y <- int_of_str [b]; mk_timedelta 0 x 0 0 y
  | VStr _ => Err EIndex
  | VDict _ => Err EKey
  | _ => Err EType
  end.
(** bytes.fromhex(x): pairs of hex digits, ASCII whitespace allowed between pairs *)
Definition hex_val (c : N) : option N :=
  if (N.leb 48 c && N.leb c 57)%bool then Some (c - 48)
  else if (N.leb 97 c && N.leb c 102)%bool then Some (c - 87)
  else if (N.leb 65 c && N.leb c 70)%bool then Some (c - 55) else None.
(** the characters bytes.fromhex skips (encoder.py 113-114) *)
Definition hex_space (c : N) : bool := ((N.leb 9 c && N.leb c 13) || N.eqb c 32)%bool.
(** bytes.fromhex, by at most [fuel] pairs (encoder.py 113-114) *)
Fixpoint fromhex_aux (fuel : nat) (s : pystr) : result (list N) :=
  match fuel with
  | O => Err EValue
  | S f =>
      match s with
      | [] => Ok []
      | a :: s' =>
          if hex_space a then fromhex_aux f s'
          else match s' with
               | b :: s'' =>
                   match hex_val a, hex_val b with
                   | Some x, Some y => do r <- fromhex_aux f s''; Ok (16 * x + y :: r)
                   | _, _ => Err EValue
                   end
               | [] => Err EValue
               end
      end
  end.
(** Python: bytes.fromhex(s) (encoder.py 113-114) *)
Definition fromhex (s : pystr) : result (list N) := fromhex_aux (S (List.length s)) s.
(** encoder.py 113-114: bytes.fromhex of a value, TypeError if it is no str *)
Definition bytes_of_val (v : pyval) : result (list N) :=
  match v with VStr s => fromhex s | _ => Err EType end.

(** encoder.py:108-119 as_object, on an object with string keys (later duplicates win) *)
Definition as_object (d : dict pyval) : result pyval :=
  match dget (u "__time__") d with
  | Some x => do t <- time_of_val x; Ok (VTime t)
  | None =>
  match dget (u "__delta__") d with
  | Some x => do t <- delta_of_val x; Ok (VDelta t)
  | None =>
  match dget (u "__bytes__") d with
  | Some x => do b <- bytes_of_val x; Ok (VBytes b)
  | None =>
  match dget (u "__fixed__") d with
  | Some x => do f <- cd_of_val x; Ok (VDec f)
  | None =>
  match dget BIG_KEY d with
  | Some x => do z <- py_int x; Ok (VInt z)
  | None => Ok (VDict (map (fun kv => (KStr (fst kv), snd kv)) d))
  end end end end end.

(** *** json.loads *)
Definition is_ws (c : N) : bool := (N.eqb c 32 || N.eqb c 9 || N.eqb c 10 || N.eqb c 13)%bool.
(** json.decoder WHITESPACE.match *)
Fixpoint skip_ws (s : pystr) : pystr :=
  match s with c :: s' => if is_ws c then skip_ws s' else s | [] => [] end.
(** json.decoder _decode_uXXXX *)
Definition hex_digits4 (s : pystr) : option (N * pystr) :=
  match s with
  | a :: b :: c :: d :: r =>
      match hex_val a, hex_val b, hex_val c, hex_val d with
      | Some x, Some y, Some z, Some w => Some (((x * 16 + y) * 16 + z) * 16 + w, r)
      | _, _, _, _ => None
      end
  | _ => None
  end.
(** json.decoder py_scanstring: halves of a surrogate pair *)
Definition is_high (c : N) : bool := (N.leb 55296 c && N.leb c 56319)%bool.
(** json.decoder py_scanstring: halves of a surrogate pair *)
Definition is_low (c : N) : bool := (N.leb 56320 c && N.leb c 57343)%bool.
(** json.decoder.scanstring (strict), after the opening quote *)
Fixpoint scan_string (fuel : nat) (s : pystr) : option (pystr * pystr) :=
  match fuel with
  | O => None
  | S f =>
    match s with
    | [] => None
    | c :: r =>
      if N.eqb c 34 then Some ([], r)
      else if N.ltb c 32 then None
      else if negb (N.eqb c 92) then
        match scan_string f r with Some (t, r') => Some (c :: t, r') | None => None end
      else
        match r with
        | [] => None
        | e :: r1 =>
          if N.eqb e (ch "u") then
            match hex_digits4 r1 with
            | None => None
            | Some (x, r2) =>
                let '(x', r3) :=
                  if is_high x then
                    match r2 with
                    | b :: v :: r2' =>
                        if (N.eqb b 92 && N.eqb v (ch "u"))%bool then
                          match hex_digits4 r2' with
                          | Some (y, r3) =>
                              if is_low y then (65536 + (x - 55296) * 1024 + (y - 56320), r3) else (x, r2)
                          | None => (x, r2)   (* the malformed escape is reported when it is read next *)
                          end
                        else (x, r2)
                    | _ => (x, r2)
                    end
                  else (x, r2) in
                match scan_string f r3 with Some (t, r') => Some (x' :: t, r') | None => None end
            end
          else
            let esc :=
              if N.eqb e 34 then Some 34 else if N.eqb e 92 then Some 92 else if N.eqb e 47 then Some 47
              else if N.eqb e (ch "b") then Some 8 else if N.eqb e (ch "f") then Some 12
              else if N.eqb e (ch "n") then Some 10 else if N.eqb e (ch "r") then Some 13
              else if N.eqb e (ch "t") then Some 9 else None in
            match esc with
            | None => None
            | Some x => match scan_string f r1 with Some (t, r') => Some (x :: t, r') | None => None end
            end
        end
    end
  end.

(** json.scanner NUMBER_RE: (-?(?:0|[1-9]\d* ))(\.\d+)?([eE][-+]?\d+)?
    Result: the whole numeral, whether it is a float, and the rest. *)
Definition num_sign (s : pystr) : pystr * pystr :=
  match s with c :: r => if N.eqb c (ch "-") then (u "-", r) else ([], s) | [] => ([], s) end.
(** the groups of json.scanner NUMBER_RE *)
Definition num_int (s : pystr) : pystr * pystr :=
  match s with
  | c :: r => if N.eqb c 48 then ([c], r) else span_digits s
  | [] => ([], [])
  end.
(** the groups of json.scanner NUMBER_RE *)
Definition num_frac (s : pystr) : pystr * pystr :=
  match s with
  | c :: r => if N.eqb c (ch ".") then
                let '(ds, r') := span_digits r in
                match ds with [] => ([], s) | _ => (c :: ds, r') end
              else ([], s)
  | [] => ([], s)
  end.
(** the groups of json.scanner NUMBER_RE *)
Definition num_exp_sign (s : pystr) : pystr * pystr :=
  match s with
  | x :: r' => if (N.eqb x (ch "-") || N.eqb x (ch "+"))%bool then ([x], r') else ([], s)
  | [] => ([], s)
  end.
(** the groups of json.scanner NUMBER_RE *)
Definition num_exp (s : pystr) : pystr * pystr :=
  match s with
  | c :: r =>
      if N.eqb (lower_ascii c) (ch "e") then
        let '(sg, r1) := num_exp_sign r in
        let '(ds, r') := span_digits r1 in
        match ds with [] => ([], s) | _ => (c :: sg ++ ds, r') end
      else ([], s)
  | [] => ([], s)
  end.
(** json.scanner NUMBER_RE.match *)
Definition scan_number (s : pystr) : option (pystr * bool * pystr) :=
  let '(sign, s1) := num_sign s in
  let '(ip, s2) := num_int s1 in
  match ip with
  | [] => None
  | _ =>
    let '(frac, s3) := num_frac s2 in
    let '(ex, s4) := num_exp s3 in
    Some (sign ++ ip ++ frac ++ ex, match frac, ex with [], [] => false | _, _ => true end, s4)
  end.
(** json.scanner: string[idx:idx + n] == 'null', 'true', ... *)
Definition literal (name : pystr) (s : pystr) : option pystr :=
  if startswith s name then Some (skipn (List.length name) s) else None.
(** float(text) of a JSON number as the repr of the float; Simplification: the text itself *)
Definition repr_of_text (t : pystr) : pystr :=
  if str_eqb t (u "NaN") then u "nan" else if str_eqb t (u "Infinity") then u "inf"
  else if str_eqb t (u "-Infinity") then u "-inf" else t.
(** a numeral: int(text) (ValueError above 4300 digits) or float(text) (kept as its text) *)
Definition number_value (t : pystr) (is_float : bool) : result pyval :=
  if is_float then Ok (VFloat t) else do z <- int_of_str t; Ok (VInt z).

(** later duplicates replace the value but keep the position *)
Definition dict_of_pairs (l : list (pystr * pyval)) : dict pyval := dupdate [] l.

(** [hook] is the object_hook; json.loads without one builds plain dicts. *)
(** json.scanner.scan_once.  [fuel] bounds the nesting. *)
Fixpoint parse_value (hook : dict pyval -> result pyval) (fuel : nat) (s : pystr) {struct fuel} : result (pyval * pystr) :=
  match fuel with
  | O => Err ERecursion
  | S f =>
    match s with
    | [] => Err EJSONDecode
    | c :: r =>
      if N.eqb c 34 then
        match scan_string (S (List.length r)) r with
        | Some (t, r') => Ok (VStr t, r')
        | None => Err EJSONDecode
        end
      else if N.eqb c (ch "{") then
        let r := skip_ws r in
        match r with
        | c1 :: r1 =>
            if N.eqb c1 (ch "}") then do v <- hook []; Ok (v, r1)
            else do (ms, r') <- parse_members hook f r; do v <- hook (dict_of_pairs ms); Ok (v, r')
        | [] => Err EJSONDecode
        end
      else if N.eqb c (ch "[") then
        let r := skip_ws r in
        match r with
        | c1 :: r1 => if N.eqb c1 (ch "]") then Ok (VList [], r1)
                      else do (l, r') <- parse_elems hook f r; Ok (VList l, r')
        | [] => Err EJSONDecode
        end
      else match literal (u "null") s with Some r' => Ok (VNone, r') | None =>
           match literal (u "true") s with Some r' => Ok (VBool true, r') | None =>
           match literal (u "false") s with Some r' => Ok (VBool false, r') | None =>
           match scan_number s with
           | Some (t, fl, r') => do v <- number_value t fl; Ok (v, r')
           | None =>
           match literal (u "NaN") s with Some r' => Ok (VFloat (u "nan"), r') | None =>
           match literal (u "Infinity") s with Some r' => Ok (VFloat (u "inf"), r') | None =>
           match literal (u "-Infinity") s with Some r' => Ok (VFloat (u "-inf"), r') | None =>
           Err EJSONDecode end end end end end end end
    end
  end
(** json.decoder.JSONObject: the members of an object *)
with parse_members (hook : dict pyval -> result pyval) (fuel : nat) (s : pystr) {struct fuel} : result (list (pystr * pyval) * pystr) :=
  match fuel with
  | O => Err ERecursion
  | S f =>
    match s with
    | c :: r =>
      if negb (N.eqb c 34) then Err EJSONDecode
      else
        match scan_string (S (List.length r)) r with
        | None => Err EJSONDecode
        | Some (k, r1) =>
            match skip_ws r1 with
            | c2 :: r2 =>
                if negb (N.eqb c2 (ch ":")) then Err EJSONDecode
                else
                  do (v, r3) <- parse_value hook f (skip_ws r2);
                  match skip_ws r3 with
                  | c4 :: r4 =>
                      if N.eqb c4 (ch "}") then Ok ([(k, v)], r4)
                      else if N.eqb c4 (ch ",") then
                        do (ms, r5) <- parse_members hook f (skip_ws r4); Ok ((k, v) :: ms, r5)
                      else Err EJSONDecode
                  | [] => Err EJSONDecode
                  end
            | [] => Err EJSONDecode
            end
        end
    | [] => Err EJSONDecode
    end
  end
(** json.decoder.JSONArray: the elements of an array *)
with parse_elems (hook : dict pyval -> result pyval) (fuel : nat) (s : pystr) {struct fuel} : result (list pyval * pystr) :=
  match fuel with
  | O => Err ERecursion
  | S f =>
    do (v, r) <- parse_value hook f s;
    match skip_ws r with
    | c :: r1 =>
        if N.eqb c (ch "]") then Ok ([v], r1)
        else if N.eqb c (ch ",") then do (vs, r2) <- parse_elems hook f (skip_ws r1); Ok (v :: vs, r2)
        else Err EJSONDecode
    | [] => Err EJSONDecode
    end
  end.
(** json.loads(text, object_hook=hook) *)
Definition json_loads (hook : dict pyval -> result pyval) (s : pystr) : result pyval :=
  match s with
  | c :: _ => if N.eqb c 65279 then Err EJSONDecode
              else do (v, r) <- parse_value hook (S (S (List.length s))) (skip_ws s);
                   match skip_ws r with [] => Ok v | _ => Err EJSONDecode end
  | [] => Err EJSONDecode
  end.
(** json.loads(text) *)
Definition plain_object (d : dict pyval) : result pyval := Ok (VDict (map (fun kv => (KStr (fst kv), snd kv)) d)).
(** json.loads(text) without the hook (encoder.py 156-161 decode_kv, driver.py get_run_state) *)
Definition plain_loads (s : pystr) : result pyval := json_loads plain_object s.
(** encoder.py:124-134 decode: None for None, and None on a JSONDecodeError; other
    exceptions of the hook propagate *)
Definition decode (data : option pystr) : result pyval :=
  match data with
  | None => Ok VNone
  | Some s => match json_loads as_object s with
              | Err EJSONDecode => Ok VNone
              | r => r
              end
  end.

(** encoder.py:137-141 make_key *)
Definition make_key (contract variable : pystr) (args : list pystr) : pystr :=
  let cv := contract ++ u "." ++ variable in
  match args with [] => cv | _ => join (u ":") (cv :: args) end.
(** encoder.py:144-153 encode_kv: the sizes of the two byte strings (all callers only use len) *)
Definition encode_kv_len (key : pystr) (v : pyval) : result (nat * nat) :=
  do k <- utf8_len key; do t <- encode v; do n <- utf8_len t; Ok (k, n).

(** encoder.py:181-201 convert_dict, on a plain parsed document (no hook) *)
Definition TYPES : list pystr := [u "__fixed__"; u "__delta__"; u "__bytes__"; u "__time__"; BIG_KEY].
(** encoder.py 167-178 convert *)
Definition convert (k : pystr) (v : pyval) : result pyval :=
  if str_eqb k (u "__fixed__") then do f <- cd_of_val v; Ok (VDec f)
  else if str_eqb k (u "__delta__") then do t <- delta_of_val v; Ok (VDelta t)
  else if str_eqb k (u "__bytes__") then do b <- bytes_of_val v; Ok (VBytes b)
  else if str_eqb k (u "__time__") then do t <- time_of_val v; Ok (VTime t)
  else if str_eqb k BIG_KEY then do z <- py_int v; Ok (VInt z)
  else Ok v.
(** encoder.py 181-201 convert_dict *)
Fixpoint convert_dict (v : pyval) : result pyval :=
  match v with
  | VDict d =>
      (fix go (d : list (pykey * pyval)) (acc : list (pykey * pyval)) : result pyval :=
         match d with
         | [] => Ok (VDict (rev acc))
         | (k, x) :: d' =>
             let special := match k with KStr s => str_mem s TYPES | _ => false end in
             if special then match k with KStr s => convert s x | _ => Ok x end
             else
               do x' <- match x with
                        | VDict _ => convert_dict x
                        | VList l => do l' <- (fix goi l := match l with [] => Ok [] | i :: l' => do y <- convert_dict i; do ys <- goi l'; Ok (y :: ys) end) l;
                                     Ok (VList l')
                        | _ => Ok x
                        end;
               go d' ((k, x') :: acc)
         end) d []
  | _ => Ok v
  end.
