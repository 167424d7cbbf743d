(** * storage/orm.py (the classes of stdlib/bridge/orm.py add nothing but the driver) *)
From Verif Require Import Model.Base Model.State Model.Dec Model.Time Model.Value Model.Encoder Model.Hdf5 Model.Runtime Model.Driver.

(** ** Python pieces *)
(** str(v).  [ostr] is the text of the objects whose text is not modelled (bytes, times, containers). *)
Definition py_str (ostr : pyval -> pystr) (v : pyval) : result pystr :=
  match v with
  | VStr s => Ok s
  | VInt z => py_int_str z
  | VBool b => Ok (if b then u "True" else u "False")
  | VNone => Ok (u "None")
  | VFloat r => Ok r
  | VDec d => Ok (cd_str d)
  | VDecimal d => Ok (str_of_dec d)
  | _ => Ok (ostr v)
  end.
(** Types usable in isinstance; [TAny] is typing.Any, which refuses isinstance. *)
Inductive pytype : Type :=
| TStr | TInt | TFloat | TBool | TDec | TBytes | TList | TTuple | TDict | TTime | TDelta | TObject | TAny | TOther (id : N).
(** isinstance(v, t); bool is a subclass of int *)
Definition isinstance (v : pyval) (t : pytype) : result bool :=
  match t, v with
  | TAny, _ => Err EType
  | TObject, _ => Ok true
  | TStr, VStr _ | TInt, VInt _ | TInt, VBool _ | TFloat, VFloat _ | TBool, VBool _ | TDec, VDec _ | TBytes, VBytes _
  | TList, VList _ | TTuple, VTuple _ | TDict, VDict _ | TTime, VTime _ | TDelta, VDelta _ => Ok true
  | _, _ => Ok false
  end.
(** isinstance(v, (t1, ..., tn)) *)
Fixpoint isinstance_any (v : pyval) (ts : list pytype) : result bool :=
  match ts with
  | [] => Ok false
  | t :: ts' => do b <- isinstance v t; if b then Ok true else isinstance_any v ts'
  end.

(** ** Variable (orm.py 10-40) *)
Record variable : Type := mkVar { v_key : pystr; v_type : option pytype; v_default : pyval }.
(** orm.py 10-25; a [t] that is not a type is ignored (None here).  The key is made by make_key. *)
Definition var_decl (contract name : pystr) (t : option pytype) (default : pyval) : variable :=
  mkVar (make_key contract name []) t default.
(** orm.py 27-34 set *)
Definition var_set (x : variable) (v : pyval) : st world unit :=
  (match v_type x with
   | Some t => if is_none v then ret tt else (let! b := lift (isinstance v t) in check b)
   | None => ret tt
   end);;
  set (v_key x) v true.
(** orm.py 36-40 get *)
Definition var_get (x : variable) : st world pyval :=
  let! v := on_drv (get (v_key x)) in ret (if is_none v then v_default x else v).

(** ** Hash (orm.py 42-125) *)
Record hash : Type := mkHash { h_key : pystr; h_default : pyval }.
(** orm.py 43-46 *)
Definition hash_decl (contract name : pystr) (default : pyval) : hash := mkHash (make_key contract name []) default.
(** constants.py 5-6, 20-21 *)
Definition DELIM : N := 58.
(** constants.py 6 INDEX_SEPARATOR *)
Definition DOT : N := 46.
(** constants.py 18 MAX_HASH_DIMENSIONS *)
Definition MAX_DIM : nat := 16.
(** constants.py 19 MAX_KEY_SIZE *)
Definition MAX_KEY : nat := 1024.
(** One index, or a tuple of indices.  A slice inside a tuple is refused; alone it is just text. *)
Inductive hpart : Type := PVal (v : pyval) | PSlice (text : pystr).
(** orm.py 115-122: the index of hash[key] *)
Inductive hkey : Type := HOne (p : hpart) | HTup (l : list hpart).
(** orm.py 72-74: str(part), with the refusal of slices *)
Definition part_str (ostr : pyval -> pystr) (p : hpart) : result pystr :=
  match p with PVal v => py_str ostr v | PSlice t => Ok t end.
(** orm.py 63-91 _validate_key *)
Definition check_part (s : pystr) : result unit :=
  do _ <- assertr (negb (has_char DELIM s)); assertr (negb (has_char DOT s)).
(** orm.py 70-81: the loop over the parts of a tuple *)
Fixpoint tuple_text (ostr : pyval -> pystr) (l : list hpart) (acc : pystr) : result pystr :=
  match l with
  | [] => Ok acc
  | p :: l' =>
      do _ <- assertr (match p with PSlice _ => false | PVal _ => true end);
      do s <- part_str ostr p;
      do _ <- check_part s;
      tuple_text ostr l' (acc ++ s ++ [DELIM])
  end.
(** orm.py 63-91 _validate_key *)
Definition validate_key (ostr : pyval -> pystr) (k : hkey) : result pystr :=
  do s <- match k with
          | HTup l => do _ <- assertr (Nat.leb (List.length l) MAX_DIM);
                      do t <- tuple_text ostr l []; Ok (removelast t)
          | HOne p => do s <- part_str ostr p; do _ <- check_part s; Ok s
          end;
  do _ <- assertr (Nat.leb (List.length s) MAX_KEY);
  Ok s.
(** orm.py 49, 52: f'{self._key}{DELIMITER}{key}' *)
Definition entry_key (h : hash) (s : pystr) : pystr := h_key h ++ [DELIM] ++ s.
(** orm.py 48-49, 115-118 __setitem__ *)
Definition hash_set (ostr : pyval -> pystr) (h : hash) (k : hkey) (v : pyval) : st world unit :=
  let! s := lift (validate_key ostr k) in set (entry_key h s) v true.
(** orm.py 51-61, 120-122 __getitem__ *)
Definition hash_get (ostr : pyval -> pystr) (h : hash) (k : hkey) : st world pyval :=
  let! s := lift (validate_key ostr k) in
  let! v := on_drv (get (entry_key h s)) in
  let v := if is_none v then h_default h else v in
  match v with
  | VFloat r => let! d := lift (cd_of_str r) in ret (VDec d)
  | VDec d => let! d := lift (cd_of_str (cd_str d)) in ret (VDec d)
  | _ => ret v
  end.
(** orm.py 94-100 _prefix_for_args *)
Definition prefix_for_args (ostr : pyval -> pystr) (h : hash) (args : list hpart) : result pystr :=
  do multi <- validate_key ostr (HTup args);
  Ok (h_key h ++ [DELIM] ++ (if str_eqb multi [] then [] else multi ++ [DELIM])).
(** orm.py 102-104 all *)
Definition hash_all (ostr : pyval -> pystr) ord (h : hash) (args : list hpart) : st world (list pyval) :=
  let! p := lift (prefix_for_args ostr h args) in on_drv (values ord p).
(** orm.py 106-108 _items *)
Definition hash_items (ostr : pyval -> pystr) ord (h : hash) (args : list hpart) : st world (dict pyval) :=
  let! p := lift (prefix_for_args ostr h args) in on_drv (items ord p).
(** orm.py 110-114 clear *)
Definition hash_clear (ostr : pyval -> pystr) ord (h : hash) (args : list hpart) : st world unit :=
  let! kvs := hash_items ostr ord h args in foreach delete (dkeys kvs).

(** ** Foreign objects (orm.py 128-156); the declared contract and name are not used after line 133/145 *)
Definition fvar_decl (foreign_contract foreign_name : pystr) : variable := mkVar (make_key foreign_contract foreign_name []) None VNone.
(** orm.py 135-136 ForeignVariable.set *)
Definition fvar_set (x : variable) (v : pyval) : st world unit := raise EReference.
(** orm.py 36-39: ForeignVariable inherits get *)
Definition fvar_get (x : variable) : st world pyval := var_get x.
(** orm.py 139-145 ForeignHash.__init__ *)
Definition fhash_decl (foreign_contract foreign_name : pystr) : hash := mkHash (make_key foreign_contract foreign_name []) VNone.
(** orm.py 146-147 ForeignHash._set, 149-150 __setitem__ *)
Definition fhash_set (h : hash) (k : hkey) (v : pyval) : st world unit := raise EReference.
(** orm.py 152-153 ForeignHash.__getitem__ *)
Definition fhash_get (ostr : pyval -> pystr) (h : hash) (k : hkey) : st world pyval := hash_get ostr h k.
(** orm.py 155-156 ForeignHash.clear *)
Definition fhash_clear (h : hash) (args : list hpart) : st world unit := raise EException.

(** ** LogEvent (orm.py 159-255) *)
(** One declared argument: its types ([None]: the 'type' entry is missing) and the truth of 'idx'.
    Simplification: argument names are strings, each declaration is a dict, [params] and the emitted
    data are dicts, and the contract does not change [params] after the declaration (Model/EventSchema.v has contracts that do). *)
Record param : Type := mkParam { p_types : option (list pytype); p_idx : bool }.
(** orm.py 159-188: the attributes of a LogEvent *)
Record logevent : Type := mkLE { le_event : pystr; le_signer : option pystr; le_params : dict param }.
(** issubclass(t, (str, int, float, bool, ContractingDecimal)) *)
Definition event_type (t : pytype) : bool :=
  match t with TStr | TInt | TFloat | TBool | TDec => true | _ => false end.
(** orm.py 166-186 __init__ *)
Definition log_decl (event : pystr) (params : dict param) : st world logevent :=
  let! signer := gets (fun w => c_signer (get_state (rt_ctx (w_rt w)))) in
  check (Nat.ltb 0 (List.length params));;
  check (Nat.leb (List.length (filter (fun p => p_idx (snd p)) params)) 3);;
  foreach (fun p => match p_types (snd p) with
                    | None => raise EKey
                    | Some ts => check (forallb event_type ts)
                    end) params;;
  ret (mkLE event signer params).
(** orm.py 166-188: the types of one declared argument *)
Definition types_of (p : param) : list pytype := match p_types p with Some ts => ts | None => [] end.
(** event_data[a] *)
Definition getitem {A} (k : pystr) (d : dict A) : result A := match dget k d with Some v => Ok v | None => Err EKey end.
(** orm.py 200-218: one declared argument *)
Definition check_arg (ostr : pyval -> pystr) (data : dict pyval) (p : pystr * param) : result unit :=
  do _ <- assertr (dmem (fst p) data);
  do v <- getitem (fst p) data;
  do b <- isinstance_any v (types_of (snd p));
  do _ <- assertr b;
  do t <- py_str ostr v;
  do n <- utf8_len t;
  assertr (Nat.leb n 1024).
(** orm.py 220-235: the arguments of the declared names that satisfy [sel] *)
Definition select (sel : param -> bool) (params : dict param) (data : dict pyval) : result (dict pyval) :=
  seqr (fun p => do v <- getitem (fst p) data; Ok (fst p, v)) (filter (fun p => sel (snd p)) params).
(** orm.py 238-250: check the type again and pay for the bytes *)
Definition pay_arg (params : dict param) (kv : pystr * pyval) : st world unit :=
  let! p := lift (getitem (fst kv) params) in
  let! b := lift (isinstance_any (snd kv) (types_of p)) in
  check b;;
  let! (kl, vl) := lift (encode_kv_len (fst kv) (snd kv)) in
  on_rt (deduct_write kl vl).
(** orm.py 189-251 write_event, __call__ *)
Definition log_emit (ostr : pyval -> pystr) (e : logevent) (data : dict pyval) : st world unit :=
  let! cx := gets (fun w => get_state (rt_ctx (w_rt w))) in
  check (Nat.eqb (List.length data) (List.length (le_params e)));;
  foreach (fun kv => check (dmem (fst kv) (le_params e))) data;;
  foreach (fun p => lift (check_arg ostr data p)) (le_params e);;
  let! ix := lift (select p_idx (le_params e) data) in
  let! dt := lift (select (fun p => negb (p_idx p)) (le_params e) data) in
  foreach (pay_arg (le_params e)) ix;;
  foreach (pay_arg (le_params e)) dt;;
  on_drv (set_event (mkEvent (c_this cx) (le_event e) (le_signer e) (c_caller cx) ix dt)).
