(** * Python objects by reference: what the driver does with mutable values

    Everywhere else in this model a stored value is a value.  In the code it is a reference: driver.py never copies what it is
    handed or what it hands out (77-120, 348-397), so a list or dict that was stored, or was read, is one object shared by
    the contract, pending_writes, pending_reads, transaction_writes, the cache and pending_deltas.  Only the executor copies:
    pending_writes when a transaction starts (executor.py 51), the reported writes when it ends (129).  This file is the
    driver over references; Properties/HeapProps.v relates it to Model/Driver.v.  Not here: log events, the listing and
    deleting functions of the driver. *)
From Verif Require Import Model.Base Model.State Model.Dec Model.Time Model.Value Model.Encoder Model.Hdf5 Model.Runtime Model.Driver.
Local Notation length := List.length (only parsing).

(** ** Objects *)
(** A reference *)
Definition loc : Type := nat.
(** An object whose parts are given by [A]: references in the heap, registers in the statements below.  [OAtom] stands for
    the immutable values; a tuple is immutable but may contain references. *)
Inductive obj (A : Type) : Type :=
| OAtom (v : pyval) | OList (l : list A) | OTuple (l : list A) | ODict (d : list (pykey * A)).
Arguments OAtom {A} _. Arguments OList {A} _. Arguments OTuple {A} _. Arguments ODict {A} _.
(** the objects of the Python process *)
Definition heap : Type := list (obj loc).
(** a function applied to the parts of an object *)
Definition omap {A B} (f : A -> B) (o : obj A) : obj B :=
  match o with
  | OAtom v => OAtom v | OList l => OList (map f l) | OTuple l => OTuple (map f l)
  | ODict d => ODict (map (fun kv => (fst kv, f (snd kv))) d)
  end.
(** the parts of an object: elements, or values of a dict *)
Definition parts {A} (o : obj A) : list A :=
  match o with OAtom _ => [] | OList l => l | OTuple l => l | ODict d => map snd d end.
(** f on each, None if one is None *)
Fixpoint mapo {A B} (f : A -> option B) (l : list A) : option (list B) :=
  match l with
  | [] => Some []
  | x :: l' => match f x, mapo f l' with Some y, Some ys => Some (y :: ys) | _, _ => None end
  end.
(** The value an object has now, following references at most [n] deep *)
Fixpoint deref (n : nat) (h : heap) (l : loc) : option pyval :=
  match n with
  | O => None
  | S n =>
      match nth_error h l with
      | None => None
      | Some (OAtom v) => Some v
      | Some (OList ls) => option_map VList (mapo (deref n h) ls)
      | Some (OTuple ls) => option_map VTuple (mapo (deref n h) ls)
      | Some (ODict d) => option_map (fun vs => VDict (combine (map fst d) vs)) (mapo (deref n h) (map snd d))
      end
  end.
(** No path without a cycle is longer than the heap: [None] is an object that contains itself, which json.dumps refuses
    (ValueError: Circular reference detected). *)
Definition val (h : heap) (l : loc) : option pyval := deref (length h) h l.
(** the value at a reference; an object that contains itself is no value of the other models *)
Definition vof (h : heap) (l : loc) : pyval := match val h l with Some v => v | None => VOther 0 end.
(** [x is None] *)
Definition lnone (h : heap) (l : loc) : bool := match nth_error h l with Some (OAtom VNone) => true | _ => false end.
(** A new object *)
Definition new (o : obj loc) (h : heap) : loc * heap := (length h, h ++ [o]).
(** New objects for a whole value: what decoding a document makes *)
Definition thread {A B} (f : A -> heap -> B * heap) : list A -> heap -> list B * heap :=
  fix go l h := match l with
                | [] => ([], h)
                | x :: l' => let '(a, h1) := f x h in let '(r, h2) := go l' h1 in (a :: r, h2)
                end.
(** new objects for a value (json.loads makes them, encoder.py 124-134) *)
Fixpoint alloc (v : pyval) (h : heap) {struct v} : loc * heap :=
  match v with
  | VList l => let '(ls, h1) := thread alloc l h in new (OList ls) h1
  | VTuple l => let '(ls, h1) := thread alloc l h in new (OTuple ls) h1
  | VDict d => let '(ls, h1) := thread (fun kv => alloc (snd kv)) d h in new (ODict (combine (map fst d) ls)) h1
  | _ => new (OAtom v) h
  end.
(** In-place change of an object *)
Fixpoint upd {A} (n : nat) (a : A) (l : list A) : list A :=
  match l, n with [], _ => [] | _ :: l', O => a :: l' | x :: l', S n => x :: upd n a l' end.

(** ** The driver *)
(** driver.py 31-42 *)
Record hdriver : Type := mkHD {
  hd_deltas : list (Z * dict (option loc * loc)); hd_writes : dict loc; hd_reads : dict loc; hd_txn : dict loc;
  hd_cache : dict loc; hd_bypass : bool; hd_disk : disk }.
(** The machine: objects, driver, meter, the copy of pending_writes the executor holds during a transaction, and the
    references the running code has (the results of its statements so far) *)
Record hstate : Type := mkHS { hs_heap : heap; hs_drv : hdriver; hs_rt : runtime; hs_snap : dict loc; hs_regs : list loc }.
(** dict.get(k), when it is not None *)
Definition lget (h : heap) (k : pystr) (d : dict loc) : option loc :=
  match dget k d with Some l => if lnone h l then None else Some l | None => None end.
(** driver.py 164-170 value_from_disk: decoding makes new objects *)
Definition from_disk (k : pystr) (h : heap) (d : hdriver) : result (loc * heap) :=
  do v <- value_from_disk k (hd_disk d); Ok (alloc v h).
(** driver.py 102-120 find *)
Definition hfind (k : pystr) (h : heap) (d : hdriver) : result (loc * heap) :=
  if hd_bypass d then from_disk k h d
  else match lget h k (hd_writes d) with
       | Some l => Ok (l, h)
       | None => match lget h k (hd_cache d) with Some l => Ok (l, h) | None => from_disk k h d end
       end.
(** driver.py 77-88 get *)
Definition hget (k : pystr) (h : heap) (d : hdriver) : result loc * heap * hdriver :=
  match hfind k h d with
  | Err e => (Err e, h, d)
  | Ok (l, h) =>
      (Ok l, h, match lget h k (hd_reads d) with
                | None => mkHD (hd_deltas d) (hd_writes d) (dset k l (hd_reads d)) (hd_txn d) (hd_cache d) (hd_bypass d) (hd_disk d)
                | Some _ => d
                end)
  end.
(** driver.py 95-96: only a number is replaced *)
Definition hcoerce (l : loc) (h : heap) : result (loc * heap) :=
  match nth_error h l with
  | Some (OAtom (VFloat r)) => do v <- coerce (VFloat r); Ok (alloc v h)
  | Some (OAtom (VDecimal x)) => do v <- coerce (VDecimal x); Ok (alloc v h)
  | _ => Ok (l, h)
  end.
(** driver.py 93-99 set, after line 92 *)
Definition hset_body (k : pystr) (l : loc) (txn : bool) (h : heap) (d : hdriver) : result unit * heap * hdriver :=
  let '(r, h, d) := match lget h k (hd_reads d) with
                    | None => hget k h d
                    | Some l' => (Ok l', h, d)
                    end in
  match r with
  | Err e => (Err e, h, d)
  | Ok _ =>
      match hcoerce l h with
      | Err e => (Err e, h, d)
      | Ok (l, h) =>
          (Ok tt, h, mkHD (hd_deltas d) (dset k l (hd_writes d)) (hd_reads d)
                       (if txn then dset k l (hd_txn d) else hd_txn d) (hd_cache d) (hd_bypass d) (hd_disk d))
      end
  end.
(** One entry of the loops of driver.py 352-358 and 385-392: the object is encoded as it is now *)
Definition with_val (h : heap) (f : pystr * pyval -> st disk unit) (kl : pystr * loc) : st disk unit :=
  match val h (snd kl) with Some v => f (fst kl, v) | None => raise EValue end.
(** driver.py 348-362 commit *)
Definition hcommit (h : heap) (d : hdriver) : result unit * hdriver :=
  let '(r, dk) := foreach (with_val h commit_one) (hd_writes d) (hd_disk d) in
  match r with
  | Err e => (Err e, mkHD (hd_deltas d) (hd_writes d) (hd_reads d) (hd_txn d) (hd_cache d) (hd_bypass d) dk)
  | Ok _ => (Ok tt, mkHD (hd_deltas d) [] [] (hd_txn d) [] (hd_bypass d) dk)
  end.
(** driver.py 365-397 hard_apply *)
Definition happly_one (nanos : Z) (kv : pystr * pyval) : st disk unit :=
  let '(fn, g) := parse_key (fst kv) in set_value_to_disk fn g (snd kv) (Some nanos).
(** driver.py 365-397 hard_apply *)
Definition hhard (nanos : Z) (h : heap) (d : hdriver) : result unit * hdriver :=
  let deltas := fold_left (fun acc kv => dset (fst kv) (dget (fst kv) (hd_reads d), snd kv) acc) (hd_writes d) [] in
  let ds := zset nanos deltas (hd_deltas d) in
  let cache := dupdate (hd_cache d) (hd_writes d) in
  let todo := upto nanos (zsort ds) in
  let '(r, dk) := foreach (fun nd => foreach (fun kd => with_val h (happly_one nanos) (fst kd, snd (snd kd))) (snd nd)) todo (hd_disk d) in
  match r with
  | Err e => (Err e, mkHD ds [] [] (hd_txn d) cache (hd_bypass d) dk)
  | Ok _ => (Ok tt, mkHD (filter (fun x => negb (existsb (fun y => Z.eqb (fst x) (fst y)) todo)) ds) [] [] (hd_txn d) cache (hd_bypass d) dk)
  end.
(** driver.py 326-346 rollback; [none] is the object None *)
Definition hrollback (nanos : option Z) (none : loc) (d : hdriver) : hdriver :=
  match nanos with
  | None => mkHD [] [] [] (hd_txn d) [] (hd_bypass d) (hd_disk d)
  | Some n =>
      let todo := downto n (rev (zsort (hd_deltas d))) in
      let cache := fold_left (fun c nd => fold_left (fun c kd =>
          dset (fst kd) (match fst (snd kd) with Some l => l | None => none end) c) (snd nd) c) todo (hd_cache d) in
      mkHD (filter (fun x => negb (existsb (fun y => Z.eqb (fst x) (fst y)) todo)) (hd_deltas d))
        (hd_writes d) (hd_reads d) (hd_txn d) cache (hd_bypass d) (hd_disk d)
  end.
(** executor.py 51: deepcopy(driver.pending_writes).  deepcopy keeps sharing and cycles among what it copies; copying the
    whole heap does too, and the copies of the other objects are garbage. *)
Definition deepcopy (h : heap) (d : dict loc) : dict loc * heap :=
  (map (fun kl => (fst kl, snd kl + length h)) d, h ++ map (omap (fun l => l + length h)) h).

(** ** What running code can do *)
(** A statement.  Registers are numbered from the oldest result. *)
Inductive hop : Type :=
| HGet (k : pystr) | HSet (k : pystr) (r : nat) (txn : bool)
(** a new object, an element of an object, an in-place change (append, item assignment, pop, clear, update, ...) *)
| HNew (o : obj nat) | HPart (r i : nat) | HMutate (r : nat) (o : obj nat)
(** what the host does between transactions, and at their start and end *)
| HCommit | HHard (nanos : Z) | HRollback (nanos : option Z) | HExpire (p : pystr -> bool) | HFlush
| HBegin | HFail | HEnd.
(** What the driver is asked, with the value handed over *)
Inductive req : Type :=
| RGet (k : pystr) | RSet (k : pystr) (v : pyval) (txn : bool)
| RCommit | RHard (nanos : Z) | RRollback (nanos : option Z) | RExpire (p : pystr -> bool) | RFlush
| RBegin | RFail | REnd.
(** an answer that is None *)
Definition okn {A} (r : result A) : result pyval := match r with Ok _ => Ok VNone | Err e => Err e end.
(** the registers of a statement's object *)
Definition look (regs : list loc) (o : obj nat) : option (obj loc) :=
  match o with
  | OAtom v => Some (OAtom v)
  | OList l => option_map OList (mapo (nth_error regs) l)
  | OTuple l => option_map OTuple (mapo (nth_error regs) l)
  | ODict d => option_map (fun ls => ODict (combine (map fst d) ls)) (mapo (nth_error regs) (map snd d))
  end.
(** a list stays a list and a dict a dict; nothing else can be changed in place *)
Definition can_become {A B} (o : obj A) (o' : obj B) : bool :=
  match o, o' with OList _, OList _ => true | ODict _, ODict _ => true | _, _ => false end.
(** acting on the driver (no code) *)
Definition in_drv (f : hdriver -> hdriver) (s : hstate) : hstate := mkHS (hs_heap s) (f (hs_drv s)) (hs_rt s) (hs_snap s) (hs_regs s).
(** driver.py 432-436 clear_transaction_writes *)
Definition clear_txn (d : hdriver) : hdriver := mkHD (hd_deltas d) (hd_writes d) (hd_reads d) [] (hd_cache d) (hd_bypass d) (hd_disk d).
(** One statement: the request it made to the driver and the answer (the value of the object at that moment), if it made one *)
Definition hdo (o : hop) (s : hstate) : option (req * result pyval) * hstate :=
  let '(mkHS h d rt snap regs) := s in
  match o with
  | HGet k =>
      let '(r, h', d') := hget k h d in
      match r with
      | Ok l => (Some (RGet k, Ok (vof h' l)), mkHS h' d' rt snap (regs ++ [l]))
      | Err e => (Some (RGet k, Err e), mkHS h' d' rt snap regs)
      end
  | HSet k r txn =>
      match nth_error regs r with
      | None => (None, s)
      | Some l =>
          match val h l with
          | None => (None, s)
          | Some v =>
              (* driver.py 92 *)
              match encode_kv_len k v with
              | Err e => (Some (RSet k v txn, Err e), s)
              | Ok (kl, vl) =>
                  let '(m, rt') := deduct_write kl vl rt in
                  match m with
                  | Err e => (Some (RSet k v txn, Err e), mkHS h d rt' snap regs)
                  | Ok _ => let '(b, h', d') := hset_body k l txn h d in (Some (RSet k v txn, okn b), mkHS h' d' rt' snap regs)
                  end
              end
          end
      end
  | HNew o =>
      match look regs o with
      | Some o => let '(l, h') := new o h in (None, mkHS h' d rt snap (regs ++ [l]))
      | None => (None, s)
      end
  | HPart r i =>
      match nth_error regs r with
      | Some l => match nth_error h l with
                  | Some o => match nth_error (parts o) i with
                              | Some c => (None, mkHS h d rt snap (regs ++ [c]))
                              | None => (None, s)
                              end
                  | None => (None, s)
                  end
      | None => (None, s)
      end
  | HMutate r o =>
      match nth_error regs r, look regs o with
      | Some l, Some o' =>
          match nth_error h l with
          | Some old => if can_become old o' then (None, mkHS (upd l o' h) d rt snap regs) else (None, s)
          | None => (None, s)
          end
      | _, _ => (None, s)
      end
  | HCommit => let '(r, d') := hcommit h d in (Some (RCommit, okn r), mkHS h d' rt snap regs)
  | HHard n => let '(r, d') := hhard n h d in (Some (RHard n, okn r), mkHS h d' rt snap regs)
  | HRollback n => let '(l, h') := new (OAtom VNone) h in (Some (RRollback n, Ok VNone), mkHS h' (hrollback n l d) rt snap regs)
  | HExpire p =>
      (Some (RExpire p, Ok VNone),
       in_drv (fun d => mkHD (hd_deltas d) (hd_writes d) (hd_reads d) (hd_txn d)
                          (filter (fun kv => negb (p (fst kv))) (hd_cache d)) (hd_bypass d) (hd_disk d)) s)
  | HFlush => (Some (RFlush, Ok VNone), in_drv (fun d => mkHD [] [] [] [] [] (hd_bypass d) (hd_disk d)) s)
  (* executor.py 51-52 *)
  | HBegin => let '(snap', h') := deepcopy h (hd_writes d) in (Some (RBegin, Ok VNone), mkHS h' (clear_txn d) rt snap' regs)
  (* executor.py 140, 148 *)
  | HFail =>
      (Some (RFail, Ok VNone),
       mkHS h (mkHD (hd_deltas d) snap (hd_reads d) [] (hd_cache d) (hd_bypass d) (hd_disk d)) rt [] regs)
  | HEnd => (Some (REnd, Ok VNone), in_drv clear_txn s)
  end.
(** A run: the requests with their answers, and the state after *)
Fixpoint hrun (l : list hop) (s : hstate) : list (req * result pyval) * hstate :=
  match l with
  | [] => ([], s)
  | o :: l' => let '(e, s1) := hdo o s in
               let '(tr, s2) := hrun l' s1 in
               (match e with Some x => x :: tr | None => tr end, s2)
  end.
(** a new process over a directory *)
Definition hstart (bypass : bool) (d : disk) (rt : runtime) : hstate := mkHS [] (mkHD [] [] [] [] [] bypass d) rt [] [].
