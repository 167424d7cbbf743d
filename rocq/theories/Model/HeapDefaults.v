(** * Default values by reference: what reading a Variable or Hash hands out when nothing is stored

    orm.py 36-40 and 51-61 return self._default_value itself, not a copy; Model/Heap.v is the driver below. *)
From Verif Require Import Model.Base Model.State Model.Value Model.Encoder Model.Hdf5 Model.Runtime Model.Driver Model.Heap.

(** A statement: one of Model/Heap.v, or a read of key [k] through a Variable or Hash that was declared with the object in register [r] as its default *)
Inductive dop : Type := DDo (o : hop) | DGet (k : pystr) (r : nat).
(** What was asked: of the driver, or of the Variable or Hash *)
Inductive dreq : Type := Asked (q : req) | Default (k : pystr) (r : nat).
(** orm.py 36-40 Variable.get, 51-61 Hash._get.  Simplification: the conversion of a number (59-60), which is about immutable objects, is left out *)
Definition ddo (o : dop) (s : hstate) : option (dreq * result pyval) * hstate :=
  match o with
  | DDo o => let '(e, s') := hdo o s in (option_map (fun x => (Asked (fst x), snd x)) e, s')
  | DGet k r =>
      match nth_error (hs_regs s) r with
      | None => (None, s)
      | Some a =>
          let '(x, h, d) := hget k (hs_heap s) (hs_drv s) in
          match x with
          | Err e => (Some (Default k r, Err e), mkHS h d (hs_rt s) (hs_snap s) (hs_regs s))
          | Ok l => let b := if lnone h l then a else l in
                    (Some (Default k r, Ok (vof h b)), mkHS h d (hs_rt s) (hs_snap s) (hs_regs s ++ [b]))
          end
      end
  end.
(** several statements (no code) *)
Fixpoint drun (l : list dop) (s : hstate) : list (dreq * result pyval) * hstate :=
  match l with
  | [] => ([], s)
  | o :: l' => let '(e, s1) := ddo o s in
               let '(tr, s2) := drun l' s1 in
               (match e with Some x => x :: tr | None => tr end, s2)
  end.
