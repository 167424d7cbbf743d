(** * What the property about default values talks about *)
From Verif Require Import Model.Base Model.State Model.Value Model.Encoder Model.Hdf5 Model.Runtime Model.Driver Model.Heap Model.HeapDefaults Spec.HeapSpec.

(** The same requests, answered by a driver that stores values, where [dv r] is the value of the default object in register [r] when it was declared:
    nothing stored reads as that value *)
Definition vask (dv : nat -> pyval) (q : dreq) (t : vstate) : result pyval * vstate :=
  match q with
  | Asked q => vdo q t
  | Default k r => let '(x, t') := vdo (RGet k) t in (match x with Ok v => Ok (if is_none v then dv r else v) | Err e => Err e end, t')
  end.
Fixpoint vasks (dv : nat -> pyval) (l : list dreq) (t : vstate) : list (result pyval) * vstate :=
  match l with
  | [] => ([], t)
  | q :: l' => let '(r, t1) := vask dv q t in let '(rs, t2) := vasks dv l' t1 in (r :: rs, t2)
  end.
(** [decl] is the code that ran before (for example the declarations of the contract); afterwards the registers in [ds] hold the default objects *)
Definition defaults_hold (bypass : bool) (d : disk) (rt : runtime) (decl : list hop) (l : list dop) : Prop :=
  let '(tr0, s0) := hrun decl (hstart bypass d rt) in
  let '(tr, s) := drun l s0 in
  let dv r := match nth_error (hs_regs s0) r with Some a => vof (hs_heap s0) a | None => VNone end in
  let '(_, t0) := vrun (map fst tr0) (vstart bypass d rt) in
  let '(rs, t) := vasks dv (map fst tr) t0 in
  rs = map snd tr /\ dv_disk (w_drv (vs_w t)) = hd_disk (hs_drv s).
(** the objects in registers [ds] *)
Definition default_object (ds : list nat) (s : hstate) (a : loc) : Prop := exists r, In r ds /\ nth_error (hs_regs s) r = Some a.
(** Code that changes in place neither what storage holds nor a default object, nor parts of them, and uses only the registers [ds] as defaults *)
Fixpoint careful_defaults (ds : list nat) (l : list dop) (s : hstate) : Prop :=
  match l with
  | [] => True
  | o :: l' =>
      match o with
      | DDo (HMutate r _) => forall a, nth_error (hs_regs s) r = Some a ->
          ~ shared s a /\ (forall c, default_object ds s c -> ~ reach (hs_heap s) c a)
      | DGet _ r => In r ds
      | _ => True
      end /\ careful_defaults ds l' (snd (ddo o s))
  end.
