(** * What the properties about shared mutable values talk about *)
From Verif Require Import Model.Base Model.State Model.Value Model.Encoder Model.Hdf5 Model.Runtime Model.Driver Model.Heap.

(** ** A driver that stores values *)
(** The same requests answered by the driver of Model/Driver.v, in which a stored value is a value and no object is shared *)
Record vstate : Type := mkVS { vs_w : world; vs_snap : dict pyval }.
Definition vdo (q : req) (t : vstate) : result pyval * vstate :=
  let on {A} (m : st driver A) := let '(r, v) := m (w_drv (vs_w t)) in (okn r, mkVS (mkW v (w_rt (vs_w t))) (vs_snap t)) in
  let to (f : driver -> driver) := (Ok VNone, mkVS (upd_drv f (vs_w t)) (vs_snap t)) in
  match q with
  | RGet k => let '(r, v) := get k (w_drv (vs_w t)) in (r, mkVS (mkW v (w_rt (vs_w t))) (vs_snap t))
  | RSet k v txn => let '(r, w) := set k v txn (vs_w t) in (okn r, mkVS w (vs_snap t))
  | RCommit => on commit
  | RHard n => on (hard_apply n)
  | RRollback n => on (rollback n)
  | RExpire p => to (cache_drop p)
  | RFlush => to flush_cache
  | RBegin => (Ok VNone, mkVS (upd_drv clear_transaction_writes (vs_w t)) (dv_writes (w_drv (vs_w t))))
  | RFail => (Ok VNone, mkVS (upd_drv (fun v => clear_transaction_writes (set_writes (vs_snap t) v)) (vs_w t)) [])
  | REnd => to clear_transaction_writes
  end.
Fixpoint vrun (l : list req) (t : vstate) : list (result pyval) * vstate :=
  match l with
  | [] => ([], t)
  | q :: l' => let '(r, t1) := vdo q t in let '(rs, t2) := vrun l' t1 in (r :: rs, t2)
  end.
Definition vstart (bypass : bool) (d : disk) (rt : runtime) : vstate := mkVS (mkW (driver0 bypass d) rt) [].
(** A run of code over references answers as a driver that stores values would *)
Definition explained (bypass : bool) (d : disk) (rt : runtime) (l : list hop) : Prop :=
  let '(tr, s) := hrun l (hstart bypass d rt) in
  let '(rs, t) := vrun (map fst tr) (vstart bypass d rt) in
  rs = map snd tr /\ dv_disk (w_drv (vs_w t)) = hd_disk (hs_drv s).

(** ** Sharing *)
(** [b] is [a] or a part of it, or a part of a part, ... *)
Inductive reach (h : heap) : loc -> loc -> Prop :=
| reach_here a : reach h a a
| reach_part a o c b : nth_error h a = Some o -> In c (parts o) -> reach h c b -> reach h a b.
(** The references the storage layer holds *)
Definition delta_locs (kd : pystr * (option loc * loc)) : list loc :=
  match fst (snd kd) with Some a => [a] | None => [] end ++ [snd (snd kd)].
Definition cells (s : hstate) : list loc :=
  let d := hs_drv s in
  flat_map (fun nd => flat_map delta_locs (snd nd)) (hd_deltas d) ++
  map snd (hd_writes d) ++ map snd (hd_reads d) ++ map snd (hd_txn d) ++ map snd (hd_cache d) ++ map snd (hs_snap s).
(** The object is, or is part of, something the storage layer holds *)
Definition shared (s : hstate) (l : loc) : Prop := exists c, In c (cells s) /\ reach (hs_heap s) c l.
(** Code that never changes such an object in place: it builds values, stores them, and from then on (and for what it reads)
    makes a changed copy instead *)
Fixpoint careful (l : list hop) (s : hstate) : Prop :=
  match l with
  | [] => True
  | o :: l' =>
      match o with
      | HMutate r _ => forall a, nth_error (hs_regs s) r = Some a -> ~ shared s a
      | _ => True
      end /\ careful l' (snd (hdo o s))
  end.
(** What pending_writes holds, as values *)
Definition pending (s : hstate) : dict (option pyval) := map (fun kl => (fst kl, val (hs_heap s) (snd kl))) (hd_writes (hs_drv s)).
