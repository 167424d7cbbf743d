(** * The same reads and writes, saved at different moments *)
From Verif Require Import Model.Base Model.State Model.Value Model.Encoder Model.Hdf5 Model.Runtime Model.Driver.
From Verif Require Import Spec.EncSpec Spec.DriverSpec.

(** What the user of a Driver asks for *)
Inductive step : Type :=
| SRead (k : pystr)
| SWrite (k : pystr) (v : pyval) (txn : bool).
(** Answer and effect of one step; a write that succeeds answers None *)
Definition perform (o : step) (w : world) : result pyval * world :=
  match o with
  | SRead k => on_drv (get k) w
  | SWrite k v b => let (r, w') := set k v b w in (match r with Ok _ => Ok VNone | Err e => Err e end, w')
  end.
(** The steps one after the other, nothing saved in between *)
Fixpoint never_saved (l : list step) (w : world) : list (result pyval) * world :=
  match l with
  | [] => ([], w)
  | o :: l' => let (a, w1) := perform o w in let (r, w2) := never_saved l' w1 in (a :: r, w2)
  end.
(** What may happen to the Driver between two steps: commit() or hard_apply() succeeds, the cache drops entries *)
Inductive saves : world -> world -> Prop :=
| sv_commit w v : commit (w_drv w) = (Ok tt, v) -> saves w (mkW v (w_rt w))
| sv_hard n w v : hard_apply n (w_drv w) = (Ok tt, v) -> saves w (mkW v (w_rt w))
| sv_expire p w : saves w (mkW (cache_drop p (w_drv w)) (w_rt w)).
(** The steps, with any of this before, between and after them, any number of times *)
Inductive saved_anywhere : list step -> world -> list (result pyval) -> world -> Prop :=
| sa_done w : saved_anywhere [] w [] w
| sa_step o l w r w' : saved_anywhere l (snd (perform o w)) r w' -> saved_anywhere (o :: l) w (fst (perform o w) :: r) w'
| sa_save l w w1 r w' : saves w w1 -> saved_anywhere l w1 r w' -> saved_anywhere l w r w'.
(** The same answer: the same failure, or the same value (decimals by their numeric value) *)
Definition same_answer (a b : result pyval) : Prop :=
  match a, b with Ok x, Ok y => same x y | Err e, Err f => e = f | _, _ => False end.
(** Steps on keys of U that write storable values other than None *)
Definition step_in (U : pystr -> Prop) (o : step) : Prop :=
  match o with SRead k => U k | SWrite k v _ => U k /\ storable v /\ v <> VNone end.
