(** * What several threads on one set of files have to look like *)
From Verif Require Import Model.Base Model.State Model.Value Model.Encoder Model.Hdf5 Model.Locks.

(** An operation alone: the functions of Model/Hdf5.v *)
Definition alone (o : op) : st disk unit :=
  match o with
  | OSet fn g v b => h5_set fn g v b
  | ODelete fn g => h5_delete fn g
  | ORead _ _ => ret tt
  end.
(** An operation that got the lock took effect unless it is still running, or could not open the file (OSError) *)
Definition took_effect (a : option (result unit)) : bool :=
  match a with None | Some (Err EOS) => false | Some _ => true end.
(** The operations one after another, in the order in which they got their lock *)
Fixpoint serial (log : list (nat * op * option (result unit))) (d : disk) : disk :=
  match log with
  | [] => d
  | (_, o, a) :: l => serial l (if took_effect a then snd (alone o d) else d)
  end.
(** The thread is between lock.acquire and lock.release of the lock of file [fn] *)
Definition holds (t : thread) (fn : pystr) : Prop :=
  match th_pc t with
  | Locked o | Inside o _ | Leaving o _ | Closed o _ => op_file o = fn
  | _ => False
  end.
Definition running (p : pc) : option op :=
  match p with Locked o | Inside o _ | Leaving o _ | Closed o _ | Reading o | Found o => Some o | Ready => None end.
Definition over (t : thread) : Prop := th_pc t = Ready /\ th_todo t = [].
Definition all_over (s : shared) : Prop := forall n t, nth_error (sh_threads s) n = Some t -> over t.
(** The operation writes the key *)
Definition same_key (o : op) (fn g : pystr) : Prop := writes o = true /\ op_file o = fn /\ norm (op_group o) = norm g.
(** the value it leaves there *)
Definition value_left (o : op) : option pystr := match o with OSet _ _ v _ => v | _ => None end.
(** The answers of thread [n]'s writes that took effect, in the order of the log ... *)
Definition logged (n : nat) (log : list (nat * op * option (result unit))) : list (op * result (option pystr)) :=
  flat_map (fun e => match e with
                     | (m, o, Some a) => if (Nat.eqb m n && took_effect (Some a))%bool then [(o, mapr (fun _ => None) a)] else []
                     | _ => []
                     end) log.
(** ... and those it has been told about: all its writes but those that raised OSError (TimeoutError is one) *)
Definition told (t : thread) : list (op * result (option pystr)) :=
  filter (fun oa => (writes (fst oa) && match snd oa with Err EOS => false | _ => true end)%bool) (rev (th_done t)).
(** [k] steps *)
Inductive steps_n : nat -> shared -> shared -> Prop :=
| StepsN0 s : steps_n 0 s s
| StepsNS k s n s' s'' : steps_n k s s' -> step n s' s'' -> steps_n (S k) s s''.
(** The thread's next operation needs a lock that is taken *)
Definition waiting (s : shared) (t : thread) : Prop :=
  exists o l, th_pc t = Ready /\ th_todo t = o :: l /\ writes o = true /\ holder (op_file o) s <> None.
(** What the operating system takes as the name of a file in a directory: not empty, no slash, up to 255 bytes (in UTF-8) *)
Definition usable_name (fn : pystr) : Prop := fn <> [] /\ ~ In 47%N fn /\ exists n, utf8_len fn = Ok n /\ (n <= 255)%nat.
