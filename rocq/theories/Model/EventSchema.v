(** * LogEvents and the dict they are declared with

    Model/Orm.v has the declaration of a LogEvent as a value.  orm.py 168 keeps the caller's dict itself: contract code that has the dict in a variable
    can change it after it was checked.  Simplifications: argument names are texts and every argument keeps a dict with a 'type' entry (a type
    or a tuple of types; without one declaration and emission raise KeyError). *)
From Verif Require Import Model.Base Model.Dec Model.Time Model.Value Model.Encoder Model.State Model.Hdf5 Model.Runtime Model.Driver Model.Orm.

(** a dict for params: for each argument its types and whether it is indexed (orm.py 175-186) *)
Definition schema : Type := dict (list pytype * bool).
(** the same as the declaration of Model/Orm.v *)
Definition params_of (d : schema) : dict param := map (fun a => (fst a, mkParam (Some (fst (snd a))) (snd (snd a)))) d.
(** orm.py 166-170: a LogEvent object; [ob_ref]: which dict it holds *)
Record event_object : Type := mkOb { ob_event : pystr; ob_signer : option pystr; ob_ref : nat }.
(** the dicts, the LogEvent objects, and the rest *)
Record stage : Type := mkStage { sg_dicts : list schema; sg_objects : list event_object; sg_world : world }.
(** Contract code makes a dict, declares an event with the dict [r], changes the dict [r] to another content, calls the LogEvent object [k] *)
Inductive deed : Type := NewDict (d : schema) | Declare (event : pystr) (r : nat) | Change (r : nat) (d : schema) | Emit (k : nat) (data : dict pyval).
(** the i-th is replaced *)
Fixpoint put_nth {A} (i : nat) (x : A) (l : list A) : list A :=
  match l, i with [], _ => [] | _ :: l', O => x :: l' | y :: l', S j => y :: put_nth j x l' end.
(** orm.py 166-186 __init__ (what it declares is appended), 189-255 write_event and __call__; an undefined name is a NameError *)
Definition do_deed (ostr : pyval -> pystr) (o : deed) : st stage unit := fun s =>
  match o with
  | NewDict d => (Ok tt, mkStage (sg_dicts s ++ [d]) (sg_objects s) (sg_world s))
  | Change r d => (Ok tt, mkStage (put_nth r d (sg_dicts s)) (sg_objects s) (sg_world s))
  | Declare event r =>
      match nth_error (sg_dicts s) r with
      | None => (Err EName, s)
      | Some d => match log_decl event (params_of d) (sg_world s) with
                  | (Ok e, w) => (Ok tt, mkStage (sg_dicts s) (sg_objects s ++ [mkOb event (le_signer e) r]) w)
                  | (Err x, w) => (Err x, mkStage (sg_dicts s) (sg_objects s) w)
                  end
      end
  | Emit k data =>
      match nth_error (sg_objects s) k with
      | None => (Err EName, s)
      | Some ob => match nth_error (sg_dicts s) (ob_ref ob) with
                   | None => (Err EName, s)
                   | Some d => match log_emit ostr (mkLE (ob_event ob) (ob_signer ob) (params_of d)) data (sg_world s) with
                               | (r, w) => (r, mkStage (sg_dicts s) (sg_objects s) w)
                               end
                   end
      end
  end.
(** statements, one after the other; an exception ends them *)
Fixpoint do_deeds (ostr : pyval -> pystr) (l : list deed) : st stage unit :=
  match l with [] => ret tt | o :: l' => do_deed ostr o;; do_deeds ostr l' end.
