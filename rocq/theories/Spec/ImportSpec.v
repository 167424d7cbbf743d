(** * What imports of contracts should do *)
From Verif Require Import Model.Base Model.Ast Model.Imports.

(** A name without dots *)
Definition plain (n : name) : Prop := exists x, n = [x].
(** The Python modules whose bodies were started *)
Definition python_ran (w : world) : list name :=
  flat_map (fun x => match fst x with Python _ => [snd x] | Contract => [] end) (w_ran w).
(** Deployed contracts have plain names (C62); their imports have *)
Definition contracts_plain (I : installation) : Prop := forall n l, i_contract I n = Some l -> plain n.
Definition imports_plain (I : installation) : Prop := forall n l m, i_contract I n = Some l -> In m l -> plain m.
(** Python modules leave the modules alone that are loaded, and load no contracts; [w] holds contracts under plain names only *)
Definition keeps (w w' : world) : Prop := forall n o, loaded n w = Some o -> loaded n w' = Some o.
Definition decent (I : installation) : Prop := forall n b body, i_python I n = Some (b, body) -> forall w, keeps w (snd (body w)) /\
  forall m, loaded m (snd (body w)) = Some Contract -> loaded m w = Some Contract.
Definition contracts_loaded_plain (w : world) : Prop := forall n, loaded n w = Some Contract -> plain n.
(** The text of a dotted name *)
Fixpoint dotted (n : name) : pystr :=
  match n with [] => [] | [x] => x | x :: p => dotted p ++ u "." ++ x end.
