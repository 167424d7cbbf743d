(** * client.py: submit

    The source text is given: turning a Python function into text (client.py 273-288, inspect, autopep8, astor) is in Model/Closure.v. *)
From Verif Require Import Model.Base Model.State Model.Dec Model.Time Model.Value Model.Encoder Model.Hdf5 Model.Runtime Model.Driver Model.Orm Model.Exec Model.Executor Model.Client.

(** A Python dict with text keys, as the value of a keyword argument (client.py 309: constructor_args) *)
Definition args_value (args : dict pyval) : pyval := VDict (map (fun kv => (KStr (fst kv), snd kv)) args).
(** client.py 309-334 submit(f, name, metering, owner, constructor_args, signer).  [present]: the client has a submission contract object (216, 237);
    an AssertionError without it (311) or without a name (318).  The object's functions pass what they are given (Model/ClientObject.v). *)
Definition client_submit (L : lang) (fuel : nat) (present : bool) (clock : pyval) (code : pystr) (name : option pystr) (metering : option bool) (owner : pyval)
  (args : dict pyval) (signer : option pystr) : st client pyval :=
  if negb present then raise EAssertion
  else match name with
       | None => raise EAssertion
       | Some n =>
           let! c := gets (fun c => c) in
           let who := match signer with Some s => s | None => k_signer c end in
           call_contract L fuel clock who SUBMISSION (u "submit_contract")
             [(u "name", VStr n); (u "code", VStr code); (u "owner", owner); (u "constructor_args", args_value args)] None metering None;;
           ret VNone
       end.
