(** * C124: contracts given as Python functions *)
From Verif Require Import Model.Base Model.State Model.Dec Model.Time Model.Value Model.Encoder Model.Hdf5 Model.Runtime Model.Driver Model.Orm Model.Exec Model.Executor Model.Client Model.ClientSubmit.
From Verif Require Import Model.Ast Model.Linter Model.Compiler Model.ClientLint Model.Closure.
From Verif Require Import Spec.LintSpec Proofs.BaseFacts Properties.LintProps Properties.CompProps.
Local Open Scope string_scope.
Local Open Scope list_scope.

(** ** Specification *)
(** The tree of a source with these statements *)
Definition program (b : list ast) : ast := Node "Module" None [("body", Items b); ("type_ignores", Items [])].
(** The source is one plain function definition (def, not async def), with this name and these statements.  What else it has - parameters, defaults,
    decorators, annotations - is left open. *)
Definition defines (t : ast) (name : pystr) (b : list ast) : Prop :=
  exists l fs, t = program [Node "FunctionDef" l fs] /\ field "name" fs = Some (Ident name) /\ field "body" fs = Some (Items b).
Definition a_definition (n : ast) : Prop := exists l fs, n = Node "FunctionDef" l fs.

Section Facts.
  Variable W : ast -> result pystr.
  Variable A : pystr -> result ast.
  Lemma closure_defines t n b : defines t n b -> closure_to_code_string W (Ok t) = do x <- W (program b); Ok (x, n).
  Proof.
    intros (l & fs & -> & N & B). unfold closure_to_code_string. cbn [bindr attrs attr field items program String.eqb Ascii.eqb Bool.eqb]. cbn [is_kind].
    change (String.eqb "FunctionDef" "FunctionDef") with true. cbn iota. unfold attr. rewrite B. cbn [bindr]. unfold attr_id, attr. rewrite N. cbn [bindr ident].
    reflexivity.
  Qed.
  (** The function is worth the text of its body: as an argument of lint, compile and submit it is that text, and submit's name, if none is given, is the function's. *)
  Theorem C124_the_body t n b x : defines t n b -> W (program b) = Ok x ->
    (forall P r, lint_given W A P r (function_given (Ok t)) = lint_given W A P r (text_given x)) /\
    (forall P, compile_given W A P (function_given (Ok t)) = compile_given W A P (text_given x)) /\
    (forall L fuel present clock meter owner args signer,
      submit_given W L fuel present clock (function_given (Ok t)) None meter owner args signer = submit_given W L fuel present clock (text_given x) (Some n) meter owner args signer) /\
    (forall L fuel present clock m meter owner args signer,
      submit_given W L fuel present clock (function_given (Ok t)) (Some m) meter owner args signer = submit_given W L fuel present clock (text_given x) (Some m) meter owner args signer).
  Proof.
    intros D E. unfold lint_given, compile_given, submit_given, as_source. rewrite (closure_defines t n b D), E. cbn [bindr mapr fst]. repeat split; intros; destruct present; reflexivity.
  Qed.
  (** Nothing else of the function matters: not its parameters, defaults, decorators and annotations, nor where it stands; its name only for submit without a name. *)
  Theorem C124_nothing_else t n b t' n' : defines t n b -> defines t' n' b ->
    (forall P r, lint_given W A P r (function_given (Ok t)) = lint_given W A P r (function_given (Ok t'))) /\
    (forall P, compile_given W A P (function_given (Ok t)) = compile_given W A P (function_given (Ok t'))) /\
    (forall L fuel present clock m meter owner args signer,
      submit_given W L fuel present clock (function_given (Ok t)) (Some m) meter owner args signer = submit_given W L fuel present clock (function_given (Ok t')) (Some m) meter owner args signer) /\
    (n = n' -> forall L fuel present clock name meter owner args signer,
      submit_given W L fuel present clock (function_given (Ok t)) name meter owner args signer = submit_given W L fuel present clock (function_given (Ok t')) name meter owner args signer).
  Proof.
    intros D D'. unfold lint_given, compile_given, submit_given, as_source. rewrite (closure_defines t n b D), (closure_defines t' n' b D'). destruct (W (program b)) as [x|e]; cbn [bindr mapr fst].
    - repeat split; intros; try subst n'; reflexivity.
    - repeat split; reflexivity.
  Qed.
  (** Anything but one function definition - an async def, several statements, none - is refused, and so is a function whose source cannot be had; nothing changes. *)
  Theorem C124_refused l : (forall d, l = [d] -> ~ a_definition d) ->
    (forall P r s, lint_given W A P r (function_given (Ok (program l))) s = (Err EAssertion, s)) /\ (forall P s, compile_given W A P (function_given (Ok (program l))) s = (Err EAssertion, s)) /\
    (forall L fuel present clock name meter owner args signer c, submit_given W L fuel present clock (function_given (Ok (program l))) name meter owner args signer c = (Err EAssertion, c)).
  Proof.
    intros N. assert (K : closure_to_code_string W (Ok (program l)) = Err EAssertion).
    { unfold closure_to_code_string, program. cbn [bindr attrs attr field items String.eqb Ascii.eqb Bool.eqb]. destruct l as [|d [|d' l]]; [reflexivity| |reflexivity].
      destruct d as [k ln fs| | | |]; try reflexivity. cbn [is_kind]. destruct (String.eqb_spec "FunctionDef" k) as [<-|]; [|reflexivity]. destruct (N _ eq_refl). exists ln, fs. reflexivity. }
    unfold lint_given, compile_given, submit_given, as_source. rewrite K. cbn [mapr bindr]. repeat split; intros; try (destruct present); reflexivity.
  Qed.
  Theorem C124_no_source e :
    (forall P r s, lint_given W A P r (function_given (Err e)) s = (Err e, s)) /\ (forall P s, compile_given W A P (function_given (Err e)) s = (Err e, s)) /\
    (forall L fuel clock name meter owner args signer c, submit_given W L fuel true clock (function_given (Err e)) name meter owner args signer c = (Err e, c)).
  Proof. repeat split. Qed.
  (** If the text of the body is parsed back as the body, the linter and the compiler decide about the statements of the body, and about nothing else. *)
  Theorem C124_linted t n b x P r s : defines t n b -> W (program b) = Ok x -> A x = Ok (program b) ->
    lint_given W A P r (function_given (Ok t)) s = client_lint P r (program b) s /\ compile_given W A P (function_given (Ok t)) s = client_compile P (program b) s.
  Proof.
    intros D E F. destruct (C124_the_body t n b x D E) as (H1 & H2 & _). rewrite H1, H2. unfold lint_given, compile_given, as_source. cbn [bindr]. rewrite F. split; reflexivity.
  Qed.
End Facts.

(** def con_f(limit=1.5): @export def f(): x = limit.  The linter, that would refuse the parameter without annotation and the name, sees neither. *)
Definition inner_body : list ast := [def_at 3 "f" none_args [assign_at 4 (stored_at 4 "x") (name_at 4 "limit")] (export_at 2) Absent].
Definition outer : ast := program [def_at 1 "con_f" (args_of [] [arg_at 1 "limit" Absent] Absent []) inner_body [name_at 0 "decorated"; name_at 0 "twice"] (name_at 1 "float")].
Example C124_example : defines outer (u "con_f") inner_body /\ accepted python (program inner_body) /\ fst (client_lint python false (program inner_body) comp0) = Ok None /\
  fst (client_lint python false outer comp0) <> Ok None /\ ~ a_definition (Node "AsyncFunctionDef" None []).
Proof.
  split; [eexists; eexists; split; [reflexivity|split; reflexivity]|]. split; [apply (fine_ok (program inner_body)); vm_compute; reflexivity|]. split; [vm_compute; reflexivity|].
  split; [vm_compute; discriminate|]. intros (l & fs & E). discriminate E.
Qed.
