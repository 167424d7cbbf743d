(** * C107: what the functions of a contract object do when they are called *)
From Verif Require Import Model.Base Model.State Model.Dec Model.Time Model.Value Model.Encoder Model.Hdf5 Model.Runtime Model.Driver Model.Orm Model.Exec Model.Executor Model.Client Model.Ast Model.Linter Model.ClientFuncs Model.ClientObject.
From Verif Require Import Spec.LintSpec Spec.ClientSpec Proofs.BaseFacts Proofs.DriverFacts Properties.Demo Properties.LintProps Properties.ClientProps Properties.ClientCallProps.
From Coq Require Import Lia.
Local Open Scope string_scope.
Local Open Scope list_scope.

(** the contract (its parsed code) has a function of this name *)
Definition has_function (t : ast) (f : pystr) : Prop := exists fs args, contract_functions t = Ok fs /\ In (f, args) fs.
(** some function called [f], the last of that name, is defined after a function called [g] *)
Definition defined_after (t : ast) (g f : pystr) : Prop :=
  exists l1 l2 l3 a b, contract_functions t = Ok (l1 ++ (g, a) :: l2 ++ (f, b) :: l3) /\ f <> g /\ ~ In f (map fst l3).
(** names of the object's own attributes that its calls use *)
Definition own_names : list pystr := [u "name"; u "signer"; u "executor"; u "environment"; u "now"].

(** ** what the object holds *)
Lemma set_functions_other k fs obj obj' : set_functions fs obj = Ok obj' -> ~ In k (map fst fs) -> dget k obj' = dget k obj.
Proof.
  revert obj; induction fs as [|[f args] r IH]; intros obj H N; cbn [set_functions] in H; [injection H as <-; reflexivity|].
  destruct (dget (u "signer") obj); [|discriminate H]. destruct (dget (u "name") obj); [|discriminate H]. destruct (dget (u "executor") obj); [|discriminate H].
  destruct (existsb _ args); [discriminate H|]. rewrite (IH _ H) by (intros I; apply N; right; exact I). apply dget_dset_other. intros ->. apply N. left. reflexivity.
Qed.
Definition is_partial (a : aval) : Prop := match a with APartial _ _ _ _ _ => True | _ => False end.
Lemma set_functions_partial k fs obj obj' : set_functions fs obj = Ok obj' -> (exists a, dget k obj = Some a /\ is_partial a) \/ In k (map fst fs) ->
  exists a, dget k obj' = Some a /\ is_partial a.
Proof.
  revert obj; induction fs as [|[f args] r IH]; intros obj H N; cbn [set_functions] in H; [injection H as <-; destruct N as [N|[]]; exact N|].
  destruct (dget (u "signer") obj) as [s|]; [|discriminate H]. destruct (dget (u "name") obj) as [n|]; [|discriminate H]. destruct (dget (u "executor") obj) as [x|]; [|discriminate H].
  destruct (existsb _ args); [discriminate H|]. apply (IH _ H). destruct (str_eqb k f) eqn:E.
  - left. apply str_eqb_eq in E as ->. eexists. rewrite dget_dset_same. split; [reflexivity|exact I].
  - destruct N as [N|[N|N]]; [left; rewrite dget_dset, E; exact N|cbn in N; subst f; rewrite str_eqb_refl in E; discriminate E|right; exact N].
Qed.
(** the partial of the last function called [f]: made from the attributes the object had then *)
Lemma set_functions_last f args l1 l2 obj obj' : set_functions (l1 ++ (f, args) :: l2) obj = Ok obj' -> ~ In f (map fst l2) ->
  exists mid s n x, set_functions l1 obj = Ok mid /\ dget (u "signer") mid = Some s /\ dget (u "name") mid = Some n /\ dget (u "executor") mid = Some x /\
    dget f obj' = Some (APartial s n x f (map (fun a => (a, VNone)) args)).
Proof.
  revert obj; induction l1 as [|[g a] l1 IH]; intros obj H N; cbn [app set_functions] in H |- *.
  - destruct (dget (u "signer") obj) as [s|] eqn:E1; [|discriminate H]. destruct (dget (u "name") obj) as [n|] eqn:E2; [|discriminate H]. destruct (dget (u "executor") obj) as [x|] eqn:E3; [|discriminate H].
    destruct (existsb _ args); [discriminate H|]. exists obj, s, n, x. rewrite (set_functions_other _ _ _ _ H N), dget_dset_same. auto.
  - destruct (dget (u "signer") obj) as [s|] eqn:E1; [|discriminate H]. destruct (dget (u "name") obj) as [n|] eqn:E2; [|discriminate H]. destruct (dget (u "executor") obj) as [x|] eqn:E3; [|discriminate H].
    destruct (existsb _ a); [discriminate H|]. apply IH; assumption.
Qed.
Lemma set_functions_make fs obj obj' ps : set_functions fs obj = Ok obj' -> exists ps', make_partials fs ps = Ok ps'.
Proof.
  revert obj ps; induction fs as [|[f args] r IH]; intros obj ps H; cbn [set_functions make_partials] in *; [eauto|].
  destruct (dget (u "signer") obj) as [s|]; [|discriminate H]. destruct (dget (u "name") obj) as [n|]; [|discriminate H]. destruct (dget (u "executor") obj) as [x|]; [|discriminate H].
  destruct (existsb _ args); [discriminate H|]. eapply IH, H.
Qed.
Lemma map_fst_app {A B} (l1 l2 : list (A * B)) : map fst (l1 ++ l2) = map fst l1 ++ map fst l2. Proof. apply map_app. Qed.

(** The object has what it was made with, in every attribute no function of the contract is called like *)
Theorem C107_own_attributes_partial t name signer obj : contract_object t name signer = Ok obj ->
  (~ has_function t (u "name") -> dget (u "name") obj = Some (AName name)) /\
  (~ has_function t (u "signer") -> dget (u "signer") obj = Some (ASigner signer)) /\
  (~ has_function t (u "environment") -> dget (u "environment") obj = Some AEnvironment) /\
  (~ has_function t (u "executor") -> dget (u "executor") obj = Some AExecutor) /\
  (~ has_function t (u "functions") -> dget (u "functions") obj = Some AFunctions).
Proof.
  unfold contract_object. destruct (contract_functions t) as [fs|e] eqn:E; [|discriminate]. cbn [bindr]. intros H.
  assert (K : forall k, ~ has_function t k -> dget k obj = dget k (own_attributes name signer)).
  { intros k N. apply (set_functions_other _ _ _ _ H). intros I. apply N. apply in_map_iff in I as ((k' & args) & X & I). cbn [fst] in X. subst k'. exists fs, args. auto. }
  repeat split; intros N; rewrite (K _ N); vm_compute; reflexivity.
Qed.
(** ** C107, proved: if no function of the contract is called name, signer, executor, environment or now, every function of the object runs the function of
    that name of the object's contract, signed by the client's signer (or the one given), with the arguments described by C87 *)
Theorem C107_calls_partial L fuel stack clock name t obj f args given o c :
  contract_object t name (k_signer c) = Ok obj -> last_definition t f args -> (forall g, has_function t g -> ~ In g own_names) ->
  NoDup (dkeys given) -> ~ In (u "self") (args ++ dkeys given) -> ~ In (u "stamps") (args ++ dkeys given) ->
  exists kw, passed args given kw /\
    object_call L fuel stack clock obj f given o c =
    call_contract L fuel clock (match p_signer o with Some s => s | None => k_signer c end) name f kw (p_env o) (p_metering o) (p_now o) c.
Proof.
  intros HO HF HN ND NS NT. destruct HF as (l1 & l2 & EF & NL) eqn:HFe. clear HFe.
  unfold contract_object in HO. rewrite EF in HO. cbn [bindr] in HO.
  assert (HX : forall k, In k own_names -> ~ In k (map fst (l1 ++ (f, args) :: l2))).
  { intros k K I. apply in_map_iff in I as ([g a] & E & I). cbn in E. subst g. apply (HN k); [exists (l1 ++ (f, args) :: l2), a; auto|exact K]. }
  assert (HX1 : forall k, In k own_names -> ~ In k (map fst l1)). { intros k K I. apply (HX k K). rewrite map_app. apply in_or_app. left. exact I. }
  destruct (set_functions_last f args l1 l2 _ _ HO NL) as (mid & s & n & x & EM & ES & EN & EX & ED).
  rewrite (set_functions_other _ _ _ _ EM) in ES by (apply HX1; right; left; reflexivity).
  rewrite (set_functions_other _ _ _ _ EM) in EN by (apply HX1; left; reflexivity).
  rewrite (set_functions_other _ _ _ _ EM) in EX by (apply HX1; right; right; left; reflexivity).
  change (Some (ASigner (k_signer c)) = Some s) in ES. change (Some (AName name) = Some n) in EN. change (Some AExecutor = Some x) in EX. injection ES as <-. injection EN as <-. injection EX as <-.
  pose proof (set_functions_other (u "environment") _ _ _ HO (HX _ ltac:(do 3 right; left; reflexivity))) as EE. change (dget (u "environment") obj = Some AEnvironment) in EE.
  pose proof (set_functions_other (u "now") _ _ _ HO (HX _ ltac:(do 4 right; left; reflexivity))) as ENow. change (dget (u "now") obj = None) in ENow.
  assert (HNow : self_now stack clock obj = Ok clock). { destruct stack; cbn [self_now]; rewrite ENow; reflexivity. }
  destruct (set_functions_make _ _ _ [] HO) as (ps & EP).
  assert (HA : abstract_contract t = Ok ps). { unfold abstract_contract. rewrite EF. exact EP. }
  destruct (C87_passed L fuel clock name t ps f args given o c HA (ex_intro _ l1 (ex_intro _ l2 (conj EF NL))) ND NS NT) as (kw & HP & HC).
  exists kw. split; [exact HP|]. rewrite <- HC. unfold contract_call. rewrite (make_partials_last _ _ _ _ _ _ EP NL), bind_eq. cbn [gets].
  unfold object_call, object_request. rewrite ED. destruct (_ || _)%bool; [reflexivity|].
  assert (HT : (match p_now o with Some t0 => if is_none t0 then self_now stack clock obj else Ok t0 | None => self_now stack clock obj end) = Ok (match p_now o with Some t0 => if is_none t0 then clock else t0 | None => clock end)).
  { rewrite HNow. destruct (p_now o) as [t0|]; [destruct (is_none t0)|]; reflexivity. }
  rewrite HT. cbn [bindr]. rewrite EE.
  assert (HEnv : (match p_env o with Some (_ :: _) => Ok tt | _ => Ok tt end) = Ok tt) by (destruct (p_env o) as [[|]|]; reflexivity).
  rewrite HEnv. cbn [bindr].
  assert (HQ : forall sg k, call_contract L fuel clock sg name f k (p_env o) (p_metering o) (Some (match p_now o with Some t0 => if is_none t0 then clock else t0 | None => clock end)) c
      = call_contract L fuel clock sg name f k (p_env o) (p_metering o) (p_now o) c).
  { intros sg k. unfold call_contract. destruct (p_now o) as [t0|]; [destruct (is_none t0) eqn:E0|]; cbv zeta; try (destruct (is_none clock)); try rewrite E0; reflexivity. }
  destruct (p_signer o); cbn [rq_sender rq_contract rq_function rq_kwargs rq_env rq_meter rq_now]; apply HQ.
Qed.

(** ** C107, REFUTED: a contract's function called now makes every call of every function of the object (for which no time is given) raise RecursionError *)
Lemma object_partial t name signer obj f : contract_object t name signer = Ok obj -> has_function t f -> exists a, dget f obj = Some a /\ is_partial a.
Proof.
  intros HO (fs & args & EF & HI). unfold contract_object in HO. rewrite EF in HO. cbn [bindr] in HO. apply (set_functions_partial _ _ _ _ HO). right. apply in_map_iff. exists (f, args). auto.
Qed.
Lemma now_hidden n clock obj a : dget (u "now") obj = Some a -> is_partial a -> self_now n clock obj = Err ERecursion.
Proof. intros E P. destruct a; try contradiction P. induction n as [|n IH]; cbn [self_now]; rewrite E; [reflexivity|exact IH]. Qed.
(** no argument of any function, and none given, is called self or stamps *)
Definition usual (obj : object) (f : pystr) (given : dict pyval) : Prop :=
  forall s n x g d, dget f obj = Some (APartial s n x g d) -> dmem (u "self") (dupdate d given) = false /\ dmem (u "stamps") (dupdate d given) = false.
Theorem C107_now_refuted L fuel stack clock t name obj f given o c :
  contract_object t name (k_signer c) = Ok obj -> has_function t (u "now") -> has_function t f -> usual obj f given -> p_now o = None ->
  object_call L fuel stack clock obj f given o c = (Err ERecursion, c).
Proof.
  intros HO HN HF HU HP. destruct (object_partial _ _ _ _ _ HO HN) as (a & EA & PA). destruct (object_partial _ _ _ _ _ HO HF) as (b & EB & PB).
  unfold object_call, object_request. rewrite EB. destruct b; try contradiction PB. destruct (HU _ _ _ _ _ EB) as [-> ->]. cbn [orb]. rewrite HP, (now_hidden _ _ _ _ EA PA). reflexivity.
Qed.
(** REFUTED: one called environment makes every call for which no environment is given raise AttributeError *)
Theorem C107_environment_refuted L fuel stack clock t name obj f given o c tm :
  contract_object t name (k_signer c) = Ok obj -> has_function t (u "environment") -> has_function t f -> usual obj f given -> p_now o = Some tm -> tm <> VNone -> p_env o = None ->
  object_call L fuel stack clock obj f given o c = (Err EAttribute, c).
Proof.
  intros HO HN HF HU HT HT' HP. destruct (object_partial _ _ _ _ _ HO HN) as (a & EA & PA). destruct (object_partial _ _ _ _ _ HO HF) as (b & EB & PB).
  unfold object_call, object_request. rewrite EB. destruct b; try contradiction PB. destruct (HU _ _ _ _ _ EB) as [-> ->]. cbn [orb]. rewrite HT, HP, EA.
  assert (N : is_none tm = false) by (destruct tm; try reflexivity; congruence). rewrite N. cbn [bindr]. destruct a; try contradiction PA. reflexivity.
Qed.
Lemma later_partial t name signer obj g f : contract_object t name signer = Ok obj -> defined_after t g f -> In g [u "name"; u "signer"; u "executor"] ->
  exists s n x d, dget f obj = Some (APartial s n x f d) /\ (g = u "name" -> is_partial n) /\ (g = u "signer" -> is_partial s) /\ (g = u "executor" -> is_partial x).
Proof.
  intros HO (l1 & l2 & l3 & a & b & EF & NE & NL) HG. unfold contract_object in HO. rewrite EF in HO. cbn [bindr] in HO.
  rewrite app_comm_cons, app_assoc in HO. destruct (set_functions_last f b _ l3 _ _ HO NL) as (mid & s & n & x & EM & ES & EN & EX & ED).
  exists s, n, x, (map (fun a => (a, VNone)) b). split; [exact ED|].
  assert (HM : exists v, dget g mid = Some v /\ is_partial v). { apply (set_functions_partial _ _ _ _ EM). right. rewrite map_app. apply in_or_app. right. left. reflexivity. }
  destruct HM as (v & EV & PV). repeat split; intros ->; congruence.
Qed.
(** REFUTED: after a function called name, later functions of the object never reach their contract; after one called executor they cannot be called at all;
    after one called signer they are not signed by the client's signer *)
Theorem C107_name_refuted L fuel stack clock t name obj f given o c :
  contract_object t name (k_signer c) = Ok obj -> defined_after t (u "name") f -> usual obj f given ->
  exists e, object_call L fuel stack clock obj f given o c = (Err e, c).
Proof.
  intros HO HD HU. destruct (later_partial _ _ _ _ _ _ HO HD ltac:(left; reflexivity)) as (s & n & x & d & EB & PN & _). specialize (PN eq_refl).
  unfold object_call, object_request. rewrite EB. destruct (HU _ _ _ _ _ EB) as [-> ->]. cbn [orb].
  match goal with |- context [bindr ?m _] => destruct m as [tm|e] end; [|cbn [bindr]; eexists; reflexivity]. cbn [bindr].
  match goal with |- context [bindr ?m _] => destruct m as [[]|e] end; [|cbn [bindr]; eexists; reflexivity]. cbn [bindr].
  destruct x; try (eexists; reflexivity). destruct n; try contradiction PN. eexists; reflexivity.
Qed.
Theorem C107_executor_refuted L fuel stack clock t name obj f given o c :
  contract_object t name (k_signer c) = Ok obj -> defined_after t (u "executor") f -> usual obj f given ->
  exists e, object_call L fuel stack clock obj f given o c = (Err e, c).
Proof.
  intros HO HD HU. destruct (later_partial _ _ _ _ _ _ HO HD ltac:(right; right; left; reflexivity)) as (s & n & x & d & EB & _ & _ & PX). specialize (PX eq_refl).
  unfold object_call, object_request. rewrite EB. destruct (HU _ _ _ _ _ EB) as [-> ->]. cbn [orb].
  match goal with |- context [bindr ?m _] => destruct m as [tm|e] end; [|cbn [bindr]; eexists; reflexivity]. cbn [bindr].
  match goal with |- context [bindr ?m _] => destruct m as [[]|e] end; [|cbn [bindr]; eexists; reflexivity]. cbn [bindr].
  destruct x; try contradiction PX. eexists; reflexivity.
Qed.
Theorem C107_signer_refuted stack clock t name signer obj f given o r :
  contract_object t name signer = Ok obj -> defined_after t (u "signer") f -> p_signer o = None ->
  object_request stack clock obj f given o = Ok r -> rq_sender r <> ASigner signer.
Proof.
  intros HO HD HP HR. destruct (later_partial _ _ _ _ _ _ HO HD ltac:(right; left; reflexivity)) as (s & n & x & d & EB & _ & PS & _). specialize (PS eq_refl).
  unfold object_request in HR. rewrite EB, HP in HR. destruct (_ || _)%bool; [discriminate HR|].
  match type of HR with context [bindr ?m _] => destruct m as [tm|e] end; [|discriminate HR]. cbn [bindr] in HR.
  match type of HR with context [bindr ?m _] => destruct m as [[]|e] end; [|discriminate HR]. cbn [bindr] in HR.
  destruct x; try discriminate HR. destruct n; try discriminate HR. injection HR as <-. cbn [rq_sender]. intros ->. exact PS.
Qed.

(** ** Cases.  The linter accepts a contract with an exported function of each of these names, followed by an exported function pay *)
Definition named (g : string) : ast :=
  module [def_at 2 g none_args [pass_at 3] (export_at 1) Absent; def_at 5 "pay" none_args [pass_at 6] (export_at 4) Absent].
Example C107_accepted : forall g, In g ["name"; "signer"; "executor"; "environment"; "now"; "keys"] -> accepted python (named g).
Proof. intros g H. repeat (destruct H as [<-|H]; [apply fine_ok; vm_compute; reflexivity|]). destruct H. Qed.
Example C107_hypotheses : (forall g, In g ["name"; "signer"; "executor"; "environment"; "now"; "keys"] ->
    (exists obj, contract_object (named g) (u "con_a") (u "sys") = Ok obj /\ usual obj (u "pay") [] /\
       forall f, f = u "pay" \/ f = u g -> exists a, dget f obj = Some a /\ is_partial a) /\
    has_function (named g) (u g) /\ has_function (named g) (u "pay") /\ defined_after (named g) (u g) (u "pay") /\ last_definition (named g) (u "pay") []) /\
  (forall g, has_function (named "keys") g -> ~ In g own_names).
Proof.
  split.
  - intros g H. repeat (destruct H as [<-|H]; [|]); [..|destruct H].
    all: (split; [eexists; split; [vm_compute; reflexivity|split; [intros s n x h d E; vm_compute in E; injection E as <- <- <- <- <-; split; reflexivity|intros f [E|E]; rewrite E; eexists; (split; [vm_compute; reflexivity|exact I])]]|]).
    all: (split; [eexists; exists []; split; [vm_compute; reflexivity|left; reflexivity]|]).
    all: (split; [eexists; exists []; split; [vm_compute; reflexivity|right; left; reflexivity]|]).
    all: (split; [exists [], [], [], [], []; split; [vm_compute; reflexivity|split; [discriminate|intros []]]|]).
    all: (eexists [_], []; split; [vm_compute; reflexivity|intros []]).
  - intros g (fs & args & E & I). vm_compute in E. injection E as <-. destruct I as [I|[I|[]]]; injection I as <- _; intros H; repeat (destruct H as [H|H]; [discriminate H|]); destruct H.
Qed.
(** Other functions are called as intended *)
Example C107_example : exists obj, contract_object (named "keys") (u "con_p") (k_signer priv_client) = Ok obj /\
  object_request 10 (VInt 5) obj (u "pay") [] (mkOpts None None None None) = Ok (mkReq (ASigner (u "sys")) (u "con_p") (u "pay") [] None None (VInt 5)).
Proof. eexists. split; vm_compute; reflexivity. Qed.
