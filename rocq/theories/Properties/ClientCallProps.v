(** * C77 (further), C87: calls through contract objects *)
From Verif Require Import Model.Base Model.State Model.Dec Model.Time Model.Value Model.Encoder Model.Hdf5 Model.Runtime Model.Driver Model.Orm Model.Exec Model.Executor Model.Client Model.Ast Model.Linter Model.ClientFuncs.
From Verif Require Import Spec.LintSpec Spec.ClientSpec Proofs.BaseFacts Proofs.DriverFacts Properties.Demo Properties.LintProps Properties.ClientProps.
From Coq Require Import Lia.
Local Open Scope list_scope.

(** ** C77: the time and the environment of a call *)
(** the time a caller asks for *)
Definition time_of_call (now : option pyval) (clock t : pyval) : Prop :=
  (now = None /\ t = clock) \/ (now = Some VNone /\ t = clock) \/ (now = Some t /\ t <> VNone).
(** [e'] is the environment [e] with the time [t], if it had none *)
Definition with_time (e : dict pyval) (t : pyval) (e' : dict pyval) : Prop :=
  forall k, dget k e' = if str_eqb k (u "now") then (match dget k e with None | Some VNone => Some t | o => o end) else dget k e.
Lemma now_value now clock t : time_of_call now clock t -> match now with Some n => if is_none n then clock else n | None => clock end = t.
Proof. intros [[-> ->]|[[-> ->]|[-> H]]]; try reflexivity. destruct t; try reflexivity. congruence. Qed.
Lemma timed e t : with_time e t (if is_none (pget NOW e) then dset NOW t e else e).
Proof.
  intros k. change (u "now") with NOW. unfold pget. destruct (str_eqb k NOW) eqn:EK.
  - apply str_eqb_eq in EK as ->. destruct (dget NOW e) as [v|] eqn:E; [|cbn [is_none]; apply dget_dset_same]. destruct (is_none v) eqn:N.
    + destruct v; try discriminate N. apply dget_dset_same.
    + rewrite E. destruct v; try reflexivity. discriminate N.
  - destruct (is_none _); [rewrite dget_dset, EK|]; reflexivity.
Qed.
(** Every call runs with the environment it was given, or the client's if it was given none (or an empty one), in which the time is set if there is none:
    to the given time, else to the clock.  In the second case the client keeps that environment. *)
Theorem C77_environment L fuel clock sg n f kw env meter now t c : time_of_call now clock t ->
  let e := match env with Some (x :: l) => x :: l | _ => k_env c end in
  exists e', with_time e t e' /\
  let run := execute L fuel (k_cfg c) (client_tx sg n f kw e' meter) (k_mach c) in
  let after := call_contract L fuel clock sg n f kw env meter now c in
  fst after = answer (fst run) /\ k_mach (snd after) = snd run /\ k_env (snd after) = (match env with Some (_ :: _) => k_env c | _ => e' end) /\
  k_cfg (snd after) = k_cfg c /\ k_signer (snd after) = k_signer c.
Proof.
  intros HT. cbv zeta. eexists. split; [apply timed|]. unfold call_contract. rewrite (now_value _ _ _ HT). rewrite bind_eq. cbn [gets]. rewrite bind_eq.
  destruct env as [[|x l]|]; cbn [modify ret].
  all: rewrite bind_eq; unfold on_m; cbn [k_mach set_kenv]; unfold client_tx; change DEFAULT_STAMPS with 1000000%Z; change STAMPS_PER_TAU with 20%Z.
  all: match goal with |- context [execute ?a ?b ?c0 ?d ?e] => destruct (execute a b c0 d e) as [[o|e0] s] end; cbn [fst snd answer]; [|repeat split; reflexivity].
  all: destruct (Z.eqb (o_status o) 1); repeat split; reflexivity.
Qed.
Example C77_given_time : time_of_call (Some (VInt 3)) (VInt 9) (VInt 3) /\ time_of_call (Some VNone) (VInt 9) (VInt 9)
  /\ fst (call_contract priv_lang 10 (VInt 9) (u "eve") (u "con_p") (u "f") [] None None (Some (VInt 3)) priv_client) = Ok (VInt 3)
  /\ fst (call_contract priv_lang 10 (VInt 9) (u "eve") (u "con_p") (u "f") [] (Some [(NOW, VInt 4)]) None (Some (VInt 3)) priv_client) = Ok (VInt 4).
Proof. split; [right; right; split; [reflexivity|discriminate]|]. split; [right; left; split; reflexivity|]. split; vm_compute; reflexivity. Qed.

(** ** C87: the arguments of a call *)
(** the last function called [f] in the contract has these plain arguments *)
Definition last_definition (t : ast) (f : pystr) (args : list pystr) : Prop :=
  exists l1 l2, contract_functions t = Ok (l1 ++ (f, args) :: l2) /\ ~ In f (map fst l2).
Lemma make_partials_last f args l1 l2 ps0 ps : make_partials (l1 ++ (f, args) :: l2) ps0 = Ok ps -> ~ In f (map fst l2) -> dget f ps = Some (map (fun a => (a, VNone)) args).
Proof.
  revert ps0; induction l1 as [|[g a] l1 IH]; intros ps0 H N; cbn [app make_partials] in H; (match type of H with (if ?b then _ else _) = _ => destruct b; [discriminate|] end); [|eapply IH; eassumption].
  assert (G : dget f (dset f (map (fun a => (a, VNone)) args) ps0) = Some (map (fun a => (a, VNone)) args)) by apply dget_dset_same.
  revert H G. generalize (dset f (map (fun a => (a, VNone)) args) ps0). induction l2 as [|[g a] l2 IH]; intros qs H G; cbn [make_partials] in H; [injection H as <-; exact G|].
  match type of H with (if ?b then _ else _) = _ => destruct b; [discriminate|] end. apply (IH) in H; [exact H|intros I; apply N; right; exact I|].
  rewrite dget_dset_other; [exact G|]. intros ->. apply N. left. reflexivity.
Qed.
Lemma dget_filter {V} (p : pystr -> bool) k (d : dict V) : dget k (filter (fun kv => p (fst kv)) d) = if p k then dget k d else None.
Proof.
  induction d as [|[k' v] d IH]; cbn [filter dget fst]; [destruct (p k); reflexivity|]. destruct (p k') eqn:P; cbn [dget]; destruct (str_eqb k k') eqn:E; try (apply str_eqb_eq in E; subst k'); try rewrite P in *; try reflexivity; exact IH.
Qed.
Lemma dget_nones k args : dget k (map (fun a => (a, VNone)) args) = if str_mem k args then Some VNone else None.
Proof. unfold str_mem. induction args as [|a l IH]; cbn [map dget existsb]; [reflexivity|]. destruct (str_eqb k a); [reflexivity|exact IH]. Qed.
(** what the function is called with: what was given, and None for every argument that was not given; but nothing under the names environment, metering and now *)
Definition passed (args : list pystr) (given kw : dict pyval) : Prop :=
  forall k, dget k kw = if str_mem k [u "environment"; u "stamps"; u "metering"; u "now"] then None
                        else match dget k given with Some v => Some v | None => if str_mem k args then Some VNone else None end.
Theorem C87_passed L fuel clock name t ps f args given o c :
  abstract_contract t = Ok ps -> last_definition t f args -> NoDup (dkeys given) ->
  ~ In (u "self") (args ++ dkeys given) -> ~ In (u "stamps") (args ++ dkeys given) ->
  exists kw, passed args given kw /\
    contract_call L fuel clock name ps f given o c =
    call_contract L fuel clock (match p_signer o with Some s => s | None => k_signer c end) name f kw (p_env o) (p_metering o) (p_now o) c.
Proof.
  intros A (l1 & l2 & F & NL) ND NS NT. unfold abstract_contract in A. rewrite F in A. cbn [bindr] in A. pose proof (make_partials_last _ _ _ _ _ _ A NL) as D.
  assert (G : forall k, dget k (dupdate (map (fun a => (a, VNone)) args) given) = match dget k given with Some v => Some v | None => if str_mem k args then Some VNone else None end).
  { intros k. rewrite dget_dupdate by exact ND. rewrite dget_nones. reflexivity. }
  assert (M : forall k, ~ In k (args ++ dkeys given) -> dmem k (dupdate (map (fun a => (a, VNone)) args) given) = false).
  { intros k N. unfold dmem. rewrite G. destruct (dget k given) as [v|] eqn:E.
    - exfalso. apply N, in_or_app. right. clear - E. induction given as [|[k' x] d IH]; [discriminate E|]. cbn [dget] in E. destruct (str_eqb k k') eqn:Q; [left; symmetry; apply str_eqb_eq, Q|right; apply IH, E].
    - destruct (str_mem k args) eqn:Q; [|reflexivity]. exfalso. apply N, in_or_app. left. apply str_mem_spec, Q. }
  eexists. split; [|unfold contract_call; rewrite D, bind_eq; cbn [gets]; rewrite !M by assumption; cbn [orb]; reflexivity].
  intros k. rewrite (dget_filter (fun k => negb (str_mem k TAKEN))). fold TAKEN. rewrite G. destruct (str_mem k TAKEN); reflexivity.
Qed.
(** So a call that gives every argument, none of them called like a parameter of the client, passes exactly what was given *)
Theorem C87_exact_partial L fuel clock name t ps f args given o c :
  abstract_contract t = Ok ps -> last_definition t f args -> NoDup (dkeys given) ->
  (forall a, In a args -> In a (dkeys given)) -> (forall k, In k (dkeys given) -> ~ In k [u "self"; u "environment"; u "stamps"; u "metering"; u "now"]) ->
  exists kw, (forall k, dget k kw = dget k given) /\
    contract_call L fuel clock name ps f given o c =
    call_contract L fuel clock (match p_signer o with Some s => s | None => k_signer c end) name f kw (p_env o) (p_metering o) (p_now o) c.
Proof.
  intros A F ND ALL NR.
  assert (N : forall k, In k (args ++ dkeys given) -> ~ In k [u "self"; u "environment"; u "stamps"; u "metering"; u "now"]) by (intros k I; apply in_app_or in I as [I|I]; apply NR; auto).
  destruct (C87_passed L fuel clock name t ps f args given o c A F ND) as (kw & P & E); [intros I; apply N in I; apply I; left; reflexivity|intros I; apply N in I; apply I; right; right; left; reflexivity|].
  exists kw. split; [|exact E]. intros k. rewrite P. destruct (dget k given) as [v|] eqn:G.
  - assert (I : In k (dkeys given)). { clear - G. induction given as [|[k' x] d IH]; [discriminate G|]. cbn [dget] in G. destruct (str_eqb k k') eqn:Q; [left; symmetry; apply str_eqb_eq, Q|right; apply IH, G]. }
    destruct (str_mem k _) eqn:M; [|reflexivity]. apply str_mem_spec in M. exfalso. apply (NR k I). right. exact M.
  - destruct (str_mem k [_; _; _; _]); [reflexivity|]. destruct (str_mem k args) eqn:M; [|reflexivity]. exfalso. apply str_mem_spec, ALL in M.
    clear - G M. induction given as [|[k' x] d IH]; [exact M|]. cbn [dget] in G. destruct (str_eqb k k') eqn:Q; [discriminate|]. destruct M as [<-|M]; [cbn [fst] in Q; rewrite str_eqb_refl in Q; discriminate|]. apply IH; assumption.
Qed.
(** REFUTED: an argument that is not given does not get the default its definition declares: it is passed as None *)
Theorem C87_default_refuted L fuel clock name t ps f args a given o c :
  abstract_contract t = Ok ps -> last_definition t f args -> NoDup (dkeys given) -> ~ In (u "self") (args ++ dkeys given) -> ~ In (u "stamps") (args ++ dkeys given) ->
  In a args -> ~ In a (dkeys given) -> ~ In a [u "environment"; u "stamps"; u "metering"; u "now"] ->
  exists kw, dget a kw = Some VNone /\
    contract_call L fuel clock name ps f given o c =
    call_contract L fuel clock (match p_signer o with Some s => s | None => k_signer c end) name f kw (p_env o) (p_metering o) (p_now o) c.
Proof.
  intros A F ND N1 N2 I NI NR. destruct (C87_passed L fuel clock name t ps f args given o c A F ND N1 N2) as (kw & P & E). exists kw. split; [|exact E].
  rewrite P. destruct (str_mem a _) eqn:M; [apply str_mem_spec in M; contradiction|]. apply str_mem_spec in I. rewrite I. destruct (dget a given) as [v|] eqn:G; [|reflexivity].
  exfalso. apply NI. clear - G. induction given as [|[k' x] d IH]; [discriminate G|]. cbn [dget] in G. destruct (str_eqb a k') eqn:Q; [left; symmetry; apply str_eqb_eq, Q|right; apply IH, G].
Qed.
(** REFUTED: a contract with a function that has an argument called signer (or func, executor...) is accepted, but get_contract raises TypeError;
    an argument called now is never passed *)
Definition clash (arg : string) : ast :=
  module [def_at 2 "f" (args_of [] [arg_at 2 arg (name_at 2 "str")] Absent []) [pass_at 3] (export_at 1) Absent].
Theorem C87_clash_refuted : (forall x, In x ["signer"; "contract_name"; "executor"; "func"; "return_full_output"]%string -> accepted python (clash x) /\ abstract_contract (clash x) = Err EType)
  /\ accepted python (clash "now") /\ exists ps, abstract_contract (clash "now") = Ok ps /\ last_definition (clash "now") (u "f") [u "now"] /\
  forall L fuel clock name given o c, contract_call L fuel clock name ps (u "f") [(u "now", given)] o c
    = call_contract L fuel clock (match p_signer o with Some s => s | None => k_signer c end) name (u "f") [] (p_env o) (p_metering o) (p_now o) c.
Proof.
  split.
  - intros x [<-|[<-|[<-|[<-|[<-|[]]]]]]; (split; [apply fine_ok; vm_compute; reflexivity|vm_compute; reflexivity]).
  - split; [apply fine_ok; vm_compute; reflexivity|]. eexists. split; [vm_compute; reflexivity|]. split; [exists [], []; split; [vm_compute; reflexivity|intros []]|]. reflexivity.
Qed.
(** a function with one argument, called with it *)
Example C87_some : exists ps, abstract_contract (clash "amount") = Ok ps /\ last_definition (clash "amount") (u "f") [u "amount"] /\
  dget (u "f") ps = Some [(u "amount", VNone)].
Proof. eexists. split; [vm_compute; reflexivity|]. split; [exists [], []; split; [vm_compute; reflexivity|intros []]|reflexivity]. Qed.
