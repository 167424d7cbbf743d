(** * C67: enforce_interface *)
From Verif Require Import Model.Base Model.Interface Spec.InterfaceSpec Proofs.BaseFacts.
From Coq Require Import Lia.

Lemma names_eqb_spec a b : names_eqb a b = true <-> a = b.
Proof.
  revert b. induction a as [|x a IH]; destruct b as [|y b]; cbn [names_eqb]; try (split; [discriminate|discriminate]); [split; reflexivity|].
  rewrite andb_true_iff, IH. destruct (str_eqb_spec x y); split; intros H; [destruct H; congruence|injection H; auto|destruct H; discriminate|congruence].
Qed.
Lemma ormclass_eqb_spec a b : ormclass_eqb a b = true <-> a = b.
Proof. destruct a, b; cbn; split; intros H; try reflexivity; discriminate. Qed.
Lemma is_instance_spec c t : is_instance c t = true <-> subclass c t.
Proof.
  split.
  - unfold is_instance. generalize 3 as n. intros n. revert c. induction n as [|n IH]; intros c; cbn [isinst]; rewrite orb_true_iff, ormclass_eqb_spec.
    + intros [->|H]; [constructor|discriminate].
    + intros [->|H]; [constructor|]. destruct (base_class c) as [b|] eqn:E; [|discriminate]. apply sub_up with b; auto.
  - intros H. assert (D : forall c b t, base_class c = Some b -> is_instance b t = true -> is_instance c t = true) by (intros [] [] [] X; try discriminate X; reflexivity || (intros Y; vm_compute in Y; discriminate Y)).
    induction H as [c|c b t E H IH]; [destruct c; reflexivity|]. eapply D; eassumption.
Qed.
Lemma func_is_of_spec n l f : func_is_of n l f = Ok true <-> exists a, l = ArgTuple a /\ stands_for f n a.
Proof.
  unfold func_is_of, code_of. destruct f as [[cn ca] cl]. cbn [pf_closure pf_code]. split.
  - destruct cl as [[[[n0 a0]| |] rest]|]; cbn [bindr]; try discriminate; intros H; injection H as H; apply andb_true_iff in H as [H1 H2]; cbn [co_name co_args] in *;
    (destruct (str_eqb_spec n0 n) || destruct (str_eqb_spec cn n)); try discriminate; subst; destruct l as [l|]; try discriminate; apply names_eqb_spec in H2; subst; eexists; (split; [reflexivity|constructor]).
  - intros (a & -> & H). inversion H; subst; cbn [bindr co_name co_args]; rewrite str_eqb_refl; f_equal; apply names_eqb_spec; reflexivity.
Qed.
(** enforce_interface answers True exactly when every requirement is met. *)
Theorem C67_enforce m interface : enforce_interface m interface = Ok true <-> Forall (meets m) interface.
Proof.
  induction interface as [|i l IH]; cbn [enforce_interface]; [split; [constructor|reflexivity]|].
  rewrite Forall_cons_iff, <- IH. clear IH. destruct (dget (req_name i) m) as [[|f|c|]|] eqn:E.
  - split; [discriminate|]. intros [H _]. inversion H; subst; cbn [req_name] in *; congruence.
  - destruct i as [n a|n t]; cbn [is_of req_name] in *.
    + pose proof (func_is_of_spec n a f) as HS. destruct (func_is_of n a f) as [[|]|e]; cbn [bindr]; split; intros H.
      * split; [|exact H]. destruct HS as [HS _]. destruct (HS eq_refl) as (l0 & -> & HF). econstructor; eassumption.
      * apply H.
      * discriminate.
      * destruct H as [H _]. inversion H as [? ? f' HF HB| |? HO]; subst; cbn [req_name] in *; [|congruence]. rewrite E in HF. injection HF as <-. destruct HS as [_ HS]. apply HS. eauto.
      * discriminate.
      * destruct H as [H _]. inversion H as [? ? f' HF HB| |? HO]; subst; cbn [req_name] in *; [|congruence]. rewrite E in HF. injection HF as <-. destruct HS as [_ HS]. discriminate HS. eauto.
    + cbn [bindr]. split; [discriminate|]. intros [H _]. inversion H; subst; cbn [req_name] in *; congruence.
  - destruct i as [n a|n t]; cbn [is_of req_name bindr] in *.
    + split; [discriminate|]. intros [H _]. inversion H; subst; cbn [req_name] in *; congruence.
    + pose proof (is_instance_spec c t) as HS. destruct (is_instance c t); split; intros H.
      * split; [|exact H]. econstructor; [eassumption|]. apply HS. reflexivity.
      * apply H.
      * discriminate.
      * destruct H as [H _]. inversion H as [|? ? c' HF HB|? HO]; subst; cbn [req_name] in *; [|congruence]. rewrite E in HF. injection HF as <-. apply HS in HB. discriminate.
  - split; intros H; [split; [apply meets_object, E|exact H]|apply H].
  - split; [discriminate|]. intros [H _]. inversion H; subst; cbn [req_name] in *; congruence.
Qed.
(** It raises exactly when it comes to a function requirement that names an ORM object (AttributeError) or a function with a closure that does not start with a function. *)
Theorem C67_raises m interface e : enforce_interface m interface = Err e ->
  exists pre n a rest, interface = pre ++ RFunc n a :: rest /\ Forall (meets m) pre /\
    ((exists c, dget n m = Some (AtDatum c) /\ e = EAttribute) \/
     (exists f x l, dget n m = Some (AtFunction f) /\ pf_closure f = Some (x, l) /\ (forall c, x <> CellFunction c))).
Proof.
  induction interface as [|i l IH]; cbn [enforce_interface]; [discriminate|]. intros H.
  assert (STEP : meets m i -> enforce_interface m l = Err e -> exists pre n a rest, i :: l = pre ++ RFunc n a :: rest /\ Forall (meets m) pre /\
    ((exists c, dget n m = Some (AtDatum c) /\ e = EAttribute) \/ (exists f x l, dget n m = Some (AtFunction f) /\ pf_closure f = Some (x, l) /\ (forall c, x <> CellFunction c)))).
  { intros HM HE. destruct (IH HE) as (pre & n & a & rest & -> & HP & HR). exists (i :: pre), n, a, rest. split; [reflexivity|]. split; [constructor; assumption|exact HR]. }
  destruct (dget (req_name i) m) as [[|f|c|]|] eqn:E; try discriminate.
  - destruct i as [n a|n t]; cbn [is_of req_name] in *; [|discriminate]. pose proof (func_is_of_spec n a f) as HS. destruct (func_is_of n a f) as [[|]|e'] eqn:EF; cbn [bindr] in H; try discriminate.
    + apply STEP; [|exact H]. destruct (proj1 HS eq_refl) as (l0 & -> & HF). econstructor; eassumption.
    + injection H as ->. exists [], n, a, l. split; [reflexivity|]. split; [constructor|]. right. unfold func_is_of, code_of in EF. destruct f as [c0 [[[c1| |] rest]|]]; cbn in EF; try discriminate; eexists _, _, _; (split; [exact E|split; [reflexivity|discriminate]]).
  - destruct i as [n a|n t]; cbn [is_of req_name bindr] in *.
    + injection H as <-. exists [], n, a, l. split; [reflexivity|]. split; [constructor|]. left. eauto.
    + destruct (is_instance c t) eqn:EI; [|discriminate]. apply STEP; [|exact H]. econstructor; [eassumption|]. apply is_instance_spec, EI.
  - apply STEP; [apply meets_object, E|exact H].
Qed.

Lemma meets_func_inv m n l : meets m (RFunc n (ArgTuple l)) -> (exists f, dget n m = Some (AtFunction f) /\ stands_for f n l) \/ dget n m = Some AtObject.
Proof. intros H. inversion H; subst; cbn [req_name] in *; [left; eauto|right; assumption]. Qed.
Lemma meets_var_inv m n t : meets m (RVar n t) -> (exists c, dget n m = Some (AtDatum c) /\ subclass c t) \/ dget n m = Some AtObject.
Proof. intros H. inversion H; subst; cbn [req_name] in *; [left; eauto|right; assumption]. Qed.
Lemma stands_plain n l n' l' : stands_for (mkPyfunc (mkCode n l) None) n' l' -> n = n' /\ l = l'. Proof. intros H. inversion H. auto. Qed.

(** ** Contracts *)
Lemma decl_name d : fst (decl_attr d) = match d with DExport n _ | DOther n => n | DPrivate n _ | DOrm n _ => u "__" ++ n end. Proof. destruct d; reflexivity. Qed.
Lemma module_attrs_get scope ds : NoDup (bound_names ds) -> forall k,
  (forall d, In d ds -> fst (decl_attr d) = k -> dget k (module_attrs scope ds) = Some (snd (decl_attr d))) /\
  (~ In k (bound_names ds) -> dget k (module_attrs scope ds) = dget k scope).
Proof.
  unfold module_attrs. revert scope. induction ds as [|d ds IH]; intros scope ND k; cbn [bound_names map] in *; [split; [intros d []|reflexivity]|].
  inversion ND as [|x xs N1 N2 X]; subst. cbn [fold_left]. destruct (IH (dset (fst (decl_attr d)) (snd (decl_attr d)) scope) N2 k) as [I1 I2]. rewrite <- decl_name in N1.
  split.
  - intros d' [<-|HI] HK; [|apply I1; assumption]. subst k. rewrite I2 by exact N1. apply dget_dset_same.
  - intros HN. rewrite I2 by (intros HI; apply HN; right; exact HI). apply dget_dset_other. intros HK. apply HN. left. rewrite <- decl_name. auto.
Qed.
Lemma bound_in d ds : In d ds -> In (fst (decl_attr d)) (bound_names ds).
Proof. intros H. rewrite decl_name. exact (in_map (fun d => match d with DExport n _ | DOther n => n | DPrivate n _ | DOrm n _ => u "__" ++ n end) ds d H). Qed.
Lemma bound_out k ds : In k (bound_names ds) -> exists d, In d ds /\ fst (decl_attr d) = k.
Proof. unfold bound_names. rewrite in_map_iff. intros (d & E & H). exists d. split; [exact H|]. rewrite decl_name. exact E. Qed.
(** For a contract that binds each name once: what a public function requirement, a private one and a variable requirement mean.  The first and the last alternative of each are what one expects;
    the middle ones are names bound to other objects (constants, imported modules) and names the contract does not bind but the standard library or the environment do. *)
Theorem C67_contract_func scope ds n a : NoDup (bound_names ds) -> startswith n (u "__") = false ->
  (enforce_interface (module_attrs scope ds) [new_Func n (ArgTuple a) false] = Ok true <->
   In (DExport n a) ds \/ In (DOther n) ds \/ (~ In n (bound_names ds) /\ meets scope (RFunc n (ArgTuple a)))).
Proof.
  intros ND HN. rewrite C67_enforce. unfold new_Func. rewrite Forall_cons_iff. destruct (module_attrs_get scope ds ND n) as [G1 G2].
  assert (HB : In n (bound_names ds) \/ ~ In n (bound_names ds)) by (destruct (in_dec (list_eq_dec N.eq_dec) n (bound_names ds)); auto).
  assert (HP : forall x, n <> u "__" ++ x) by (intros x ->; rewrite startswith_app in HN; discriminate).
  split.
  - intros [H _]. destruct HB as [HB|HB].
    + destruct (bound_out _ _ HB) as (d & HI & HK). specialize (G1 d HI HK). destruct d as [m b|m b|m c|m]; cbn [decl_attr fst snd] in *.
      * subst m. inversion H as [? ? f HF HS| |? HO]; subst; cbn [req_name] in *; rewrite G1 in *; [|discriminate]. injection HF as <-. inversion HS; subst. left. exact HI.
      * exfalso. apply (HP m). symmetry. exact HK.
      * exfalso. apply (HP m). symmetry. exact HK.
      * subst m. right. left. exact HI.
    + right. right. split; [exact HB|]. inversion H as [? ? f HF HS| |? HO]; subst; cbn [req_name] in *; rewrite G2 in * by exact HB; [econstructor; eassumption|apply meets_object; exact HO].
  - intros H. split; [|constructor]. destruct H as [HI|[HI|[HB' H]]].
    + specialize (G1 _ HI eq_refl). econstructor; [exact G1|constructor].
    + apply meets_object. exact (G1 _ HI eq_refl).
    + inversion H as [? ? f HF HS| |? HO]; subst; cbn [req_name] in *; [econstructor; [rewrite G2 by exact HB'; exact HF|exact HS]|apply meets_object; cbn [req_name]; rewrite G2 by exact HB'; exact HO].
Qed.
Theorem C67_contract_private scope ds n a : NoDup (bound_names ds) ->
  In (DPrivate n a) ds -> (forall b, enforce_interface (module_attrs scope ds) [new_Func n (ArgTuple b) true] = Ok true <-> b = a) /\
  (forall t, enforce_interface (module_attrs scope ds) [new_Var n t] = Ok false).
Proof.
  intros ND HI. destruct (module_attrs_get scope ds ND (PRIVATE ++ n)) as [G1 _]. specialize (G1 _ HI eq_refl). cbn [decl_attr snd] in G1. split.
  - intros b. rewrite C67_enforce, Forall_cons_iff. unfold new_Func. split.
    + intros [H _]. apply meets_func_inv in H as [(f & HF & HS)|HO]; [|congruence]. rewrite G1 in HF. injection HF as <-. apply stands_plain in HS as [_ HS]. auto.
    + intros ->. split; [|constructor]. econstructor; [exact G1|constructor].
  - intros t. cbn [enforce_interface new_Var req_name]. rewrite G1. reflexivity.
Qed.
Theorem C67_contract_var scope ds n c : NoDup (bound_names ds) -> In (DOrm n c) ds ->
  (forall t, enforce_interface (module_attrs scope ds) [new_Var n t] = Ok true <-> subclass c t) /\
  (forall a, enforce_interface (module_attrs scope ds) [new_Func n a true] = Err EAttribute).
Proof.
  intros ND HI. destruct (module_attrs_get scope ds ND (PRIVATE ++ n)) as [G1 _]. specialize (G1 _ HI eq_refl). cbn [decl_attr snd] in G1. split.
  - intros t. rewrite C67_enforce, Forall_cons_iff. unfold new_Var. split.
    + intros [H _]. apply meets_var_inv in H as [(c' & HF & HS)|HO]; [|congruence]. rewrite G1 in HF. injection HF as <-. exact HS.
    + intros H. split; [|constructor]. econstructor; [exact G1|exact H].
  - intros a. cbn [enforce_interface new_Func req_name]. rewrite G1. reflexivity.
Qed.
(** A token contract, in a scope with the standard library's hashlib and the environment's now *)
Definition std_scope : dict attribute := [(u "hashlib", AtObject); (u "now", AtObject); (u "__export", AtObject)].
Definition token : list decl := [DOrm (u "balances") KH; DOther (u "currency"); DPrivate (u "helper") [u "x"]; DExport (u "transfer") [u "amount"; u "to"]].
(** Not every answer means what it seems to: 'now' and 'hashlib' are functions of every contract for enforce_interface, an imported module is a function of its importer, a list of argument names matches nothing,
    a function requirement for a variable raises, and a ForeignVariable of a contract is not a Variable for a contract (but for the library it is). *)
Theorem C67_refuted :
  enforce_interface (module_attrs std_scope token) [new_Func (u "now") (ArgTuple [u "any"]) false] = Ok true /\
  enforce_interface (module_attrs std_scope token) [new_Func (u "currency") (ArgTuple [u "any"]) false] = Ok true /\
  enforce_interface (module_attrs std_scope token) [new_Func (u "transfer") ArgOther false] = Ok false /\
  enforce_interface (module_attrs std_scope token) [new_Func (u "balances") (ArgTuple []) true] = Err EAttribute /\
  enforce_interface (module_attrs std_scope [DOrm (u "f") KFV]) [new_Var (u "f") KV] = Ok false /\
  enforce_interface (module_attrs std_scope [DOrm (u "f") KFV]) [new_Var (u "f") KVariable] = Ok true.
Proof. repeat split; vm_compute; reflexivity. Qed.
Example C67_example : NoDup (bound_names token) /\ startswith (u "transfer") (u "__") = false /\
  enforce_interface (module_attrs std_scope token) [new_Func (u "transfer") (ArgTuple [u "amount"; u "to"]) false; new_Func (u "helper") (ArgTuple [u "x"]) true; new_Var (u "balances") KH; new_Var (u "balances") KDatum] = Ok true /\
  enforce_interface (module_attrs std_scope token) [new_Func (u "transfer") (ArgTuple [u "to"; u "amount"]) false] = Ok false /\ enforce_interface (module_attrs std_scope token) [new_Var (u "balances") KV] = Ok false.
Proof. split; [vm_compute; repeat constructor; cbn [In]; intuition discriminate|]. repeat split; vm_compute; reflexivity. Qed.
