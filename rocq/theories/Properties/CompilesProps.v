(** * C117: what lint accepts compiles *)
From Verif Require Import Model.Base Model.State Model.Dec Model.Time Model.Value Model.Encoder Model.Hdf5 Model.Runtime Model.Ast Model.Linter Model.Compiler Model.ClientLint.
From Verif Require Import Spec.LintSpec Spec.CompSpec Proofs.BaseFacts Proofs.DriverFacts Proofs.LintFacts Proofs.CompFacts Properties.LintProps Properties.CompProps.
From Coq Require Import Lia.
Local Open Scope string_scope.
Local Open Scope list_scope.

(** every Variable, Hash, ... is assigned to a name (not to an item or attribute of something) *)
Definition targets_are_names (t : ast) : Prop := forall n c kws, In n (nodes t) -> orm_assignment n c kws -> exists x, first_target n x.
(** what is called in an assignment has a name *)
Definition calls_named (t : ast) : Prop := forall n v, In n (nodes t) -> kind_of n = "Assign" -> has_field n "value" v -> exists o, orm_call v = Ok o.

Lemma names_field k ln fs fv : targets_are_names (Node k ln fs) -> In fv fs -> targets_are_names (snd fv).
Proof. intros H I n c kws J. apply H. rewrite nodes_node. right. apply in_flat_map. eauto. Qed.
Lemma names_item l v : targets_are_names (Items l) -> In v l -> targets_are_names v.
Proof. intros H I n c kws J. apply H. rewrite nodes_items. apply in_flat_map. eauto. Qed.
Lemma calls_field k ln fs fv : calls_named (Node k ln fs) -> In fv fs -> calls_named (snd fv).
Proof. intros H I n v J. apply H. rewrite nodes_node. right. apply in_flat_map. eauto. Qed.
Lemma calls_item l v : calls_named (Items l) -> In v l -> calls_named v.
Proof. intros H I n w J. apply H. rewrite nodes_items. apply in_flat_map. eauto. Qed.
Definition runs {A} (c : st comp A) : Prop := forall s, exists a s', c s = (Ok a, s').
Lemma runs_ret {A} (a : A) : runs (ret a). Proof. intros s. exists a, s. reflexivity. Qed.
Lemma runs_bind {A B} (c : st comp A) (k : A -> st comp B) : runs c -> (forall a, runs (k a)) -> runs (bind c k).
Proof. intros Hc Hk s. rewrite bind_eq. destruct (Hc s) as (a & s1 & E). rewrite E. apply Hk. Qed.
Lemma runs_modify f : runs (modify f). Proof. intros s. exists tt, (f s). reflexivity. Qed.
Lemma attr_of n f v : has_field n f v -> attr f n = Ok v.
Proof. unfold has_field, attr. destruct n; try discriminate. intros H. rewrite H. reflexivity. Qed.

Section Runs.
  Variable m : pystr.
  Lemma orm_runs ln ts v tc : python_tree (assign_node ln ts v tc) -> targets_are_names (assign_node ln ts v tc) -> calls_named (assign_node ln ts v tc) -> runs (orm_keywords m (assign_node ln ts v tc)).
  Proof.
    intros HT HN HC s. set (T := assign_node ln ts v tc) in *. assert (IT : In T (nodes T)) by (unfold T, assign_node; rewrite nodes_node; left; reflexivity).
    destruct (HC T v IT eq_refl eq_refl) as (o & EO). pose proof (orm_call_spec ln ts v tc HT) as SP. rewrite EO in SP.
    unfold orm_keywords. rewrite bind_eq. change (attr "value" T) with (Ok v). cbn [lift]. rewrite bind_eq, EO. cbn [lift].
    destruct o as [c|]; [|exists [], s; reflexivity]. destruct SP as (kws & SP). destruct (HN T c kws IT SP) as (x & t & r & FT & FX).
    assert (ET : ts = t :: r) by (injection FT as ->; reflexivity). subst ts.
    destruct SP as (_ & _ & v' & f & FV & _ & _ & _ & _ & FK). injection FV as <-.
    rewrite bind_eq. unfold attrs at 1. rewrite (attr_of _ _ _ FK). cbn [bindr items lift]. rewrite bind_eq. change (attrs "targets" T) with (Ok (t :: r)). cbn [lift]. rewrite bind_eq.
    unfold attr_id. rewrite (attr_of _ _ _ FX). cbn [bindr ident lift]. rewrite bind_eq. cbn [modify]. eexists. eexists. reflexivity.
  Qed.
  Lemma head_runs n ln x a b ds r tc : n = def_node ln x a b ds r tc -> decorated_ok n -> runs (head m n).
  Proof.
    intros E HD s. assert (IT : In n (nodes n)) by (subst n; unfold def_node; rewrite nodes_node; left; reflexivity).
    assert (DD : decorators n ds) by (subst n; split; reflexivity). unfold head. rewrite bind_eq. subst n. set (T := def_node ln x a b ds r tc) in *.
    change (attrs "decorator_list" T) with (Ok ds). cbn [lift]. destruct (HD T ds IT DD) as [->|(d & -> & FD)]; cbn [rev app].
    - rewrite bind_eq. change (attr_id "name" T) with (Ok x). cbn [lift]. rewrite bind_eq. cbn [modify]. eexists. eexists. reflexivity.
    - rewrite bind_eq. assert (EI : exists i, attr_id "id" d = Ok i) by (destruct FD as [FD|FD]; unfold attr_id; rewrite (attr_of _ _ _ FD); cbn [bindr ident]; eauto).
      destruct EI as (i & ->). cbn [lift]. rewrite bind_eq. change (attr "name" T) with (Ok (Ident x)). cbn [lift]. destruct (str_eqb i CONSTRUCT); [|destruct (str_eqb i EXPORT)]; eexists; eexists; reflexivity.
  Qed.
  Lemma cvisit_runs n : python_tree n -> decorated_ok n -> targets_are_names n -> calls_named n -> runs (cvisit m n).
  Proof.
    induction n as [k ln fs IH|l IH|x|c|] using ast_nested_ind; intros HT HD HN HC; try apply runs_ret.
    2: { cbn [cvisit]. apply runs_bind; [|intros; apply runs_ret].
      assert (F : Forall (fun v => runs (cvisit m v)) l).
      { rewrite Forall_forall in *. intros v I. apply (IH v I); [exact (tree_item _ _ HT I)|exact (decorated_item _ _ HD I)|exact (names_item _ _ HN I)|exact (calls_item _ _ HC I)]. }
      clear - F. induction F as [|v l Hv _ IHl]; [apply runs_ret|]. apply runs_bind; [exact Hv|]. intros v'. apply runs_bind; [exact IHl|]. intros r'. apply runs_ret. }
    assert (F : Forall (fun fv => runs (cvisit m (snd fv))) fs).
    { rewrite Forall_forall in *. intros fv I. apply (IH fv I); [exact (tree_field _ _ _ _ HT I)|exact (decorated_field _ _ _ _ HD I)|exact (names_field _ _ _ _ HN I)|exact (calls_field _ _ _ _ HC I)]. }
    clear IH. pose proof (HT (Node k ln fs)) as SH. specialize (SH ltac:(rewrite nodes_node; left; reflexivity)).
    destruct SH as (SN & SC & SF & SA & _ & SI). cbn [kind_of] in SN, SC, SF, SA, SI. cbn [cvisit].
    destruct (String.eqb_spec k "Name") as [->|K1]; [apply runs_ret|]. destruct (String.eqb_spec k "Constant") as [->|K2]; [apply runs_ret|].
    destruct (String.eqb_spec k "FunctionDef") as [->|K3].
    - destruct (SF eq_refl) as (ln' & x & a & b & ds & r & tc & EQ & TC). assert (DS : ds = [] \/ exists d, ds = [d]).
      { destruct (HD (Node "FunctionDef" ln fs) ds) as [->|(d & -> & _)]; [rewrite nodes_node; left; reflexivity|rewrite EQ; split; reflexivity|auto|eauto]. }
      apply runs_bind; [exact (head_runs _ _ _ _ _ _ _ _ EQ HD)|]. intros [nm tail]. apply runs_bind; [|intros; apply runs_ret]. unfold def_node in EQ. injection EQ as _ ->.
      assert (G : forall f v, In (f, v) [("name", Ident x); ("args", a); ("body", b); ("decorator_list", Items ds); ("returns", r); ("type_comment", tc)] -> runs (cvisit m v)) by (intros f v I; rewrite Forall_forall in F; exact (F (f, v) I)).
      cbn [String.eqb Ascii.eqb Bool.eqb].
      apply runs_bind; [apply runs_ret|intros ?]. apply runs_bind; [|intros; apply runs_ret].
      apply runs_bind; [apply (G "args"); cbn; auto 10|intros ?]. apply runs_bind; [|intros; apply runs_ret].
      apply runs_bind; [apply (G "body"); cbn; auto 10|intros ?]. apply runs_bind; [|intros; apply runs_ret].
      apply runs_bind; [destruct DS as [->|(d & ->)]; apply runs_bind; intros; apply runs_ret|intros ?]. apply runs_bind; [|intros; apply runs_ret].
      apply runs_bind; [apply (G "returns"); cbn; auto 10|intros ?]. apply runs_bind; [|intros; apply runs_ret].
      apply runs_bind; [apply (G "type_comment"); cbn; auto 10|intros ?]. apply runs_bind; [apply runs_ret|intros; apply runs_ret].
    - apply runs_bind.
      + destruct (String.eqb_spec k "Assign") as [->|K4]; [|apply runs_ret]. destruct (SA eq_refl) as (ln' & ts & v & tc & EQ & _). rewrite EQ in *. apply orm_runs; assumption.
      + intros kws. apply runs_bind; [|intros; apply runs_ret]. clear - F. induction F as [|[f v] l Hv _ IHl]; [apply runs_ret|]. apply runs_bind; [exact Hv|]. intros v'. apply runs_bind; [exact IHl|]. intros r'. apply runs_ret.
  Qed.
End Runs.
(** an accepted tree was checked at every assignment *)
Lemma accepted_calls P t : python_source t -> accepted P t -> calls_named t.
Proof.
  intros [HT HI HL] HA n v I K F. destruct (acc P t HA) as (sv & s' & A). destruct (acc_node P t HI HA sv s' n A I) as (s1 & s2 & E & _ & _); [rewrite K; discriminate|].
  destruct (HT n I) as (_ & _ & _ & SA & _). destruct (SA K) as (ln & ts & v' & tc & -> & _). injection F as ->.
  unfold check_node in E. apply bind_inv in E. destruct E as (q & s3 & E & _). change (pre P (assign_node ln ts v tc)) with (pre_assign (assign_node ln ts v tc)) in E.
  unfold pre_assign in E. apply bind_inv in E. destruct E as (v1 & s4 & E1 & E). apply lift_inv in E1. destruct E1 as [E1 _]. injection E1 as <-.
  apply bind_inv in E. destruct E as (q1 & s5 & _ & E). apply bind_inv in E. destruct E as (o & s6 & E1 & _). apply lift_inv in E1. destruct E1 as [E1 _]. eauto.
Qed.
Lemma accepted_decorated P t : python_source t -> accepted P t -> decorated_ok t.
Proof. intros [HT HI HL] HA. exact (cl_decorators _ _ _ (accepted_clean P t HI HL HA)). Qed.
Lemma lint_any P t s s2 : lint_check P t s = lint_check P t s2.
Proof. reflexivity. Qed.

(** Full statement: lint answers None for exactly the code that compiles. Proved for code that assigns every Variable,
    Hash, ... to a name.  Whatever was linted or compiled before: *)
Theorem C117_compiles_partial m P t s : python_source t -> targets_are_names t ->
  (exists s1 s1', client_lint P false t s1 = (Ok None, s1')) <-> (exists t' s', parse m P true t s = (Ok t', s')).
Proof.
  intros HS HN. split.
  - intros (s1 & s1' & E). unfold client_lint in E. destruct (lint_check P t (co_linter s1)) as [[[vs|]|e] l] eqn:EL; try discriminate E. clear E.
    assert (HA : accepted P t) by (exists (co_linter s1), l; exact EL). unfold parse. rewrite bind_eq. rewrite (lint_any P t _ (co_linter s1)), EL.
    destruct (cvisit_runs m t (so_shape _ HS) (accepted_decorated P t HS HA) HN (accepted_calls P t HS HA) (set_alerts None (set_linter l s))) as (tr & s2 & EV).
    rewrite bind_eq, EV. rewrite bind_eq. cbn [gets]. pose proof (proj1 (cvisit_silent m t) (set_alerts None (set_linter l s))) as Q. rewrite EV in Q. cbn [snd co_alerts set_alerts] in Q. rewrite Q.
    rewrite bind_eq. cbn [modify]. eexists. eexists. reflexivity.
  - intros (t' & s' & E). apply parse_inv in E. destruct E as ((s0 & s0' & HA) & _). exists (mkComp s0 None [] []), (mkComp s0' None [] []). unfold client_lint. cbn [co_linter]. rewrite HA. reflexivity.
Qed.

(** The same of the client's lint and compile, of one client, whatever it linted and compiled before *)
Theorem C117_client_partial P t s : python_source t -> targets_are_names t ->
  (fst (client_lint P false t s) = Ok None <-> exists t', fst (client_compile P t s) = Ok t').
Proof.
  intros HS HN. pose proof (C117_compiles_partial (u "__main__") P t s HS HN) as [H1 H2]. unfold client_compile. split.
  - intros E. destruct (client_lint P false t s) as [r s'] eqn:EL. cbn [fst] in E. subst r. destruct H1 as (t' & s2 & E); [eauto|]. exists t'. rewrite E. reflexivity.
  - intros (t' & E). destruct (parse (u "__main__") P true t s) as [r s'] eqn:EP. cbn [fst] in E. subst r. destruct H2 as (s1 & s1' & E); [eauto|].
    unfold client_lint in *. rewrite (lint_any P t (co_linter s) (co_linter s1)). destruct (lint_check P t (co_linter s1)) as [[[vs|]|e] l]; try discriminate E. reflexivity.
Qed.

(** Missing: the linter skips a target that is no name, the compiler asks for its id.
    @export def f(): x['a'] = Variable() *)
Definition item_at (z : Z) (x k : string) : ast :=
  Node "Subscript" (Some z) [("value", name_at z x); ("slice", Node "Constant" (Some z) [("value", Const (CStr (u k))); ("kind", Absent)]); ("ctx", Node "Store" None [])].
Definition in_item : ast := module [def_at 2 "f" none_args [assign_at 3 (item_at 3 "x" "a") (call_at 3 (name_at 3 "Variable") [] [])] (export_at 1) Absent].
Theorem C117_refuted : fst (client_lint python false in_item comp0) = Ok None /\ fst (client_compile python in_item comp0) = Err EAttribute /\
  forall m, fst (parse m python true in_item comp0) = Err EAttribute.
Proof. split; [vm_compute; reflexivity|]. split; [vm_compute; reflexivity|]. intros m. vm_compute. reflexivity. Qed.

Lemma lint_faults P t s vs s' : lint_check P t s = (Ok (Some vs), s') -> li_viol s' <> [].
Proof.
  intros E. unfold lint_check in E. apply bind_inv in E. destruct E as (q0 & s3 & E0 & E). injection E0 as _ <-. apply bind_inv in E. destruct E as (q1 & s4 & E1 & E). apply bind_inv in E. destruct E as (q2 & s5 & E2 & E).
  apply bind_inv in E. destruct E as (q3 & s6 & E3 & E). apply bind_inv in E. destruct E as (s7 & s8 & E4 & E). injection E4 as <- <-. destruct (li_success s6) eqn:S6; [discriminate E|]. injection E as <- <-.
  assert (F1 : li_success s4 = false -> li_viol s4 <> []).
  { apply (gr_fault (reset s) s4); [|discriminate]. eapply (mono_step (collect_function_defs t)); [|exact E1]. unfold collect_function_defs. apply mono_foreach. intros n.
    assert (MF : forall f, mono (modify (fun s => set_functions (f s) s))) by (intros f s0; constructor; cbn; auto using incl_refl). 
    apply mono_if; [apply mono_bind; [apply mono_lift|intros x; apply MF]|]. apply mono_if; [|apply mono_ret]. apply mono_bind; [apply mono_lift|]. intros names. apply mono_foreach. intros a. apply mono_bind; [apply mono_lift|]. intros x.
    apply mono_bind; [apply mono_lift|]. intros y. apply MF. }
  rewrite visit_foreach in E2. assert (F2 : li_success s5 = false -> li_viol s5 <> []).
  { apply (gr_fault s4 s5); [|exact F1]. eapply (mono_step (foreach (check_node P) (visited t))); [|exact E2]. apply mono_foreach. intros n. apply mono_check. }
  apply (gr_fault s5 s6); [|exact F2|exact S6]. eapply (mono_step (final_checks P)); [apply mono_final|exact E3].
Qed.
(** What lint answers depends on the source alone and leaves the compiler as it was; with raise_errors it raises for exactly the
    code for which it would have answered with violations. *)
Theorem C117_lint_answers P t s :
  (forall s2 b, fst (client_lint P b t s) = fst (client_lint P b t s2)) /\
  (forall b, co_private (snd (client_lint P b t s)) = co_private s /\ co_orm (snd (client_lint P b t s)) = co_orm s /\ co_alerts (snd (client_lint P b t s)) = co_alerts s) /\
  (forall vs, fst (client_lint P false t s) = Ok (Some vs) -> vs <> [] /\ fst (client_lint P true t s) = Err EException) /\
  (fst (client_lint P false t s) = Ok None <-> fst (client_lint P true t s) = Ok None).
Proof.
  assert (HF : forall vs l, lint_check P t (co_linter s) = (Ok (Some vs), l) -> vs <> []).
  { intros vs l E. pose proof (lint_faults P t (co_linter s) vs l E) as H. destruct (C55 P t [] [] (co_linter s) (co_linter s)) as [_ H2]. destruct (H2 vs l E) as [_ H3].
    intros ->. apply Permutation.Permutation_sym, Permutation.Permutation_nil in H3. exact (H H3). }
  split; [|split; [|split]].
  - intros s2 b. unfold client_lint. rewrite (lint_any P t (co_linter s2) (co_linter s)). destruct (lint_check P t (co_linter s)) as [[[vs|]|e] l]; reflexivity.
  - intros b. unfold client_lint. destruct (lint_check P t (co_linter s)) as [[[vs|]|e] l]; repeat split.
  - intros vs. unfold client_lint. destruct (lint_check P t (co_linter s)) as [[[ws|]|e] l] eqn:E; try discriminate. cbn [fst]. intros Q. injection Q as <-. specialize (HF ws l eq_refl). split; [exact HF|]. destruct ws; [contradiction|reflexivity].
  - unfold client_lint. destruct (lint_check P t (co_linter s)) as [[[ws|]|e] l] eqn:E; cbn [fst]; try tauto. specialize (HF ws l eq_refl). destruct ws; [contradiction|split; discriminate].
Qed.

(** The sample contract of CompProps meets the hypotheses and compiles. *)
Lemma named_targets l : (forall n, In n l -> kind_of n = "Assign" -> exists x, first_target n x) -> forall n c kws, In n l -> orm_assignment n c kws -> exists x, first_target n x.
Proof. intros H n c kws I (K & _). exact (H n I K). Qed.
Example C117_example : python_source sample /\ targets_are_names sample /\ fst (client_lint python false sample comp0) = Ok None /\ is_ok (fst (client_compile python sample comp0)) = true.
Proof.
  split; [exact sample_source|]. split; [|split; vm_compute; reflexivity]. intros n c kws. apply (named_targets (nodes sample)). clear. intros n I K.
  assert (B : forallb (fun n => if is_kind "Assign" n then match attr "targets" n with Ok (Items (t :: _)) => match attr_id "id" t with Ok _ => true | _ => false end | _ => false end else true) (nodes sample) = true) by (vm_compute; reflexivity).
  rewrite forallb_forall in B. specialize (B n I). destruct (kind_cases n _ K) as (ln & fs & ->); [discriminate|]. change (is_kind "Assign" (Node "Assign" ln fs)) with true in B. cbn iota in B.
  destruct (attr "targets" (Node "Assign" ln fs)) as [[| [|t ts] | | |]|] eqn:E; try discriminate B. destruct (attr_id "id" t) as [x|] eqn:E2; [|discriminate B]. apply attr_id_inv in E2. exists x, t, ts. split; [|exact E2].
  unfold attr in E. unfold has_field. cbn [attr]. destruct (field "targets" fs); [injection E as ->; reflexivity|discriminate E].
Qed.
