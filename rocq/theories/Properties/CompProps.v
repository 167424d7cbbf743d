(** * C51, C58 - C60, C73: what the compiler makes of accepted code *)
From Verif Require Import Model.Base Model.State Model.Dec Model.Time Model.Value Model.Encoder Model.Hdf5 Model.Runtime Model.Ast Model.Linter Model.Compiler.
From Verif Require Import Spec.LintSpec Spec.CompSpec Proofs.BaseFacts Proofs.DriverFacts Proofs.LintFacts Proofs.CompFacts Properties.LintProps.
From Coq Require Import Lia.
Local Open Scope string_scope.
Local Open Scope list_scope.

(** ** What a successful parse did *)
(** the visit leaves the findings of the linter alone *)
Definition silent {A} (c : st comp A) : Prop := forall s, co_alerts (snd (c s)) = co_alerts s.
Lemma silent_bind {A B} (c : st comp A) (k : A -> st comp B) : silent c -> (forall a, silent (k a)) -> silent (bind c k).
Proof. intros Hm Hk s. rewrite bind_eq. specialize (Hm s). destruct (c s) as [[a|e] s1]; cbn [snd] in *; [rewrite (Hk a s1); exact Hm|exact Hm]. Qed.
Lemma silent_ret {A} (a : A) : silent (ret a). Proof. intros s. reflexivity. Qed.
Lemma silent_raise {A} e : silent (raise (A:=A) e). Proof. intros s. reflexivity. Qed.
Lemma silent_lift {A} (r : result A) : silent (lift r). Proof. intros s. reflexivity. Qed.
Lemma silent_private f : silent (modify (fun s => set_private (f s) s)). Proof. intros s. reflexivity. Qed.
Lemma silent_orms f : silent (modify (fun s => set_orms (f s) s)). Proof. intros s. reflexivity. Qed.
Lemma silent_if {A} (b : bool) (c c' : st comp A) : silent c -> silent c' -> silent (if b then c else c').
Proof. destruct b; auto. Qed.
Lemma silent_head m n : silent (head m n).
Proof.
  unfold head. apply silent_bind; [apply silent_lift|]. intros ds. destruct (rev ds); (apply silent_bind; [apply silent_lift|]); intros x.
  - apply silent_bind; [apply silent_private|]. intros q. apply silent_ret.
  - apply silent_bind; [apply silent_lift|]. intros q. repeat apply silent_if; apply silent_ret.
Qed.
Lemma silent_orm m n : silent (orm_keywords m n).
Proof.
  unfold orm_keywords. repeat (apply silent_bind; [apply silent_lift|]; intros ?). destruct a0; [|apply silent_ret]. repeat (apply silent_bind; [apply silent_lift|]; intros ?). destruct a1; [apply silent_raise|].
  apply silent_bind; [apply silent_lift|]; intros ?. apply silent_bind; [apply silent_orms|]; intros ?. apply silent_ret.
Qed.
Lemma cvisit_silent m n : silent (cvisit m n) /\ match n with Items l => Forall (fun v => silent (cvisit m v)) l | _ => True end.
Proof.
  induction n as [k ln fs IH|l IH|x|c|] using ast_nested_ind; try (split; [apply silent_ret|exact I]).
  - split; [|exact I]. cbn [cvisit]. repeat first [apply silent_if | apply silent_ret].
    + apply silent_bind; [apply silent_head|]. intros [nm tail]. apply silent_bind; [|intros fs'; apply silent_ret].
      induction IH as [|[f v] r [Hv Hi] _ IHr]; [apply silent_ret|]. cbn [snd] in *. apply silent_bind; [|intros v'; apply silent_bind; [exact IHr|intros r'; apply silent_ret]].
      apply silent_if; [apply silent_ret|]. apply silent_if; [|exact Hv]. destruct v as [k' ln' fs'|l|x|c|]; try apply silent_ret. apply silent_bind; [|intros ds'; apply silent_ret].
      clear Hv IHr. induction Hi as [|d l Hd Hl IHl]; [apply silent_ret|]. destruct l as [|d2 l]; [apply silent_ret|]. apply silent_bind; [exact Hd|]. intros d'. apply silent_bind; [exact IHl|]. intros r'. apply silent_ret.
    + apply silent_bind; [apply silent_if; [apply silent_orm|apply silent_ret]|]. intros kws. apply silent_bind; [|intros fs'; apply silent_ret].
      induction IH as [|[f v] r [Hv Hi] _ IHr]; [apply silent_ret|]. cbn [snd] in *. apply silent_bind; [exact Hv|]. intros v'. apply silent_bind; [exact IHr|]. intros r'. apply silent_ret.
  - assert (F : Forall (fun v => silent (cvisit m v)) l) by (eapply Forall_impl; [|exact IH]; intros v [H _]; exact H). split; [|exact F]. cbn [cvisit]. apply silent_bind; [|intros l'; apply silent_ret].
    induction F as [|v l Hv _ IHl]; [apply silent_ret|]. inversion IH; subst. apply silent_bind; [exact Hv|]. intros v'. apply silent_bind; [apply IHl; assumption|]. intros r'. apply silent_ret.
Qed.
Definition rename_by (s : comp) : pystr -> pystr := fun x => if (str_mem x (co_private s) || str_mem x (co_orm s))%bool then privatize x else x.
Lemma parse_inv m P t s t' s' : parse m P true t s = (Ok t', s') ->
  accepted P t /\ exists l s1 s2, cvisit m t s1 = (Ok l, s2) /\ co_private s1 = co_private s /\ co_orm s1 = co_orm s /\ co_private s' = [] /\ co_orm s' = [] /\ co_alerts s' = None /\ t' = l (rename_by s2).
Proof.
  intros E. unfold parse in E. apply bind_inv in E. destruct E as (q & s1 & E1 & E). apply bind_inv in E. destruct E as (l & s2 & E2 & E). apply bind_inv in E. destruct E as (s3 & s4 & E3 & E). injection E3 as <- <-.
  destruct (lint_check P t (co_linter s)) as [[a|e] lt] eqn:EL; [|discriminate E1]. injection E1 as _ <-.
  destruct (co_alerts s2) eqn:EA; [discriminate E|]. apply bind_inv in E. destruct E as (q' & s5 & E5 & E). injection E5 as _ <-. injection E as <- <-.
  pose proof (proj1 (cvisit_silent m t) (set_alerts a (set_linter lt s))) as Q. rewrite E2 in Q. cbn [snd co_alerts set_alerts] in Q. rewrite EA in Q. subst a.
  split; [exists (co_linter s), lt; exact EL|]. exists l, (set_alerts None (set_linter lt s)), s2. split; [exact E2|]. repeat split. exact EA.
Qed.

(** ** C58 Compilation renames consistently *)
(** Python's own trees *)
Record python_source (t : ast) : Prop := mkSource { so_shape : python_tree t; so_imports : imports_ok t; so_lines : lines_ok t }.
(** A compiler that starts afresh: new, or its last parse succeeded *)
Definition fresh (s : comp) : Prop := co_private s = [] /\ co_orm s = [].
Lemma parse_compiled m P t s t' s' : python_source t -> fresh s -> parse m P true t s = (Ok t', s') -> accepted P t /\ exists R, renaming t R /\ compiled m R t t'.
Proof.
  intros [HT HI HL] [F1 F2] E. apply parse_inv in E. destruct E as (HA & l & s1 & s2 & EV & X1 & X2 & _ & _ & _ & ->). pose proof (accepted_clean P t HI HL HA) as CL. split; [exact HA|].
  destruct (cvisit_ok m t s1 l s2 HT) as [[_ _ N3 N4] C]; [exact (cl_decorators _ _ _ CL)|exact EV|]. rewrite X1, F1 in N3. rewrite X2, F2 in N4.
  exists (rename_by s2). split; [|apply C].
  intros x. unfold rename_by, privatize. split.
  - intros [H|H]; [assert (Q : str_mem x (co_private s2) = true) by (apply str_mem_spec, N3; auto); rewrite Q; reflexivity|].
    assert (Q : str_mem x (co_orm s2) = true) by (apply str_mem_spec, N4; auto). rewrite Q, Bool.orb_true_r. reflexivity.
  - intros H1 H2. destruct (str_mem x (co_private s2)) eqn:Q1; [apply str_mem_spec, N3 in Q1; cbn in Q1; tauto|]. destruct (str_mem x (co_orm s2)) eqn:Q2; [apply str_mem_spec, N4 in Q2; cbn in Q2; tauto|]. reflexivity.
Qed.
(** variables cannot be called __export *)
Lemma orm_not_system P t x : python_source t -> accepted P t -> orm_name t x -> startswith x (u "_") = false.
Proof.
  intros [HT HI HL] HA (n & c & kws & I & (K & _) & t0 & ts & F & FI). pose proof (accepted_clean P t HI HL HA) as CL. destruct (HT n I) as (_ & _ & _ & SA & _). destruct (SA K) as (ln & ts' & v & tc & -> & _). injection F as ->.
  assert (QT : In t0 (nodes t0)) by (destruct t0; try discriminate FI; rewrite nodes_node; left; reflexivity).
  assert (I0 : In t0 (nodes t)). { apply (nodes_trans _ _ _ I). unfold assign_node. rewrite nodes_node. right. apply in_flat_map. exists ("targets", Items (t0 :: ts)). split; [left; reflexivity|]. cbn [snd]. rewrite nodes_items. cbn [flat_map]. apply in_or_app. left. exact QT. }
  destruct (HT t0 I0) as (_ & _ & _ & _ & _ & SI). pose proof (SI _ FI) as KN. destruct (cl_names _ _ _ CL t0 x I0) as [B _]; [left; auto|exact B].
Qed.
(** [compiled] (Spec.CompSpec) is the English sentence, clause by clause.  Missing for the full property: code that has an
    undecorated function called __export, whose exports are then decorated with that function (below). *)
Theorem C58_partial m P t s t' s' : python_source t -> fresh s -> parse m P true t s = (Ok t', s') -> exists R, renaming t R /\ compiled m R t t' /\ (~ private_name t (u "__export") -> R (u "__export") = u "__export").
Proof.
  intros HS HF E. destruct (parse_compiled m P t s t' s' HS HF E) as (HA & R & RN & C). exists R. split; [exact RN|]. split; [exact C|]. intros NE. apply (proj2 (RN (u "__export")) NE).
  intros O. apply (orm_not_system P t _ HS HA) in O. discriminate O.
Qed.
(** the decorator's name is renamed too when the contract has a function of that name: here every export would be decorated with the contract's own function *)
Definition hijack : ast := module [def_at 1 "__export" (args_of [] [arg_at 1 "x" Absent] Absent []) [pass_at 2] [] Absent; def_at 4 "f" none_args [pass_at 5] (export_at 3) Absent].
Definition hijacked : ast := match fst (parse (u "con_x") python true hijack comp0) with Ok t => t | Err _ => Absent end.
Theorem C58_refuted : accepted python hijack /\ fst (parse (u "con_x") python true hijack comp0) = Ok hijacked /\
  exists f d ld ctx args kws, In f (nodes hijacked) /\ has_field f "name" (Ident (u "f")) /\ decorators f [d] /\ d = the_call None (name_of ld (u "____export") ctx) args kws.
Proof.
  split; [apply (fine_ok hijack); vm_compute; reflexivity|]. split; [vm_compute; reflexivity|].
  exists (nth 1 (match hijacked with Node _ _ ((_, Items l) :: _) => l | _ => [] end) Absent), (the_call None (name_of (Some 3%Z) (u "____export") (Node "Load" None [])) (Items [text (u "con_x")]) (Items [])).
  do 4 eexists. split; [vm_compute; auto 30|]. split; [vm_compute; reflexivity|]. split; [split; vm_compute; reflexivity|reflexivity].
Qed.

(** What this says about the compiled tree, node by node *)
Section Compiled.
  Variables (m : pystr) (P : pyenv) (t : ast) (s : comp) (t' : ast) (s' : comp).
  Hypothesis HS : python_source t.
  Hypothesis HF : fresh s.
  Hypothesis HP : parse m P true t s = (Ok t', s').
  (** every function is exported under the module's name, or its name starts with "__" (C51) *)
  Lemma functions_compiled n : In n (nodes t') -> kind_of n = "FunctionDef" -> exists x, has_field n "name" (Ident x) /\
    ((decorators n [] /\ startswith x (u "__") = true) \/
     (exists ld e ctx n0, decorators n [the_call None (name_of ld e ctx) (Items [text m]) (Items [])] /\ In n0 (nodes t) /\ exported n0 = true /\ has_field n0 "name" (Ident x))).
  Proof.
    intros I K. destruct (parse_compiled m P t s t' s' HS HF HP) as (_ & R & RN & C). destruct (compiled_inside m R t t' (so_shape _ HS) C n I) as [(n0 & I0 & C0)|(M & _)]; [|contradiction].
    inversion C0; subst; try discriminate K.
    - exists (u "__" ++ x). split; [reflexivity|]. left. split; [split; reflexivity|]. apply startswith_app.
    - exists (u "____"). split; [reflexivity|]. left. split; [split; reflexivity|reflexivity].
    - exists x. split; [reflexivity|]. right. exists ld, (R (u "__export")), ctx. eexists. split; [split; reflexivity|]. split; [exact I0|]. split; [reflexivity|reflexivity].
    - cbn [kind_of] in K. subst k. exfalso. match goal with H : ~ In _ _ |- _ => apply H end. cbn. auto.
  Qed.
  Lemma no_floats_compiled n ln x k : In n (nodes t') -> n <> constant_node ln (CFloat x) k.
  Proof.
    intros I E. destruct (parse_compiled m P t s t' s' HS HF HP) as (_ & R & RN & C). destruct (compiled_inside m R t t' (so_shape _ HS) C n I) as [(n0 & I0 & C0)|(_ & _ & M)]; [|exact (M _ _ _ E)].
    subst n. inversion C0; subst.
    - match goal with H : forall s, CFloat x <> CFloat s |- _ => exact (H x eq_refl) end.
    - match goal with H : ~ In _ _ |- _ => apply H end. cbn. auto.
  Qed.
  Lemma orm_compiled n c kws : In n (nodes t') -> orm_assignment n c kws -> exists kws0 n0 x, In n0 (nodes t) /\ orm_assignment n0 c kws0 /\ first_target n0 x /\
    exists kws1, kws = kws1 ++ [keyword_text "contract" m; keyword_text "name" x] /\ List.length kws1 = List.length kws0.
  Proof.
    intros I OA. destruct (parse_compiled m P t s t' s' HS HF HP) as (_ & R & RN & C). destruct (compiled_inside m R t t' (so_shape _ HS) C n I) as [(n0 & I0 & C0)|(_ & M & _)]; [|destruct OA; contradiction].
    assert (KA : kind_of n = "Assign") by (destruct OA; assumption). destruct OA as (_ & (y & Y & ->) & v & f & FV & KV & FF & KF & FI & FK).
    assert (RY : forall z, R z = u y -> z = u y).
    { intros z E. destruct (RN z) as [R1 R2]. destruct (pystr_eq_dec (R z) z) as [Q|Q]; [congruence|].
      assert (NN : ~ (~ (private_name t z \/ orm_name t z))) by (intros N; apply Q, R2; tauto).
      exfalso. apply NN. intros H. rewrite (R1 H) in E. clear - E Y. cbn in Y. destruct Y as [<-|[<-|[<-|[<-|[<-|[]]]]]]; discriminate E. }
    inversion C0 as [| | | | | | | | | |ln0 lv f0 args kws0 ts tc c x f' args' kws' ts' OA TG CF CA CK CT|ln0 ts v0 tc ts' v' NO CT CV|k0 ln0 fs0 fs' NK H]; subst; try discriminate KA.
    - injection FV as <-. injection FF as <-. injection FK as <-. exists kws0, (assign_node ln0 ts (the_call lv f0 args (Items kws0)) tc), x. split; [exact I0|].
      assert (c = u y).
      { destruct OA as (_ & _ & v & f & FV & _ & FF & KF0 & FI0 & _). injection FV as <-. injection FF as <-. inversion CF; subst; try discriminate KF0; try (cbn [kind_of] in KF0; subst; match goal with H : ~ In _ _ |- _ => exfalso; apply H; cbn; auto end).
        injection FI0 as ->. injection FI as FI. apply RY. exact FI. }
      subst c. split; [exact OA|]. split; [exact TG|]. exists kws'. split; [reflexivity|]. clear - CK. induction CK; cbn; congruence.
    - exfalso. injection FV as <-. destruct (kind_cases v' _ KV) as (lv & fs & ->); [discriminate|]. inversion CV as [| | | | |ln1 x1 k1| | | | | | |k1 ln1 fs1 fs2 NK H]; subst.
      { injection FF as <-. injection FI as FI. clear - FI Y. cbn in Y. destruct Y as [<-|[<-|[<-|[<-|[<-|[]]]]]]; discriminate FI. }
      assert (IV : In (Node "Call" lv fs1) (nodes t)). { apply (nodes_trans _ _ _ I0). unfold assign_node. rewrite nodes_node. right. apply in_flat_map. exists ("value", Node "Call" lv fs1). split; [right; left; reflexivity|]. cbn [snd]. rewrite nodes_node. left. reflexivity. }
      destruct (so_shape _ HS _ IV) as (_ & _ & _ & _ & SC & _). destruct (SC eq_refl) as (ln2 & f2 & args2 & kws2 & E). injection E as -> ->.
      apply F2_cons in H. destruct H as ([b1 w1] & l1 & -> & [A1 A2] & H). cbn [fst snd] in *. subst b1. change (Ok w1 = Ok f) in FF. injection FF as ->.
      apply (NO (u y) kws2). split; [reflexivity|]. split; [eauto|]. destruct (kind_cases f _ KF) as (lf & ff & ->); [discriminate|].
      inversion A2; subst; [|match goal with H : ~ In _ _ |- _ => exfalso; apply H; cbn; auto end]. exists (the_call ln2 (name_of lf x ctx) args2 (Items kws2)), (name_of lf x ctx).
      split; [reflexivity|]. split; [reflexivity|]. split; [reflexivity|]. split; [reflexivity|]. split; [|reflexivity]. injection FI as FI. rewrite (RY x FI). reflexivity.
    - cbn [kind_of] in KA. subst k0. exfalso. apply NK. cbn. auto.
  Qed.
End Compiled.
(** ** C51 Private functions cannot be called from outside: the compiler's half.

    Every function of compiled code that is not exported has a name starting with "__" (which execute refuses:
    C51_refused in ExecProps). *)
Theorem C51_compiled m P t s t' s' n : python_source t -> fresh s -> parse m P true t s = (Ok t', s') -> In n (nodes t') -> kind_of n = "FunctionDef" ->
  exists x, has_field n "name" (Ident x) /\ (startswith x (u "__") = true \/ exists n0, In n0 (nodes t) /\ exported n0 = true /\ has_field n0 "name" (Ident x)).
Proof.
  intros HS HF HP I K. destruct (functions_compiled m P t s t' s' HS HF HP n I K) as (x & FX & [[_ S]|(ld & e & ctx & n0 & _ & I0 & X & F0)]); exists x; (split; [exact FX|]); [left; exact S|right; eauto].
Qed.
(** C58, further clauses, for nodes of the compiled tree *)
Theorem C58_exports m P t s t' s' n : python_source t -> fresh s -> parse m P true t s = (Ok t', s') -> In n (nodes t') -> kind_of n = "FunctionDef" ->
  decorators n [] \/ exists ld e ctx, decorators n [the_call None (name_of ld e ctx) (Items [text m]) (Items [])].
Proof.
  intros HS HF HP I K. destruct (functions_compiled m P t s t' s' HS HF HP n I K) as (x & FX & [[D S]|(ld & e & ctx & n0 & D & _)]); [left; exact D|right; eauto].
Qed.
Theorem C58_no_floats m P t s t' s' ln x k : python_source t -> fresh s -> parse m P true t s = (Ok t', s') -> ~ In (constant_node ln (CFloat x) k) (nodes t').
Proof. intros HS HF HP I. exact (no_floats_compiled m P t s t' s' HS HF HP _ ln x k I eq_refl). Qed.
Theorem C58_orm m P t s t' s' n c kws : python_source t -> fresh s -> parse m P true t s = (Ok t', s') -> In n (nodes t') -> orm_assignment n c kws ->
  exists x kws1, orm_name t x /\ kws = kws1 ++ [keyword_text "contract" m; keyword_text "name" x].
Proof.
  intros HS HF HP I OA. destruct (orm_compiled m P t s t' s' HS HF HP n c kws I OA) as (kws0 & n0 & x & I0 & O0 & F0 & kws1 & -> & _). exists x, kws1. split; [exists n0, c, kws0; auto|reflexivity].
Qed.
(** A contract to compile: v = Variable(); def helper(x): return 1.5; @construct def seed(): pass; @export def f(a: int): helper(v) *)
Definition sample : ast := module [assign_at 1 (stored_at 1 "v") (call_at 1 (name_at 1 "Variable") [] []);
  def_at 2 "helper" (args_of [] [arg_at 2 "x" Absent] Absent []) [Node "Return" (Some 3%Z) [("value", Node "Constant" (Some 3%Z) [("value", Const (CFloat (u "1.5"))); ("kind", Absent)])]] [] Absent;
  def_at 5 "seed" none_args [pass_at 6] [name_at 4 "construct"] Absent;
  def_at 8 "f" (args_of [] [arg_at 8 "a" (name_at 8 "int")] Absent []) [Node "Expr" (Some 9%Z) [("value", call_at 9 (name_at 9 "helper") [name_at 9 "v"] [])]] (export_at 7) Absent].
Definition sample' : ast := module [assign_at 1 (stored_at 1 "__v") (call_at 1 (name_at 1 "Variable") [] [keyword_text "contract" (u "con_s"); keyword_text "name" (u "v")]);
  def_at 2 "__helper" (args_of [] [arg_at 2 "x" Absent] Absent []) [Node "Return" (Some 3%Z) [("value", decimal_call (u "1.5"))]] [] Absent;
  def_at 5 "____" none_args [pass_at 6] [] Absent;
  def_at 8 "f" (args_of [] [arg_at 8 "a" (name_at 8 "int")] Absent []) [Node "Expr" (Some 9%Z) [("value", call_at 9 (name_at 9 "__helper") [name_at 9 "__v"] [])]]
    [the_call None (name_at 7 "__export") (Items [text (u "con_s")]) (Items [])] Absent].
Ltac shapes := let n := fresh in let I := fresh in intros n I; cbn in I; repeat (destruct I as [<-|I]); try (destruct I); (split; [|split; [|split; [|split; [|split]]]]); cbn [kind_of]; try discriminate;
  try (intros _; repeat eexists; try reflexivity; first [left; reflexivity|right; eexists; reflexivity|reflexivity]); try (intros ? F; first [discriminate F|reflexivity]).
Lemma sample_source : python_source sample.
Proof. constructor; [shapes|apply imports_okb_ok; vm_compute; reflexivity|apply lines_okb_ok; vm_compute; reflexivity]. Qed.
Definition sample_after : comp := snd (parse (u "con_s") python true sample comp0).
Example C58_sample : fresh comp0 /\ parse (u "con_s") python true sample comp0 = (Ok sample', sample_after) /\ ~ private_name sample (u "__export").
Proof.
  split; [split; reflexivity|]. split; [vm_compute; reflexivity|]. intros (n & I & D & F). cbn in I. repeat (destruct I as [<-|I]); try (destruct I); try (destruct D as [D _]; discriminate D); try (destruct D as [_ D]; discriminate D); discriminate F.
Qed.

(** ** C59 Compilation does not change which variable a name means *)
(** arguments keep their names in the compiled tree *)
Lemma compiled_field m R a a' x : compiled m R a a' -> (has_field a "arg" (Ident x) <-> has_field a' "arg" (Ident x)).
Proof.
  intros C. inversion C as [| | | | | | | | | | | |k ln fs fs' NK H]; subst; try (split; intros F; discriminate F). unfold has_field, attr. clear C NK.
  induction H as [|[a1 a2] [b1 b2] l l' [A1 A2] _ IH]; [reflexivity|]. cbn [fst snd] in *. subst b1. cbn [field]. destruct ("arg" =? a1); [|apply IH].
  split; intros E; injection E as ->; inversion A2; subst; reflexivity.
Qed.
Lemma compiled_args m R n n' l : kind_of n = "FunctionDef" -> (forall a, has_field n "args" a -> kind_of a = "arguments") -> compiled m R n n' -> has_args n l -> exists l', has_args n' l' /\ Forall2 (compiled m R) l l'.
Proof.
  intros K KA C (a & FA & FL). specialize (KA a FA).
  assert (Q : forall a', compiled m R a a' -> exists l', has_field a' "args" (Items l') /\ Forall2 (compiled m R) l l').
  { intros a' CA. destruct (kind_cases a _ KA) as (ln & fs & ->); [discriminate|]. inversion CA as [| | | | | | | | | | | |k0 ln0 fs0 fs' NK H]; subst. unfold has_field, attr in *. clear CA NK C FA.
    induction H as [|[a1 a2] [b1 b2] r r' [A1 A2] _ IH]; [discriminate FL|]. cbn [fst snd] in *. subst b1. cbn [field] in *. destruct ("args" =? a1); [|apply IH; [reflexivity|exact FL]].
    injection FL as ->. inversion A2; subst. eauto. }
  inversion C; subst; try discriminate K.
  - injection FA as ->. destruct (Q a') as (l' & F & G); [assumption|]. exists l'. split; [exists a'; split; [reflexivity|exact F]|exact G].
  - injection FA as ->. destruct (Q a') as (l' & F & G); [assumption|]. exists l'. split; [exists a'; split; [reflexivity|exact F]|exact G].
  - injection FA as ->. destruct (Q a') as (l' & F & G); [assumption|]. exists l'. split; [exists a'; split; [reflexivity|exact F]|exact G].
  - cbn [kind_of] in K. subst. exfalso. match goal with H : ~ In _ _ |- _ => apply H end. cbn. auto.
Qed.
(** An argument (not keyword-only, position-only or starred) that is not called like an undecorated function: its name is
    not renamed, so it is still the argument's, which is not renamed either.  Missing: arguments called like an undecorated
    function (below), and keyword-only, position-only and starred ones called like a variable. *)
Theorem C59_not_orm_partial m P t s t' s' : whole (py_ord P) -> whole (py_ord_types P) -> python_source t -> fresh s -> parse m P true t s = (Ok t', s') ->
  exists R, renaming t R /\ compiled m R t t' /\
  forall n l, In n (nodes t) -> kind_of n = "FunctionDef" -> (forall a, has_field n "args" a -> kind_of a = "arguments") -> has_args n l ->
    (forall n', compiled m R n n' -> exists l', has_args n' l' /\ Forall2 (fun a a' => forall x, has_field a "arg" (Ident x) <-> has_field a' "arg" (Ident x)) l l') /\
    forall a x, In a l -> has_field a "arg" (Ident x) -> ~ private_name t x -> R x = x.
Proof.
  intros W1 W2 HS HF HP. destruct (parse_compiled m P t s t' s' HS HF HP) as (HA & R & RN & C). exists R. split; [exact RN|]. split; [exact C|]. intros n l I K KA HL. split.
  - intros n' Cn. destruct (compiled_args m R n n' l K KA Cn HL) as (l' & F & G). exists l'. split; [exact F|]. eapply F2_impl; [|exact G]. intros a a' Ca x. exact (compiled_field m R a a' x Ca).
  - intros a x Ia Fa NP. apply (proj2 (RN x) NP). intros (d & c & kws & Id & OA & FT).
    destruct HS as [HT HI HLn]. destruct (accepted_args P t HI HLn HA n l W1 W2 I K HL a Ia) as [Q _]. exact (Q x Fa d c kws Id OA FT).
Qed.
(** def helper(): pass; @export def f(helper: int): return helper *)
Definition shadow : ast := module [def_at 1 "helper" none_args [pass_at 2] [] Absent;
  def_at 4 "f" (args_of [] [arg_at 4 "helper" (name_at 4 "int")] Absent []) [Node "Return" (Some 5%Z) [("value", name_at 5 "helper")]] (export_at 3) Absent].
Definition shadow' : ast := match fst (parse (u "con_x") python true shadow comp0) with Ok t => t | Err _ => Absent end.
Definition second (t : ast) : ast := nth 1 (match t with Node _ _ ((_, Items l) :: _) => l | _ => [] end) Absent.
(** the compiled f still has the argument helper, and returns the function __helper *)
Theorem C59_refuted : accepted python shadow /\ fst (parse (u "con_x") python true shadow comp0) = Ok shadow' /\
  In (second shadow') (nodes shadow') /\ has_field (second shadow') "name" (Ident (u "f")) /\
  (exists a, has_args (second shadow') [a] /\ has_field a "arg" (Ident (u "helper"))) /\
  has_field (second shadow') "body" (Items [Node "Return" (Some 5%Z) [("value", name_at 5 "__helper")]]).
Proof.
  split; [apply (fine_ok shadow); vm_compute; reflexivity|]. split; [vm_compute; reflexivity|]. split; [vm_compute; auto 20|]. split; [vm_compute; reflexivity|].
  split; [exists (arg_at 4 "helper" (name_at 4 "int")); split; [eexists; split; vm_compute; reflexivity|reflexivity]|vm_compute; reflexivity].
Qed.

(** ** C73 Compilation does not depend on what was compiled before *)
(** With a fresh compiler the result is a function of the source, and a successful parse leaves it fresh.
    Missing: after a parse that raised (below). *)
Theorem C73_fresh_partial m P t s s2 : fresh s -> fresh s2 -> fst (parse m P true t s) = fst (parse m P true t s2) /\
  forall t' s', parse m P true t s = (Ok t', s') -> fresh s' /\ co_alerts s' = None.
Proof.
  intros [A B] [C D]. split.
  - unfold parse. rewrite !bind_eq. change (lint_check P t (co_linter s2)) with (lint_check P t (co_linter s)).
    destruct (lint_check P t (co_linter s)) as [[a|e] lt]; [|reflexivity].
    assert (E : set_alerts a (set_linter lt s) = set_alerts a (set_linter lt s2)); [|rewrite E; reflexivity]. unfold set_alerts, set_linter. cbn. congruence.
  - intros t' s' E. apply parse_inv in E. destruct E as (_ & l & s1 & s3 & _ & _ & _ & X & Y & Z & _). split; [split; assumption|exact Z].
Qed.
(** first: def helper(): pass (rejected: nothing is exported); second: @export def f(): return helper *)
Definition leaky : ast := module [def_at 1 "helper" none_args [pass_at 2] [] Absent].
Definition victim : ast := module [def_at 2 "f" none_args [Node "Return" (Some 3%Z) [("value", name_at 3 "helper")]] (export_at 1) Absent].
Definition after_leak : comp := snd (parse (u "con_a") python true leaky comp0).
Theorem C73_refuted : fst (parse (u "con_a") python true leaky comp0) = Err EException /\
  fst (parse (u "con_b") python true victim after_leak) <> fst (parse (u "con_b") python true victim comp0) /\
  (exists t', fst (parse (u "con_b") python true victim comp0) = Ok t') /\ (exists t', fst (parse (u "con_b") python true victim after_leak) = Ok t' /\ In (name_at 3 "__helper") (nodes t')) /\
  fst (parse (u "con_b") python false victim after_leak) = Err EException.
Proof.
  split; [vm_compute; reflexivity|]. split; [vm_compute; discriminate|]. split; [|split].
  - exists (match fst (parse (u "con_b") python true victim comp0) with Ok t => t | Err _ => Absent end). vm_compute. reflexivity.
  - exists (match fst (parse (u "con_b") python true victim after_leak) with Ok t => t | Err _ => Absent end). split; [vm_compute; reflexivity|vm_compute; auto 20].
  - vm_compute. reflexivity.
Qed.

(** ** C32 A contract can only write its own storage: refuted *)
Definition thief' : ast := match fst (parse (u "con_thief") python true thief comp0) with Ok t => t | Err _ => Absent end.
(** the call that makes a hash of another contract is accepted, and is the same in the compiled code *)
Theorem C32_refuted : accepted python thief /\ fst (parse (u "con_thief") python true thief comp0) = Ok thief' /\ In other_hash (nodes thief').
Proof. split; [apply (fine_ok thief); vm_compute; reflexivity|]. split; [vm_compute; reflexivity|vm_compute; auto 20]. Qed.

(** ** C88 Storage is declared under its own name *)
(** what is declared is assigned to names, not to a tuple of them, the classes Hash, Variable and LogEvent are not given
    other names by an assignment, and in the compiled code the object is called like the first target (C58_orm).
    Missing: declarations that are not assignments of this form, below. *)
Theorem C88_declared_partial P t d c kws : imports_ok t -> accepted P t -> In d (nodes t) -> orm_assignment d c kws ->
  exists x xs, has_field d "targets" (Items (x :: xs)) /\ forall y, In y (x :: xs) -> kind_of y <> "Tuple".
Proof. intros HI HA. apply (accepted_targets P t HI HA). Qed.
Theorem C88_no_alias_partial P t d v x : imports_ok t -> accepted P t -> In d (nodes t) -> kind_of d = "Assign" -> has_field d "value" v -> kind_of v = "Name" -> has_field v "id" (Ident x) ->
  x <> u "Hash" /\ x <> u "Variable" /\ x <> u "LogEvent".
Proof. intros HI HA. apply (accepted_alias P t HI HA). Qed.
Example C88_token : exists d, In d (nodes token) /\ orm_assignment d (u "Hash") [] /\ has_field d "targets" (Items [stored_at 1 "balances"]).
Proof.
  exists (assign_at 1 (stored_at 1 "balances") (call_at 1 (name_at 1 "Hash") [] [])). split; [right; left; reflexivity|]. split; [|reflexivity].
  split; [reflexivity|]. split; [exists "Hash"; split; [cbn; auto|reflexivity]|]. exists (call_at 1 (name_at 1 "Hash") [] []), (name_at 1 "Hash"). repeat split; reflexivity.
Qed.
(** (a, b) = Variable() is refused, and h = Hash is *)
Definition tuple_at (z : Z) (l : list ast) : ast := Node "Tuple" (Some z) [("elts", Items l); ("ctx", Node "Store" None [])].
Definition some_export : ast := def_at 9 "f" none_args [pass_at 10] (export_at 8) Absent.
Example C88_refused : accepts python (module [assign_at 1 (tuple_at 1 [stored_at 1 "a"; stored_at 1 "b"]) (call_at 1 (name_at 1 "Variable") [] []); some_export]) = false /\
  accepts python (module [assign_at 1 (stored_at 1 "h") (name_at 1 "Hash"); some_export]) = false.
Proof. split; vm_compute; reflexivity. Qed.
(** x: Any = Hash() is accepted, and compiled without a contract and a name *)
Definition ann_assign_at (z : Z) (x : ast) (an v : ast) : ast := Node "AnnAssign" (Some z) [("target", x); ("annotation", an); ("value", v); ("simple", Const (CInt 1))].
Definition bare_hash : ast := call_at 1 (name_at 1 "Hash") [] [].
Definition annotated_hash : ast := module [ann_assign_at 1 (stored_at 1 "x") (name_at 1 "Any") bare_hash; some_export].
Definition annotated_hash' : ast := match fst (parse (u "con_x") python true annotated_hash comp0) with Ok t => t | Err _ => Absent end.
Theorem C88_refuted : accepted python annotated_hash /\ fst (parse (u "con_x") python true annotated_hash comp0) = Ok annotated_hash' /\ In bare_hash (nodes annotated_hash').
Proof. split; [apply (fine_ok annotated_hash); vm_compute; reflexivity|]. split; [vm_compute; reflexivity|vm_compute; auto 20]. Qed.
(** h = ForeignHash is accepted too *)
Definition foreign_alias : ast := module [assign_at 1 (stored_at 1 "h") (name_at 1 "ForeignHash"); some_export].
Theorem C88_alias_refuted : accepted python foreign_alias.
Proof. apply (fine_ok foreign_alias). vm_compute. reflexivity. Qed.
(** a = b = Variable(): the two names are one object, called a *)
Definition chained : ast := module [Node "Assign" (Some 1%Z) [("targets", Items [stored_at 1 "a"; stored_at 1 "b"]); ("value", call_at 1 (name_at 1 "Variable") [] []); ("type_comment", Absent)]; some_export].
Theorem C88_chain_refuted : accepted python chained /\ exists t', fst (parse (u "con_x") python true chained comp0) = Ok t' /\
  In (Node "Assign" (Some 1%Z) [("targets", Items [stored_at 1 "__a"; stored_at 1 "b"]); ("value", call_at 1 (name_at 1 "Variable") [] [keyword_text "contract" (u "con_x"); keyword_text "name" (u "a")]); ("type_comment", Absent)]) (nodes t').
Proof.
  split; [apply (fine_ok chained); vm_compute; reflexivity|]. exists (match fst (parse (u "con_x") python true chained comp0) with Ok t => t | Err _ => Absent end). split; [vm_compute; reflexivity|vm_compute; auto 20].
Qed.
