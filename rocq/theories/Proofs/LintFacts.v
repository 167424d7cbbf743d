(** * The linter as one pass over the nodes of the tree *)
From Verif Require Import Model.Base Model.State Model.Dec Model.Time Model.Value Model.Encoder Model.Hdf5 Model.Runtime Model.Ast Model.Linter Model.Compiler.
From Verif Require Import Spec.LintSpec Proofs.BaseFacts Proofs.DriverFacts.
From Coq Require Import Lia.
Local Open Scope string_scope.
Local Open Scope list_scope.

(** Nested induction *)
Section ast_ind.
  Variable Q : ast -> Prop.
  Hypothesis H_node : forall k ln fs, Forall (fun fv => Q (snd fv)) fs -> Q (Node k ln fs).
  Hypothesis H_items : forall l, Forall Q l -> Q (Items l).
  Hypothesis H_ident : forall s, Q (Ident s).
  Hypothesis H_const : forall c, Q (Const c).
  Hypothesis H_absent : Q Absent.
  Fixpoint ast_nested_ind (n : ast) : Q n :=
    match n with
    | Node k ln fs => H_node k ln fs ((fix go fs : Forall (fun fv => Q (snd fv)) fs := match fs with [] => Forall_nil _ | fv :: r => Forall_cons _ (ast_nested_ind (snd fv)) (go r) end) fs)
    | Items l => H_items l ((fix go l : Forall Q l := match l with [] => Forall_nil _ | v :: r => Forall_cons _ (ast_nested_ind v) (go r) end) l)
    | Ident s => H_ident s
    | Const c => H_const c
    | Absent => H_absent
    end.
End ast_ind.

Lemma nodes_node k ln fs : nodes (Node k ln fs) = Node k ln fs :: flat_map (fun fv => nodes (snd fv)) fs.
Proof. cbn [nodes]. f_equal. induction fs as [|[f v] r IH]; [reflexivity|]. cbn. f_equal. exact IH. Qed.
Lemma nodes_items l : nodes (Items l) = flat_map nodes l.
Proof. induction l as [|v r IH]; [reflexivity|]. cbn [nodes flat_map]. f_equal. Qed.

Section Visit.
  Variable P : pyenv.
  (** what the visit of one node does before its children *)
  Definition check_node (n : ast) : st lint unit := pre P n;; if kind_in ["Import"; "ImportFrom"] n then ret tt else illegal_type n.
  (** the nodes the linter visits *)
  Fixpoint visited (n : ast) : list ast :=
    match n with
    | Node _ _ fs => n :: if kind_in ["Import"; "ImportFrom"] n then [] else (fix go fs := match fs with [] => [] | (_, v) :: r => visited v ++ go r end) fs
    | Items l => (fix go l := match l with [] => [] | v :: r => visited v ++ go r end) l
    | _ => []
    end.
  Lemma foreach_app {S A} (f : A -> st S unit) l l' s : foreach f (l ++ l') s = (foreach f l;; foreach f l') s.
  Proof.
    revert s. induction l as [|x l IH]; intros s; [reflexivity|]. cbn [app foreach]. rewrite (bind_eq (f x;; foreach f l)), !(bind_eq (f x)). destruct (f x s) as [[[]|e] s1]; [|reflexivity]. rewrite IH, bind_eq. reflexivity.
  Qed.
  Lemma visit_foreach n : forall s, visit P n s = foreach check_node (visited n) s.
  Proof.
    induction n as [k ln fs IH|l IH|x|c|] using ast_nested_ind; intros s; try reflexivity.
    - cbn [visit visited foreach]. rewrite (bind_eq (check_node _)). unfold check_node at 1. rewrite !bind_eq. destruct (pre P (Node k ln fs) s) as [[[]|e] s1]; [|reflexivity].
      destruct (kind_in ["Import"; "ImportFrom"] (Node k ln fs)); [reflexivity|]. rewrite bind_eq.
      destruct (illegal_type (Node k ln fs) s1) as [[[]|e] s2]; [|reflexivity].
      revert s2. induction IH as [|[f v] r Hv _ IHr]; intros s2; [reflexivity|]. rewrite foreach_app, !bind_eq, Hv.
      cbn [snd]. destruct (foreach check_node (visited v) s2) as [[[]|e] s3]; [|reflexivity]. apply IHr.
    - cbn [visit visited]. revert s. induction IH as [|v r Hv _ IHr]; intros s; [reflexivity|]. rewrite foreach_app, !bind_eq, Hv.
      destruct (foreach check_node (visited v) s) as [[[]|e] s3]; [|reflexivity]. apply IHr.
  Qed.
End Visit.

(** ** Computations only add findings *)
Record grow (s s' : lint) : Prop := mkGrow {
  gr_success : li_success s' = true -> li_success s = true;
  gr_export : li_export s = true -> li_export s' = true;
  gr_ctor : li_ctor s = true -> li_ctor s' = true;
  gr_orm : incl (li_orm s) (li_orm s');
  gr_args : incl (li_args s) (li_args s');
  gr_types : incl (li_types s) (li_types s');
  gr_returns : incl (li_returns s) (li_returns s');
  gr_fault : (li_success s = false -> li_viol s <> []) -> li_success s' = false -> li_viol s' <> [] }.
Definition mono {A} (m : st lint A) : Prop := forall s, grow s (snd (m s)).
Lemma grow_refl s : grow s s.
Proof. constructor; auto using incl_refl. Qed.
Lemma grow_trans a b c : grow a b -> grow b c -> grow a c.
Proof. intros [A1 A2 A3 A4 A5 A6 A7 A8] [B1 B2 B3 B4 B5 B6 B7 B8]. constructor; eauto using incl_tran. Qed.
Lemma mono_ret {A} (a : A) : mono (ret a). Proof. intros s. apply grow_refl. Qed.
Lemma mono_raise {A} e : mono (raise (A:=A) e). Proof. intros s. apply grow_refl. Qed.
Lemma mono_lift {A} (r : result A) : mono (lift r). Proof. intros s. apply grow_refl. Qed.
Lemma mono_gets {A} (f : lint -> A) : mono (gets f). Proof. intros s. apply grow_refl. Qed.
Lemma mono_bind {A B} (m : st lint A) (k : A -> st lint B) : mono m -> (forall a, mono (k a)) -> mono (bind m k).
Proof. intros Hm Hk s. rewrite bind_eq. specialize (Hm s). destruct (m s) as [[a|e] s1]; [exact (grow_trans _ _ _ Hm (Hk a s1))|exact Hm]. Qed.
Lemma mono_foreach {A} (f : A -> st lint unit) l : (forall x, mono (f x)) -> mono (foreach f l).
Proof. intros H. induction l; [apply mono_ret|]. apply mono_bind; auto. Qed.
Lemma mono_mapm {A B} (f : A -> st lint B) l : (forall x, mono (f x)) -> mono (mapm f l).
Proof. intros H. induction l; [apply mono_ret|]. apply mono_bind; auto. intros y. apply mono_bind; auto using mono_ret. Qed.
Lemma mono_if {A} (b : bool) (m m' : st lint A) : mono m -> mono m' -> mono (if b then m else m').
Proof. destruct b; auto. Qed.
Lemma mono_violate_at z i : mono (violate_at z i).
Proof. intros s. constructor; cbn; auto using incl_refl; [discriminate|]. intros _ _. destruct (li_viol s); discriminate. Qed.
Lemma mono_violate n i : mono (violate n i).
Proof. apply mono_bind; [apply mono_lift|intros z; apply mono_violate_at]. Qed.
Lemma add_to_incl {A} (eqb : A -> A -> bool) x l : incl l (add_to eqb x l).
Proof. unfold add_to. destruct existsb; [apply incl_refl|apply incl_appl, incl_refl]. Qed.
Lemma add_to_In {A} (eqb : A -> A -> bool) x l : (forall y, eqb x y = true -> x = y) -> In x (add_to eqb x l).
Proof.
  intros H. unfold add_to. destruct existsb eqn:E; [|apply in_or_app; right; left; reflexivity].
  apply existsb_exists in E. destruct E as (y & I & E). rewrite (H y E). exact I.
Qed.
Lemma mono_export : mono (modify (set_export true)).
Proof. intros s. constructor; cbn; auto using incl_refl. Qed.
Lemma mono_ctor : mono (modify (set_ctor true)).
Proof. intros s. constructor; cbn; auto using incl_refl. Qed.
Lemma mono_orm x : mono (modify (fun s => set_orm (add_to str_eqb x (li_orm s)) s)).
Proof. intros s. constructor; cbn; auto using incl_refl, add_to_incl. Qed.
Lemma mono_args x : mono (modify (fun s => set_args (add_to arg_eqb x (li_args s)) s)).
Proof. intros s. constructor; cbn; auto using incl_refl, add_to_incl. Qed.
Lemma mono_types x z : mono (add_type x z).
Proof. intros s. constructor; cbn; auto using incl_refl, add_to_incl. Qed.
Lemma mono_returns x : mono (modify (fun s => set_returns (add_to type_eqb x (li_returns s)) s)).
Proof. intros s. constructor; cbn; auto using incl_refl, add_to_incl. Qed.
Ltac mono := repeat first [apply mono_ret | apply mono_raise | apply mono_lift | apply mono_gets | apply mono_violate | apply mono_violate_at | apply mono_export | apply mono_ctor | apply mono_orm
  | apply mono_args | apply mono_types | apply mono_returns | apply mono_if | apply mono_foreach; intros ? | apply mono_mapm; intros ? | apply mono_bind; [|intros ?]
  | match goal with |- mono (match ?x with _ => _ end) => destruct x end].
Section Mono.
  Variable P : pyenv.
  Lemma mono_closures n : mono (no_closures n).
  Proof.
    intros s. unfold no_closures. set (m := let! body := lift (attrs "body" n) in foreach (fun i => if is_kind "FunctionDef" i then violate n 18 else ret tt) body).
    assert (H : mono m) by (unfold m; mono). specialize (H s). destruct (m s) as [r s']. exact H.
  Qed.
  Lemma mono_sysvar v n : mono (not_system_variable v n). Proof. unfold not_system_variable. mono. Qed.
  Lemma mono_decorator n d : mono (decorator n d). Proof. unfold decorator. mono. Qed.
  Lemma mono_argument n b a : mono (argument n b a). Proof. unfold argument. mono. Qed.
  Lemma mono_imports n : mono (no_nested_imports n). Proof. unfold no_nested_imports. mono. Qed.
  Lemma mono_function n : mono (pre_function n).
  Proof. unfold pre_function. repeat first [apply mono_imports | apply mono_closures | apply mono_decorator | apply mono_argument | progress mono]. Qed.
  Lemma mono_assign n : mono (pre_assign n). Proof. unfold pre_assign. mono. Qed.
  Lemma mono_name n : mono (pre_name P n). Proof. unfold pre_name. repeat first [apply mono_sysvar | progress mono]. Qed.
  Lemma mono_attribute n : mono (pre_attribute n). Proof. unfold pre_attribute. repeat first [apply mono_sysvar | progress mono]. Qed.
  Lemma mono_import n : mono (pre_import P n). Proof. unfold pre_import. mono. Qed.
  Lemma mono_call n : mono (pre_call P n). Proof. unfold pre_call. mono. Qed.
  Lemma mono_pre n : mono (pre P n).
  Proof. destruct n; try apply mono_ret. unfold pre. repeat first [apply mono_if | apply mono_name | apply mono_attribute | apply mono_import | apply mono_assign | apply mono_call | apply mono_function | progress mono]. Qed.
  Lemma mono_check n : mono (check_node P n).
  Proof. unfold check_node, illegal_type. apply mono_bind; [apply mono_pre|intros ?; mono]. Qed.
  Lemma mono_final : mono (final_checks P).
  Proof. unfold final_checks, annotation_types, check_return_types. mono. Qed.
End Mono.

(** ** Inversion *)
Lemma bind_inv {S A B} (m : st S A) (k : A -> st S B) s b s' : bind m k s = (Ok b, s') -> exists a s1, m s = (Ok a, s1) /\ k a s1 = (Ok b, s').
Proof. rewrite bind_eq. destruct (m s) as [[a|e] s1]; [eauto|discriminate]. Qed.
Lemma lift_inv {S A} (r : result A) (s s' : S) a : lift r s = (Ok a, s') -> r = Ok a /\ s' = s.
Proof. unfold lift. intros E. injection E as -> ->. auto. Qed.
Lemma violate_inv n i s s' r : violate n i s = (Ok r, s') -> li_success s' = false.
Proof. unfold violate. intros E. apply bind_inv in E. destruct E as (z & s1 & _ & E). injection E as _ <-. reflexivity. Qed.
Lemma clean_if (b : bool) n i s s' r : (if b then violate n i else ret tt) s = (Ok r, s') -> li_success s' = true -> b = false /\ s' = s.
Proof. destruct b; intros E H; [apply violate_inv in E; congruence|]. injection E as _ <-. auto. Qed.
Lemma clean_if' (b : bool) n i s s' r : (if b then ret tt else violate n i) s = (Ok r, s') -> li_success s' = true -> b = true /\ s' = s.
Proof. destruct b; intros E H; [|apply violate_inv in E; congruence]. injection E as _ <-. auto. Qed.
Lemma foreach_inv {A} (f : A -> st lint unit) l s s' x : (forall y, mono (f y)) -> foreach f l s = (Ok tt, s') -> In x l ->
  exists s1 s2, grow s s1 /\ f x s1 = (Ok tt, s2) /\ grow s2 s'.
Proof.
  intros H. revert s. induction l as [|y l IH]; intros s E I; [destruct I|]. cbn [foreach] in E. apply bind_inv in E. destruct E as ([] & s1 & E1 & E2).
  destruct I as [->|I].
  - exists s, s1. split; [apply grow_refl|]. split; [exact E1|]. pose proof (mono_foreach f l H s1) as G. rewrite E2 in G. exact G.
  - destruct (IH s1 E2 I) as (a & b & G1 & E & G2). exists a, b. split; [|auto]. eapply grow_trans; [|exact G1]. pose proof (H y s) as G. rewrite E1 in G. exact G.
Qed.
Lemma mono_step {A} (m : st lint A) s r s' : mono m -> m s = (r, s') -> grow s s'.
Proof. intros H E. specialize (H s). rewrite E in H. exact H. Qed.
Lemma clean_foreach {A} (b : A -> bool) n i l s s' r : foreach (fun x => if b x then violate n i else ret tt) l s = (Ok r, s') -> li_success s' = true -> s' = s /\ forall x, In x l -> b x = false.
Proof.
  revert s. induction l as [|x l IH]; intros s E H; [injection E as _ <-; split; [reflexivity|intros x []]|]. cbn [foreach] in E. apply bind_inv in E. destruct E as ([] & s1 & E1 & E2).
  destruct (IH s1 E2 H) as [-> I]. destruct (clean_if _ _ _ _ _ _ E1 H) as [B ->]. split; [reflexivity|]. intros y [<-|Y]; auto.
Qed.

(** ** What an accepted node is like *)
Section Node.
  Variable P : pyenv.
  Lemma kind_cases n k : kind_of n = k -> k <> "" -> exists ln fs, n = Node k ln fs.
  Proof. destruct n; cbn; intros <- H; try congruence. eauto. Qed.
  Lemma check_kind n s s' : check_node P n s = (Ok tt, s') -> li_success s' = true -> kind_in ILLEGAL_AST_TYPES n = false.
  Proof.
    intros E H. unfold check_node in E. apply bind_inv in E. destruct E as ([] & s1 & E1 & E2).
    destruct (kind_in ["Import"; "ImportFrom"] n) eqn:K.
    - destruct n as [k ln fs| | | |]; try discriminate K. cbn [kind_in existsb] in K. rewrite Bool.orb_false_r in K. apply Bool.orb_prop in K. destruct K as [K|K]; apply String.eqb_eq in K; subst k; [reflexivity|].
      injection E2 as <-. unfold pre in E1. cbn [String.eqb Ascii.eqb Bool.eqb] in E1. apply violate_inv in E1. congruence.
    - unfold illegal_type in E2. apply clean_if in E2; [apply E2|exact H].
  Qed.
  Lemma check_pre n s s' : check_node P n s = (Ok tt, s') -> li_success s' = true -> exists s1, pre P n s = (Ok tt, s1) /\ li_success s1 = true /\ s' = s1.
  Proof.
    intros E H. unfold check_node in E. apply bind_inv in E. destruct E as ([] & s1 & E1 & E2). exists s1. split; [exact E1|].
    destruct (kind_in ["Import"; "ImportFrom"] n); [injection E2 as <-; auto|]. unfold illegal_type in E2. apply clean_if in E2; [|exact H]. destruct E2 as [_ ->]. auto.
  Qed.
  Lemma attr_id_inv f n x : attr_id f n = Ok x <-> has_field n f (Ident x).
  Proof.
    unfold attr_id, has_field. destruct (attr f n) as [v|e]; cbn; [|split; discriminate]. destruct v; cbn; split; intros E; try discriminate; injection E as ->; reflexivity.
  Qed.
  Lemma attrs_inv f n l : attrs f n = Ok l <-> has_field n f (Items l).
  Proof.
    unfold attrs, has_field. destruct (attr f n) as [v|e]; cbn; [|split; discriminate]. destruct v; cbn; split; intros E; try discriminate; injection E as ->; reflexivity.
  Qed.
  Ltac inv E := apply bind_inv in E; destruct E as (? & ? & ?E & E).
  Lemma check_name n x s s' : check_node P n s = (Ok tt, s') -> li_success s' = true -> kind_of n = "Name" -> has_field n "id" (Ident x) ->
    startswith x (u "_") = false /\ endswith x (u "_") = false /\ str_eqb x (u "rt") = false /\ (illegal_builtin P x && negb (str_eqb x (u "float")))%bool = false.
  Proof.
    intros E H K F. destruct (check_pre n s s' E H) as (s1 & E1 & H1 & _). destruct (kind_cases n _ K) as (ln & fs & ->); [discriminate|]. unfold pre in E1. cbn [String.eqb Ascii.eqb Bool.eqb] in E1.
    unfold pre_name in E1. inv E1. apply lift_inv in E0. destruct E0 as [E0 ->]. apply attr_id_inv in F. rewrite F in E0. injection E0 as <-.
    inv E1. inv E1. apply clean_if in E1; [|exact H1]. destruct E1 as [B ->]. apply clean_if in E2; [|exact H1]. destruct E2 as [B2 ->]. unfold not_system_variable in E0. apply clean_if in E0; [|exact H1]. destruct E0 as [B0 _].
    apply Bool.orb_false_elim in B0. tauto.
  Qed.
  Lemma check_attribute n x s s' : check_node P n s = (Ok tt, s') -> li_success s' = true -> kind_of n = "Attribute" -> has_field n "attr" (Ident x) ->
    startswith x (u "_") = false /\ endswith x (u "_") = false /\ str_eqb x (u "rt") = false.
  Proof.
    intros E H K F. destruct (check_pre n s s' E H) as (s1 & E1 & H1 & _). destruct (kind_cases n _ K) as (ln & fs & ->); [discriminate|]. unfold pre in E1. cbn [String.eqb Ascii.eqb Bool.eqb] in E1.
    unfold pre_attribute in E1. inv E1. apply lift_inv in E0. destruct E0 as [E0 ->]. apply attr_id_inv in F. rewrite F in E0. injection E0 as <-.
    inv E1. apply clean_if in E1; [|exact H1]. destruct E1 as [B ->]. unfold not_system_variable in E0. apply clean_if in E0; [|exact H1]. destruct E0 as [B0 _].
    apply Bool.orb_false_elim in B0. tauto.
  Qed.
  Lemma check_import n l a x s s' : check_node P n s = (Ok tt, s') -> li_success s' = true -> kind_of n = "Import" -> has_field n "names" (Items l) -> In a l -> has_field a "name" (Ident x) ->
    str_mem x (py_modules P) = false.
  Proof.
    intros E H K F I Fa. destruct (check_pre n s s' E H) as (s1 & E1 & H1 & _). destruct (kind_cases n _ K) as (ln & fs & ->); [discriminate|]. unfold pre in E1. cbn [String.eqb Ascii.eqb Bool.eqb] in E1.
    unfold pre_import in E1. inv E1. apply lift_inv in E0. destruct E0 as [E0 ->]. apply attrs_inv in F. rewrite F in E0. injection E0 as <-.
    eapply foreach_inv in E1; [|intros y; mono|exact I]. destruct E1 as (sa & sb & _ & E1 & G). inv E1. apply lift_inv in E0. destruct E0 as [E0 ->]. apply attr_id_inv in Fa. rewrite Fa in E0. injection E0 as <-.
    apply clean_if in E1; [apply E1|]. apply (gr_success _ _ G H1).
  Qed.
  Lemma check_call n f x s s' : check_node P n s = (Ok tt, s') -> li_success s' = true -> kind_of n = "Call" -> has_field n "func" f -> kind_of f = "Name" -> has_field f "id" (Ident x) -> illegal_builtin P x = false.
  Proof.
    intros E H K F Kf Ff. destruct (check_pre n s s' E H) as (s1 & E1 & H1 & _). destruct (kind_cases n _ K) as (ln & fs & ->); [discriminate|]. unfold pre in E1. cbn [String.eqb Ascii.eqb Bool.eqb] in E1.
    unfold pre_call in E1. inv E1. apply lift_inv in E0. destruct E0 as [E0 ->]. unfold has_field in F. rewrite F in E0. injection E0 as <-.
    destruct (kind_cases f _ Kf) as (ln' & fs' & ->); [discriminate|]. change (is_kind "Name" (Node "Name" ln' fs')) with true in E1. cbn iota in E1.
    inv E1. apply lift_inv in E0. destruct E0 as [E0 ->]. apply attr_id_inv in Ff. rewrite Ff in E0. injection E0 as <-. apply clean_if in E1; [apply E1|exact H1].
  Qed.
  (** decorators *)
  Lemma decorator_inv n d s s' b : decorator n d s = (Ok b, s') -> li_success s' = true ->
    (has_field d "id" (Ident EXPORT) /\ b = true /\ s' = set_export true s) \/ (has_field d "id" (Ident CONSTRUCT) /\ b = false /\ li_ctor s = false /\ s' = set_ctor true s).
  Proof.
    intros E H. unfold decorator in E. inv E. apply lift_inv in E0. destruct E0 as [E0 ->]. apply attr_id_inv in E0. inv E. inv E. inv E. injection E as <- <-.
    assert (G : li_success x3 = true).
    { eapply gr_success; [|exact H]. eapply mono_step; [|exact E3]. mono. }
    assert (G1 : li_success x1 = true).
    { eapply gr_success; [|exact G]. eapply mono_step; [|exact E2]. mono. }
    apply clean_if' in E1; [|exact G1]. destruct E1 as [M ->]. unfold VALID_DECORATORS, str_mem, existsb in M. rewrite Bool.orb_false_r in M. apply Bool.orb_prop in M. destruct M as [M|M]; apply str_eqb_eq in M; subst x.
    - left. rewrite str_eqb_refl in E2. injection E2 as _ <-. change (str_eqb EXPORT CONSTRUCT) with false in E3. cbn iota in E3. injection E3 as _ <-. auto.
    - right. rewrite str_eqb_refl in E3. change (str_eqb CONSTRUCT EXPORT) with false in E2. cbn iota in E2. injection E2 as _ <-. inv E3. injection E1 as <- <-. inv E3. injection E3 as _ E3.
      subst x5. change (li_success x1 = true) in H. apply clean_if in E1; [|exact H]. destruct E1 as [B ->]. auto.
  Qed.
  Definition same (s s' : lint) : Prop := li_export s' = li_export s /\ li_ctor s' = li_ctor s.
  Lemma same_refl s : same s s. Proof. split; reflexivity. Qed.
  Lemma same_trans a b c : same a b -> same b c -> same a c. Proof. intros [A B] [C D]. split; congruence. Qed.
  Lemma arg_eqb_eq x y : arg_eqb x y = true -> x = y.
  Proof. destruct x as [a z], y as [b w]. unfold arg_eqb. cbn [fst snd]. intros E. apply andb_prop in E. destruct E as [E1 E2]. apply str_eqb_eq in E1. apply Z.eqb_eq in E2. congruence. Qed.
  Lemma type_eqb_eq x y : type_eqb x y = true -> x = y.
  Proof.
    destruct x as [a z], y as [b w]. unfold type_eqb. cbn [fst snd]. intros E. apply andb_prop in E. destruct E as [E1 E2]. apply Z.eqb_eq in E2. subst w.
    destruct a as [a|], b as [b|]; cbn in E1; try discriminate; [|reflexivity]. apply str_eqb_eq in E1. congruence.
  Qed.
  (** an argument of a function: its name and its type are noted *)
  Definition type_of (a : ast) (t : option pystr) : Prop := (has_field a "annotation" Absent /\ t = None) \/ exists p, annotation a = Ok p /\ t = Some p.
  Lemma argument_inv n b a s s' : argument n b a s = (Ok tt, s') -> same s s' /\
    exists x z, has_field a "arg" (Ident x) /\ In (x, z) (li_args s') /\ (b = true -> exists t, type_of a t /\ In (t, z) (li_types s')).
  Proof.
    intros E. unfold argument in E. apply bind_inv in E. destruct E as (x & s1 & E0 & E). apply lift_inv in E0. destruct E0 as [E0 ->]. apply attr_id_inv in E0.
    apply bind_inv in E. destruct E as (z & s1 & E1 & E). apply lift_inv in E1. destruct E1 as [E1 ->].
    apply bind_inv in E. destruct E as (q & s1 & E2 & E). injection E2 as _ <-. set (s1 := set_args (add_to arg_eqb (x, z) (li_args s)) s) in *.
    assert (HI : In (x, z) (li_args s1)) by (apply (add_to_In arg_eqb (x, z)); apply arg_eqb_eq).
    destruct b; cbn iota in E.
    - apply bind_inv in E. destruct E as (an & s2 & E2 & E). apply lift_inv in E2. destruct E2 as [E2 ->].
      destruct an.
      5: { injection E as <-. split; [split; reflexivity|]. exists x, z. split; [exact E0|]. split; [exact HI|]. intros _. exists None. split; [left; auto|apply (add_to_In type_eqb (None, z)); apply type_eqb_eq]. }
      all: apply bind_inv in E; destruct E as (t & s2 & E3 & E); apply lift_inv in E3; destruct E3 as [E3 ->]; injection E as <-; split; [split; reflexivity|]; exists x, z; split; [exact E0|]; split; [exact HI|]; intros _;
        exists (Some t); (split; [right; eauto|apply (add_to_In type_eqb (Some t, z)); apply type_eqb_eq]).
    - injection E as <-. split; [split; reflexivity|]. exists x, z. split; [exact E0|]. split; [exact HI|discriminate].
  Qed.
  Lemma arguments_same n b l s s' : foreach (argument n b) l s = (Ok tt, s') -> same s s'.
  Proof.
    revert s. induction l as [|a l IH]; intros s E; [injection E as <-; apply same_refl|]. cbn [foreach] in E. inv E. destruct x. apply argument_inv in E0. exact (same_trans _ _ _ (proj1 E0) (IH _ E)).
  Qed.
  Inductive decorated (ds : list ast) (s s' : lint) : Prop :=
  | Dec_none : ds = [] -> same s s' -> decorated ds s s'
  | Dec_export d : ds = [d] -> has_field d "id" (Ident EXPORT) -> li_export s' = true -> li_ctor s' = li_ctor s -> decorated ds s s'
  | Dec_construct d : ds = [d] -> has_field d "id" (Ident CONSTRUCT) -> li_ctor s = false -> li_ctor s' = true -> li_export s' = li_export s -> decorated ds s s'.
  Record function_ok (n : ast) (s s' : lint) : Prop := mkFok {
    fo_body : exists body, has_field n "body" (Items body) /\ forall m, In m body -> kind_of m <> "Import" /\ kind_of m <> "ImportFrom" /\ kind_of m <> "FunctionDef";
    fo_args : exists ds a l, has_field n "decorator_list" (Items ds) /\ decorated ds s s' /\ has_field n "args" a /\ has_field a "args" (Items l) /\
      forall m, In m l -> exists x z, has_field m "arg" (Ident x) /\ In (x, z) (li_args s') /\
        (forall d, ds = [d] -> has_field d "id" (Ident EXPORT) -> exists t, type_of m t /\ In (t, z) (li_types s')) }.
  Lemma kind_in_false l n : kind_in l n = false -> kind_of n <> "" -> ~ In (kind_of n) l.
  Proof.
    destruct n as [k ln fs| | | |]; cbn; try congruence. intros E _ I. assert (existsb (String.eqb k) l = true); [|congruence]. apply existsb_exists. exists k. split; [exact I|apply String.eqb_refl].
  Qed.
  Lemma violate_line n i z s : lineno n = Ok z -> violate n i s = violate_at z i s.
  Proof. intros E. unfold violate. rewrite bind_eq, E. reflexivity. Qed.
  Lemma violate_noline n i e s : lineno n = Err e -> violate n i s = (Err e, s).
  Proof. intros E. unfold violate. rewrite bind_eq, E. reflexivity. Qed.
  Lemma closures_inv n s s' : no_closures n s = (Ok tt, s') -> li_success s' = true -> (exists z, lineno n = Ok z) -> forall body m, has_field n "body" (Items body) -> In m body -> kind_of m <> "FunctionDef".
  Proof.
    intros E H (z & L) body m F I K. unfold no_closures in E. apply attrs_inv in F. rewrite F in E. change (lift (Ok body) s) with (@Ok (list ast) body, s) in E.
    rewrite bind_eq in E. change (lift (Ok body) s) with (@Ok (list ast) body, s) in E. cbn iota beta in E.
    destruct (foreach (fun i => if is_kind "FunctionDef" i then violate n 18 else ret tt) body s) as [r s1] eqn:E1. injection E as <-.
    assert (r = Ok tt).
    { clear I H F. revert s E1. induction body as [|y body IH]; intros s E1; [injection E1 as <- _; reflexivity|]. cbn [foreach] in E1. rewrite bind_eq in E1.
      destruct (is_kind "FunctionDef" y); [|exact (IH _ E1)]. rewrite (violate_line n 18 z s L) in E1. exact (IH _ E1). }
    subst r. apply clean_foreach in E1; [|exact H]. destruct E1 as [_ E1]. specialize (E1 m I). destruct (kind_cases m _ K) as (ln & fs & ->); [discriminate|]. discriminate E1.
  Qed.
  Lemma imports_inv n s s' : no_nested_imports n s = (Ok tt, s') -> li_success s' = true -> s' = s /\ exists body, has_field n "body" (Items body) /\ forall m, In m body -> kind_in ["ImportFrom"; "Import"] m = false.
  Proof.
    intros E H. unfold no_nested_imports in E. inv E. apply lift_inv in E0. destruct E0 as [E0 ->]. apply attrs_inv in E0. apply clean_foreach in E; [|exact H]. destruct E as [-> E]. split; [reflexivity|]. eauto.
  Qed.
  Lemma closures_state n s s' : no_closures n s = (Ok tt, s') -> li_success s' = true -> same s s'.
  Proof.
    intros E H. unfold no_closures in E. set (m := let! body := lift (attrs "body" n) in foreach (fun i => if is_kind "FunctionDef" i then violate n 18 else ret tt) body) in E.
    destruct (m s) as [r s1] eqn:E1. injection E as <-. subst m. rewrite bind_eq in E1. unfold lift in E1. destruct (attrs "body" n) as [body|e]; [|injection E1 as _ <-; apply same_refl].
    assert (G : forall s r s1, foreach (fun i => if is_kind "FunctionDef" i then violate n 18 else ret tt) body s = (r, s1) -> same s s1).
    { clear. induction body as [|y body IH]; intros s r s1 E; [injection E as _ <-; apply same_refl|]. cbn [foreach] in E. rewrite bind_eq in E. destruct (is_kind "FunctionDef" y); [|exact (IH _ _ _ E)].
      destruct (lineno n) as [z|e] eqn:L; [|rewrite (violate_noline n 18 e s L) in E; injection E as _ <-; apply same_refl]. rewrite (violate_line n 18 z s L) in E. exact (IH _ _ _ E). }
    exact (G _ _ _ E1).
  Qed.
  Lemma decorators_inv n ds s s' fl : mapm (decorator n) ds s = (Ok fl, s') -> li_success s' = true -> List.length ds <= 1 ->
    (ds = [] /\ fl = [] /\ s' = s) \/ (exists d, ds = [d] /\ has_field d "id" (Ident EXPORT) /\ fl = [true] /\ s' = set_export true s) \/
    (exists d, ds = [d] /\ has_field d "id" (Ident CONSTRUCT) /\ fl = [false] /\ li_ctor s = false /\ s' = set_ctor true s).
  Proof.
    intros E H L. destruct ds as [|d [|d' r]]; [|  |cbn in L; lia].
    - injection E as <- <-. auto.
    - right. cbn [mapm] in E. inv E. inv E. injection E1 as <- <-. injection E as <- <-. apply decorator_inv in E0; [|exact H]. destruct E0 as [(F & -> & ->)|(F & -> & C & ->)]; [left|right]; exists d; auto.
  Qed.
  Lemma function_inv n s s' : pre_function n s = (Ok tt, s') -> li_success s' = true -> (exists z, lineno n = Ok z) -> function_ok n s s'.
  Proof.
    intros E H L. unfold pre_function in E.
    apply bind_inv in E. destruct E as ([] & s1 & E1 & E). apply bind_inv in E. destruct E as ([] & s2 & E2 & E). apply bind_inv in E. destruct E as (ds & s3 & E3 & E).
    apply lift_inv in E3. destruct E3 as [E3 ->]. apply attrs_inv in E3. apply bind_inv in E. destruct E as ([] & s3 & E4 & E). apply bind_inv in E. destruct E as (fl & s4 & E5 & E).
    apply bind_inv in E. destruct E as (a & s5 & E6 & E). apply lift_inv in E6. destruct E6 as [E6 ->]. apply bind_inv in E. destruct E as (l & s5 & E7 & E). apply lift_inv in E7. destruct E7 as [E7 ->]. apply attrs_inv in E7.
    apply bind_inv in E. destruct E as ([] & s5 & E8 & E).
    set (exported := existsb (fun b : bool => b) fl) in *.
    assert (G5 : grow s5 s' /\ same s5 s' /\ li_args s' = li_args s5).
    { split.
      - eapply mono_step; [|exact E]. mono.
      - destruct exported; [|injection E as <-; split; [apply same_refl|reflexivity]]. apply bind_inv in E. destruct E as (r & s6 & E9 & E). apply lift_inv in E9. destruct E9 as [E9 ->].
        destruct r.
        5: { apply bind_inv in E. destruct E as (z & s7 & E10 & E). apply lift_inv in E10. destruct E10 as [_ ->]. injection E as <-. split; [split; reflexivity|reflexivity]. }
        all: destruct (rev l); [discriminate E|]; apply bind_inv in E; destruct E as (t & s7 & E10 & E); apply lift_inv in E10; destruct E10 as [_ ->]; apply bind_inv in E; destruct E as (z & s7 & E10 & E);
          apply lift_inv in E10; destruct E10 as [_ ->]; injection E as <-; split; [split; reflexivity|reflexivity]. }
    destruct G5 as (G5 & S5 & A5). pose proof (gr_success _ _ G5 H) as H5. pose proof (arguments_same _ _ _ _ _ E8) as S8.
    assert (H4 : li_success s4 = true). { eapply gr_success; [|exact H5]. eapply mono_step; [|exact E8]. apply mono_foreach. intros y. apply mono_argument. }
    assert (H3 : li_success s3 = true). { eapply gr_success; [|exact H4]. eapply mono_step; [|exact E5]. apply mono_mapm. intros y. apply mono_decorator. }
    apply clean_if in E4; [|exact H3]. destruct E4 as [LEN ->].
    assert (H1 : li_success s1 = true). { eapply gr_success; [|exact H3]. eapply mono_step; [|exact E2]. apply mono_closures. }
    pose proof (closures_inv _ _ _ E2 H3 L) as NF. pose proof (closures_state _ _ _ E2 H3) as S2. apply imports_inv in E1; [|exact H1]. destruct E1 as [-> (body & FB & NI)].
    apply Nat.ltb_ge in LEN. pose proof (decorators_inv _ _ _ _ _ E5 H4 LEN) as D.
    constructor.
    - exists body. split; [exact FB|]. intros m I. specialize (NF body m FB I). specialize (NI m I). split; [|split; [|exact NF]].
      + intros K. destruct (kind_cases m _ K) as (ln & fs & ->); [discriminate|]. discriminate NI.
      + intros K. destruct (kind_cases m _ K) as (ln & fs & ->); [discriminate|]. discriminate NI.
    - exists ds, a, l. split; [exact E3|]. split; [|split; [exact E6|split; [exact E7|]]].
      + destruct S2 as [X2 Y2], S5 as [X5 Y5], S8 as [X8 Y8]. destruct D as [(-> & _ & ->)|[(d & -> & F & _ & ->)|(d & -> & F & _ & C & ->)]]; cbn in *.
        * apply Dec_none; [reflexivity|]. split; congruence.
        * apply Dec_export with d; auto; congruence.
        * apply Dec_construct with d; auto; congruence.
      + intros m I. eapply foreach_inv in E8; [|intros y; apply mono_argument|exact I]. destruct E8 as (sa & sb & _ & E8 & G8). apply argument_inv in E8. destruct E8 as (_ & x & z & F & IA & IT).
        exists x, z. split; [exact F|]. split; [rewrite A5; apply (gr_args _ _ G8); exact IA|]. intros d Ed Fd.
        destruct D as [(-> & _ & _)|[(d' & Ed' & F' & Efl & _)|(d' & Ed' & F' & _)]]; [discriminate Ed| |].
        * destruct IT as (t & T & IT); [unfold exported; rewrite Efl; reflexivity|]. exists t. split; [exact T|]. apply (gr_types _ _ G5), (gr_types _ _ G8), IT.
        * assert (d' = d) by congruence. subst d'. unfold has_field in *. rewrite F' in Fd. discriminate Fd.
  Qed.
End Node.

(** ** The whole tree *)
Lemma flat_go {A} (g : A -> list ast) (fs : list (string * A)) : (fix go fs := match fs with [] => [] | (_, v) :: r => g v ++ go r end) fs = flat_map (fun fv => g (snd fv)) fs.
Proof. induction fs as [|[f v] r IH]; [reflexivity|]. cbn [flat_map snd]. rewrite IH. reflexivity. Qed.
Lemma visited_node k ln fs : visited (Node k ln fs) = Node k ln fs :: if kind_in ["Import"; "ImportFrom"] (Node k ln fs) then [] else flat_map (fun fv => visited (snd fv)) fs.
Proof. cbn [visited]. rewrite flat_go. reflexivity. Qed.
Lemma visited_items l : visited (Items l) = flat_map visited l.
Proof. induction l as [|v r IH]; [reflexivity|]. cbn [visited flat_map]. f_equal. Qed.
Lemma visited_nodes t n : In n (visited t) -> In n (nodes t).
Proof.
  induction t as [k ln fs IH|l IH| | |] using ast_nested_ind; [| |intros []|intros []|intros []].
  - rewrite visited_node, nodes_node. intros [E|I]; [left; exact E|right]. destruct kind_in; [destruct I|]. apply in_flat_map in I. destruct I as (fv & I & J). apply in_flat_map. exists fv. split; [exact I|].
    rewrite Forall_forall in IH. apply IH; assumption.
  - rewrite visited_items, nodes_items. intros I. apply in_flat_map in I. destruct I as (v & I & J). apply in_flat_map. exists v. split; [exact I|]. rewrite Forall_forall in IH. apply IH; assumption.
Qed.
Lemma nodes_self n : kind_of n <> "" -> In n (nodes n).
Proof. destruct n; cbn; try congruence. auto. Qed.
Lemma nodes_trans t n m : In n (nodes t) -> In m (nodes n) -> In m (nodes t).
Proof.
  induction t as [k ln fs IH|l IH| | |] using ast_nested_ind; [| |intros []|intros []|intros []].
  - rewrite nodes_node. intros [<-|I] J; [rewrite nodes_node in J; exact J|right]. apply in_flat_map in I. destruct I as (fv & I & K). apply in_flat_map. exists fv. split; [exact I|]. rewrite Forall_forall in IH. eapply IH; eauto.
  - rewrite nodes_items. intros I J. apply in_flat_map in I. destruct I as (v & I & K). apply in_flat_map. exists v. split; [exact I|]. rewrite Forall_forall in IH. eapply IH; eauto.
Qed.
Lemma depth_field (f : string) v fs : In (f, v) fs -> (depth v <= (fix go fs := match fs with [] => O | (_, v) :: r => Nat.max (depth v) (go r) end) fs)%nat.
Proof. induction fs as [|[g w] r IHr]; intros I; [destruct I|]. destruct I as [E|I]; [injection E as -> ->; lia|]. specialize (IHr I). lia. Qed.
Lemma depth_nodes t : forall m, In m (nodes t) -> (depth m <= depth t)%nat.
Proof.
  induction t as [k ln fs IH|l IH| | |] using ast_nested_ind; intros m; [| |intros []|intros []|intros []].
  - rewrite nodes_node. intros [<-|I]; [lia|]. apply in_flat_map in I. destruct I as ([f v] & I & J). rewrite Forall_forall in IH. specialize (IH _ I m J). apply depth_field in I. cbn [snd] in *. cbn [depth]. lia.
  - rewrite nodes_items. intros I. apply in_flat_map in I. destruct I as (v & I & J). rewrite Forall_forall in IH. specialize (IH _ I m J). cbn [depth].
    assert (depth v <= (fix go l := match l with [] => O | v :: r => Nat.max (depth v) (go r) end) l)%nat; [|lia].
    clear - I. induction l as [|w r IHr]; [destruct I|]. destruct I as [->|I]; [lia|]. specialize (IHr I). lia.
Qed.
(** a tree is not a proper part of itself *)
Lemma not_inside k ln fs : ~ In (Node k ln fs) (flat_map (fun fv => nodes (snd fv)) fs).
Proof. intros I. apply in_flat_map in I. destruct I as ([f v] & I & J). apply depth_nodes in J. apply depth_field in I. cbn [snd depth] in *. lia. Qed.
Lemma imports_sub t v : imports_ok t -> incl (nodes v) (nodes t) -> imports_ok v.
Proof. intros H I n m J. apply H. apply I, J. Qed.
(** a node that is not visited is an alias, or is in a from-import *)
Lemma not_visited t n : imports_ok t -> In n (nodes t) -> In n (visited t) \/ kind_of n = "alias" \/ exists m, In m (visited t) /\ kind_of m = "ImportFrom".
Proof.
  induction t as [k ln fs IH|l IH| | |] using ast_nested_ind; intros H I; [| |destruct I|destruct I|destruct I].
  - rewrite nodes_node in I. rewrite visited_node. destruct I as [E|I]; [left; left; exact E|]. destruct (kind_in ["Import"; "ImportFrom"] (Node k ln fs)) eqn:K.
    + right. cbn [kind_in existsb] in K. rewrite Bool.orb_false_r in K. apply Bool.orb_prop in K. destruct K as [K|K]; apply String.eqb_eq in K; subst k.
      * left. assert (J : In n (nodes (Node "Import" ln fs))) by (rewrite nodes_node; right; exact I).
        assert (Q : In (Node "Import" ln fs) (nodes (Node "Import" ln fs))) by (rewrite nodes_node; left; reflexivity).
        destruct (H (Node "Import" ln fs) n Q eq_refl J) as [->|A]; [|exact A].
        exfalso. exact (not_inside _ _ _ I).
      * right. exists (Node "ImportFrom" ln fs). split; [left; reflexivity|reflexivity].
    + apply in_flat_map in I. destruct I as (fv & I & J). rewrite Forall_forall in IH.
      assert (S : imports_ok (snd fv)). { apply (imports_sub _ _ H). intros m M. rewrite nodes_node. right. apply in_flat_map. eauto. }
      destruct (IH fv I S J) as [V|[A|(m & V & M)]]; [left; right; apply in_flat_map; eauto|auto|right; right; exists m; split; [right; apply in_flat_map; eauto|exact M]].
  - rewrite nodes_items in I. rewrite visited_items. apply in_flat_map in I. destruct I as (v & I & J). rewrite Forall_forall in IH.
    assert (S : imports_ok v). { apply (imports_sub _ _ H). intros m M. rewrite nodes_items. apply in_flat_map. eauto. }
    destruct (IH v I S J) as [V|[A|(m & V & M)]]; [left; apply in_flat_map; eauto|auto|right; right; exists m; split; [apply in_flat_map; eauto|exact M]].
Qed.
(** ...so any property of nodes that aliases do not have is counted the same *)
Lemma filter_flat_map {A B} (p : B -> bool) (f : A -> list B) l : filter p (flat_map f l) = flat_map (fun x => filter p (f x)) l.
Proof. induction l as [|x l IH]; [reflexivity|]. cbn [flat_map]. rewrite filter_app, IH. reflexivity. Qed.
Lemma flat_map_ext_in {A B} (f g : A -> list B) l : (forall x, In x l -> f x = g x) -> flat_map f l = flat_map g l.
Proof. induction l as [|x l IH]; intros H; [reflexivity|]. cbn [flat_map]. rewrite H by (left; reflexivity). rewrite IH; [reflexivity|]. intros y Y. apply H. right. exact Y. Qed.
Lemma filter_none {A} (p : A -> bool) l : (forall x, In x l -> p x = false) -> filter p l = [].
Proof. induction l as [|x l IH]; intros H; [reflexivity|]. cbn [filter]. rewrite (H x) by (left; reflexivity). apply IH. intros y Y. apply H. right. exact Y. Qed.
Lemma filter_visited (p : ast -> bool) t : (forall n, kind_of n = "alias" -> p n = false) -> imports_ok t -> (forall m, In m (visited t) -> kind_of m <> "ImportFrom") -> filter p (nodes t) = filter p (visited t).
Proof.
  intros HP. induction t as [k ln fs IH|l IH| | |] using ast_nested_ind; try reflexivity; intros H NI.
  - rewrite nodes_node, visited_node in *. cbn [filter]. set (T := Node k ln fs) in *.
    assert (E : filter p (flat_map (fun fv => nodes (snd fv)) fs) = filter p (if kind_in ["Import"; "ImportFrom"] T then [] else flat_map (fun fv => visited (snd fv)) fs)).
    { destruct (kind_in ["Import"; "ImportFrom"] T) eqn:K.
      - cbn [filter]. apply filter_none. intros n I. cbn [T kind_in existsb] in K. rewrite Bool.orb_false_r in K. apply Bool.orb_prop in K. destruct K as [K|K]; apply String.eqb_eq in K; subst k.
        + destruct (not_visited T n H) as [V|[A|(m & V & M)]]; [unfold T; rewrite nodes_node; right; exact I| | |].
          * unfold T in V. rewrite visited_node in V. cbn in V. destruct V as [<-|[]].
            exfalso. exact (not_inside _ _ _ I).
          * apply HP, A.
          * unfold T in V. rewrite visited_node in V. cbn in V. destruct V as [<-|[]]. discriminate M.
        + exfalso. apply (NI T); [left; reflexivity|reflexivity].
      - rewrite !filter_flat_map. apply flat_map_ext_in. intros fv I. rewrite Forall_forall in IH. apply (IH fv I).
        + apply (imports_sub _ _ H). intros m M. unfold T. rewrite nodes_node. right. apply in_flat_map. eauto.
        + intros m M. apply NI. right. apply in_flat_map. eauto. }
    rewrite E. reflexivity.
  - rewrite nodes_items, visited_items in *. rewrite !filter_flat_map. apply flat_map_ext_in. intros v I. rewrite Forall_forall in IH. apply (IH v I).
    + apply (imports_sub _ _ H). intros m M. rewrite nodes_items. apply in_flat_map. eauto.
    + intros m M. apply NI. apply in_flat_map. eauto.
Qed.

(** ** A check of a tree *)
Section Check.
  Variable P : pyenv.
  Definition same_only {A} (m : st lint A) : Prop := forall s, same s (snd (m s)).
  Lemma so_bind {A B} (m : st lint A) (k : A -> st lint B) : same_only m -> (forall a, same_only (k a)) -> same_only (bind m k).
  Proof. intros Hm Hk s. rewrite bind_eq. specialize (Hm s). destruct (m s) as [[a|e] s1]; [exact (same_trans _ _ _ Hm (Hk a s1))|exact Hm]. Qed.
  Lemma so_foreach {A} (f : A -> st lint unit) l : (forall x, same_only (f x)) -> same_only (foreach f l).
  Proof. intros H. induction l; [intros s; apply same_refl|]. apply so_bind; auto. Qed.
  Lemma so_mapm {A B} (f : A -> st lint B) l : (forall x, same_only (f x)) -> same_only (mapm f l).
  Proof. intros H. induction l; [intros s; apply same_refl|]. apply so_bind; auto. intros y. apply so_bind; auto. intros ys s. apply same_refl. Qed.
  Lemma so_if {A} (b : bool) (m m' : st lint A) : same_only m -> same_only m' -> same_only (if b then m else m').
  Proof. destruct b; auto. Qed.
  Lemma so_simple {A} (m : st lint A) : (forall s, same s (snd (m s))) -> same_only m. Proof. exact (fun H => H). Qed.
  Lemma so_lift {A} (r : result A) : same_only (lift r). Proof. intros s. apply same_refl. Qed.
  Lemma so_violate n i : same_only (violate n i).
  Proof. apply so_bind; [apply so_lift|]. intros z s. split; reflexivity. Qed.
  Ltac so := repeat first [apply so_lift | apply so_violate | apply so_if | apply so_foreach; intros ? | apply so_mapm; intros ? | apply so_bind; [|intros ?] | match goal with |- same_only (match ?x with _ => _ end) => destruct x end
    | apply so_simple; intros s; split; reflexivity].
  Lemma pre_same n : kind_of n <> "FunctionDef" -> same_only (pre P n).
  Proof.
    destruct n as [k ln fs| | | |]; try (intros _ q; apply same_refl). cbn [kind_of]. intros K. apply String.eqb_neq in K. unfold pre. rewrite K.
    unfold pre_name, pre_attribute, pre_import, pre_assign, pre_call, not_system_variable. so.
  Qed.
  Lemma check_same n s s' : check_node P n s = (Ok tt, s') -> li_success s' = true -> kind_of n <> "FunctionDef" -> same s s'.
  Proof. intros E H K. destruct (check_pre P n s s' E H) as (s1 & E1 & _ & ->). pose proof (pre_same n K s) as S. rewrite E1 in S. exact S. Qed.
  Lemma check_function n s s' : check_node P n s = (Ok tt, s') -> li_success s' = true -> kind_of n = "FunctionDef" -> (exists z, lineno n = Ok z) -> function_ok n s s'.
  Proof.
    intros E H K L. destruct (check_pre P n s s' E H) as (s1 & E1 & _ & ->). destruct (kind_cases n _ K) as (ln & fs & ->); [discriminate|]. unfold pre in E1. cbn [String.eqb Ascii.eqb Bool.eqb] in E1.
    exact (function_inv _ _ _ E1 H L).
  Qed.
  Lemma named_decorator_spec x n ds : has_field n "decorator_list" (Items ds) -> kind_of n = "FunctionDef" ->
    named_decorator x n = existsb (fun d => match attr_id "id" d with Ok s => str_eqb s (u x) | _ => false end) ds.
  Proof.
    intros F K. destruct (kind_cases n _ K) as (ln & fs & ->); [discriminate|]. unfold has_field, attr in F. unfold named_decorator. destruct (field "decorator_list" fs) as [v|]; [|discriminate]. injection F as ->. reflexivity.
  Qed.
  Lemma named_decorator_kind x n : named_decorator x n = true -> kind_of n = "FunctionDef".
  Proof.
    destruct n as [k ln fs| | | |]; cbn [named_decorator]; try discriminate. intros E. destruct (string_dec k "FunctionDef") as [->|N]; [reflexivity|].
    exfalso. apply N. clear N. unfold named_decorator in E. repeat (match type of E with context [match ?x with _ => _ end] => destruct x; try discriminate E end). reflexivity.
  Qed.
  (** what one node adds to the flags *)
  Lemma check_flags n s s' : check_node P n s = (Ok tt, s') -> li_success s' = true -> (kind_of n = "FunctionDef" -> exists z, lineno n = Ok z) ->
    li_export s' = (exported n || li_export s)%bool /\ (if constructor n then li_ctor s = false /\ li_ctor s' = true else li_ctor s' = li_ctor s).
  Proof.
    intros E H L. destruct (string_dec (kind_of n) "FunctionDef") as [K|K].
    - destruct (check_function n s s' E H K (L K)) as [_ (ds & a & l & FD & D & _)]. unfold exported, constructor. rewrite !(named_decorator_spec _ n ds FD K).
      destruct D as [-> [X Y]|d -> F X Y|d -> F C Y X]; cbn [existsb].
      + auto.
      + rewrite (proj2 (attr_id_inv _ _ _) F), X. auto.
      + rewrite (proj2 (attr_id_inv _ _ _) F), X. change (str_eqb CONSTRUCT (u "export")) with false. change (str_eqb CONSTRUCT (u "construct")) with true. cbn [orb]. auto.
    - destruct (check_same n s s' E H K) as [X Y].
      assert (N : forall x, named_decorator x n = false). { intros x. destruct (named_decorator x n) eqn:Q; [|reflexivity]. apply named_decorator_kind in Q. congruence. }
      unfold exported, constructor. rewrite !N. auto.
  Qed.
  Lemma foreach_flags l s s' : foreach (check_node P) l s = (Ok tt, s') -> li_success s' = true -> (forall n, In n l -> kind_of n = "FunctionDef" -> exists z, lineno n = Ok z) ->
    li_export s' = (existsb exported l || li_export s)%bool /\ (List.length (filter constructor l) + (if li_ctor s then 1 else 0) = if li_ctor s' then 1 else 0)%nat.
  Proof.
    revert s. induction l as [|n l IH]; intros s E H L; [injection E as <-; auto|]. cbn [foreach] in E. apply bind_inv in E. destruct E as ([] & s1 & E1 & E2).
    assert (G : li_success s1 = true). { eapply gr_success; [|exact H]. eapply mono_step; [|exact E2]. apply mono_foreach. intros y. apply mono_check. }
    destruct (IH s1 E2 H) as [X Y]; [intros m M; apply L; right; exact M|]. destruct (check_flags n s s1 E1 G) as [X1 Y1]; [intros K; apply L; [left; reflexivity|exact K]|].
    cbn [existsb filter]. rewrite X, X1. split; [destruct (exported n), (existsb exported l); reflexivity|].
    destruct (constructor n); cbn [List.length]; [destruct Y1 as [A B]; rewrite A; rewrite B in Y; lia|rewrite Y1 in Y; exact Y].
  Qed.
  (** the first pass *)
  Lemma collect_state t s : exists f, snd (collect_function_defs t s) = set_functions f s.
  Proof.
    unfold collect_function_defs.
    assert (R : forall s, exists f, s = set_functions f s) by (intros q; exists (li_functions q); destruct q; reflexivity).
    assert (G1 : forall l s, exists f, snd (foreach (fun a => let! x := lift (attr "asname" a) in let! y := lift (attr_id "name" a) in
                          modify (fun s => set_functions (li_functions s ++ [match x with Ident x => x | _ => List.last (split_all (ch ".") y) [] end]) s)) l s) = set_functions f s).
    { clear. induction l as [|a l IH]; intros s; [exists (li_functions s); destruct s; reflexivity|]. cbn [foreach]. rewrite bind_eq.
      match goal with |- context [let (r, s') := ?m s in _] => assert (Q : exists f, snd (m s) = set_functions f s); [|destruct Q as (f & Q); destruct (m s) as [[v|e] s1]; cbn [snd] in Q; subst s1] end.
      - rewrite bind_eq. unfold lift. destruct (attr "asname" a); [|exists (li_functions s); destruct s; reflexivity]. rewrite bind_eq. destruct (attr_id "name" a); [|exists (li_functions s); destruct s; reflexivity]. eexists. reflexivity.
      - destruct (IH (set_functions f s)) as (g & ->). exists g. reflexivity.
      - exists f. reflexivity. }
    revert s. induction (walk t) as [|n l IH]; intros s; [apply R|]. cbn [foreach]. rewrite bind_eq.
    match goal with |- context [let (r, s') := ?m s in _] => assert (Q : exists f, snd (m s) = set_functions f s); [|destruct Q as (f & Q); destruct (m s) as [[v|e] s1]; cbn [snd] in Q; subst s1] end.
    - destruct (is_kind "FunctionDef" n); [rewrite bind_eq; unfold lift; destruct (attr_id "name" n); [eexists; reflexivity|apply R]|].
      destruct (kind_in ["Import"; "ImportFrom"] n); [|apply R]. rewrite bind_eq. unfold lift. destruct (attrs "names" n) as [names|]; [apply G1|apply R].
    - destruct (IH (set_functions f s)) as (g & ->). exists g. reflexivity.
    - exists f. reflexivity.
  Qed.
  Record accepting (t : ast) (sv s' : lint) : Prop := mkAcc {
    ac_visit : exists f, foreach (check_node P) (visited t) (set_functions f lint0) = (Ok tt, sv);
    ac_final : final_checks P sv = (Ok tt, s');
    ac_success : li_success s' = true;
    ac_visited : li_success sv = true }.
  Lemma lint_inv t s0 s' : lint_check P t s0 = (Ok None, s') -> exists sv, accepting t sv s'.
  Proof.
    intros E. unfold lint_check in E. apply bind_inv in E. destruct E as (q0 & s1 & E1 & E). injection E1 as <- <-. apply bind_inv in E. destruct E as ([] & s2 & E2 & E). apply bind_inv in E. destruct E as ([] & s3 & E3 & E).
    apply bind_inv in E. destruct E as ([] & s4 & E4 & E). apply bind_inv in E. destruct E as (s5 & s6 & E5 & E). injection E5 as <- <-. destruct (li_success s4) eqn:H; [|discriminate E]. injection E as <-.
    exists s3. pose proof (collect_state t (reset s0)) as (f & C). rewrite E2 in C. cbn [snd] in C. unfold reset in C. subst s2. rewrite visit_foreach in E3. constructor; eauto.
    eapply gr_success; [|exact H]. eapply mono_step; [|exact E4]. apply mono_final.
  Qed.
  Lemma accepting_node t sv s' n : accepting t sv s' -> In n (visited t) -> exists s1 s2, check_node P n s1 = (Ok tt, s2) /\ li_success s2 = true /\ grow s2 sv.
  Proof.
    intros [[f EV] EF HS HV] I. destruct (foreach_inv _ _ _ _ n (mono_check P) EV I) as (s1 & s2 & _ & E & G). exists s1, s2. split; [exact E|]. split; [exact (gr_success _ _ G HV)|exact G].
  Qed.
  (** the final checks *)
  Lemma final_inv sv s' : final_checks P sv = (Ok tt, s') -> li_success s' = true ->
    li_export sv = true /\ (forall a, In a (py_ord P (li_args sv)) -> ~ In (fst a) (li_orm sv)) /\
    (forall a, In a (py_ord_types P (li_types sv)) -> exists t, fst a = Some t /\ In t ALLOWED_ANNOTATION_TYPES) /\ (forall a, In a (py_ord_types P (li_returns sv)) -> fst a = None).
  Proof.
    intros E H. unfold final_checks in E. apply bind_inv in E. destruct E as (s0 & s1 & E0 & E). injection E0 as <- <-.
    apply bind_inv in E. destruct E as ([] & s1 & E1 & E). apply bind_inv in E. destruct E as ([] & s2 & E2 & E). apply bind_inv in E. destruct E as ([] & s3 & E3 & E4).
    assert (H3 : li_success s3 = true). { eapply gr_success; [|exact H]. eapply mono_step; [|exact E4]. apply mono_foreach. intros a. unfold check_return_types. mono. }
    assert (H2 : li_success s2 = true). { eapply gr_success; [|exact H3]. eapply mono_step; [|exact E3]. apply mono_foreach. intros a. unfold annotation_types. mono. }
    assert (V : forall z i s r s'', violate_at z i s = (Ok r, s'') -> li_success s'' = false). { intros z i s r s'' Q. injection Q as _ <-. reflexivity. }
    assert (H1 : li_success s1 = true). { eapply gr_success; [|exact H2]. eapply mono_step; [|exact E2]. mono. }
    split; [|split; [|split]].
    - destruct (li_export sv); [reflexivity|]. apply V in E2. congruence.
    - intros a I. eapply foreach_inv in E1; [|intros y; mono|exact I]. destruct E1 as (sa & sb & _ & E1 & G). destruct (str_mem (fst a) (li_orm sv)) eqn:M; [apply V in E1; rewrite (gr_success _ _ G H1) in E1; discriminate E1|].
      intros J. apply str_mem_spec in J. congruence.
    - intros a I. eapply foreach_inv in E3; [|intros y; unfold annotation_types; mono|exact I]. destruct E3 as (sa & sb & _ & E3 & G). pose proof (gr_success _ _ G H3) as Q. unfold annotation_types in E3. destruct (fst a) as [t|].
      + destruct (str_mem t ALLOWED_ANNOTATION_TYPES) eqn:M; [|apply V in E3; congruence]. exists t. split; [reflexivity|]. apply str_mem_spec, M.
      + apply V in E3. congruence.
    - intros a I. eapply foreach_inv in E4; [|intros y; unfold check_return_types; mono|exact I]. destruct E4 as (sa & sb & _ & E4 & G). pose proof (gr_success _ _ G H) as Q. unfold check_return_types in E4. destruct (fst a) as [t|]; [|reflexivity].
      apply V in E4. congruence.
  Qed.
End Check.

(** an assignment of an ORM object *)
Section Assign.
  Variable P : pyenv.
  Lemma check_assign n v f c s s' : check_node P n s = (Ok tt, s') -> li_success s' = true -> kind_of n = "Assign" -> has_field n "value" v -> kind_of v = "Call" -> has_field v "func" f ->
    kind_of f <> "Attribute" -> has_field f "id" (Ident c) -> In c ORM_CLASS_NAMES ->
    (forall kws k x, (c = u "Variable" \/ c = u "Hash" \/ c = u "LogEvent") -> has_field v "keywords" (Items kws) -> In k kws -> has_field k "arg" (Ident x) -> x <> u "contract" /\ x <> u "name") /\
    (exists t ts, has_field n "targets" (Items (t :: ts)) /\ (forall y, has_field t "id" (Ident y) -> In y (li_orm s')) /\ forall x, In x (t :: ts) -> kind_of x <> "Tuple").
  Proof.
    intros E H K FV KV FF KF FI IC. destruct (check_pre P n s s' E H) as (s1 & E1 & H1 & ->). destruct (kind_cases n _ K) as (ln & fs & ->); [discriminate|]. unfold pre in E1. cbn [String.eqb Ascii.eqb Bool.eqb] in E1. clear E H.
    unfold pre_assign in E1. unfold has_field in FV. rewrite FV in E1. apply bind_inv in E1. destruct E1 as (v' & s2 & E0 & E). apply lift_inv in E0. destruct E0 as [E0 ->]. injection E0 as <-.
    destruct (kind_cases v _ KV) as (lv & fv & ->); [discriminate|]. change (is_kind "Name" (Node "Call" lv fv)) with false in E. cbn iota in E. apply bind_inv in E. destruct E as (q0 & s2 & E0 & E). injection E0 as _ <-.
    assert (OC : orm_call (Node "Call" lv fv) = Ok (Some c)).
    { unfold orm_call. change (is_kind "Call" (Node "Call" lv fv)) with true. cbn iota. unfold has_field in FF. rewrite FF. cbn [bindr].
      assert (KA : is_kind "Attribute" f = false). { destruct f; try reflexivity. cbn [is_kind kind_of] in *. apply String.eqb_neq. congruence. }
      rewrite KA. rewrite (proj2 (attr_id_inv _ _ _) FI). cbn [bindr]. rewrite (proj2 (str_mem_spec _ _) IC). reflexivity. }
    rewrite OC in E. apply bind_inv in E. destruct E as (o & s2 & E0 & E). apply lift_inv in E0. destruct E0 as [E0 ->]. injection E0 as <-. cbn iota in E.
    apply bind_inv in E. destruct E as (q1 & s2 & EK & E). apply bind_inv in E. destruct E as (ts & s3 & E0 & E). apply lift_inv in E0. destruct E0 as [E0 ->]. apply attrs_inv in E0.
    apply bind_inv in E. destruct E as (q2 & s3 & ET & E).
    assert (H3 : li_success s3 = true). { eapply gr_success; [|exact H1]. eapply mono_step; [|exact E]. mono. }
    assert (H2 : li_success s2 = true). { eapply gr_success; [|exact H3]. eapply mono_step; [|exact ET]. mono. }
    split.
    - intros kws k x HC FK I FX.
      assert (HC' : (str_eqb c (u "Variable") || str_eqb c (u "Hash") || str_eqb c (u "LogEvent"))%bool = true).
      { destruct HC as [->|[->| ->]]; rewrite str_eqb_refl; rewrite ?Bool.orb_true_r; reflexivity. }
      rewrite HC' in EK. apply bind_inv in EK. destruct EK as (kws' & s4 & E1 & EK). apply lift_inv in E1. destruct E1 as [E1 ->]. apply attrs_inv in E1. unfold has_field in E1, FK. rewrite FK in E1. injection E1 as <-.
      apply bind_inv in EK. destruct EK as (names & s4 & E1 & EK). apply clean_if in EK; [|exact H2]. destruct EK as [B ->].
      assert (IN : In (Ident x) names).
      { clear - E1 I FX. revert s names E1. induction kws as [|y kws IH]; intros s names E1; [destruct I|]. cbn [mapm] in E1. apply bind_inv in E1. destruct E1 as (a & s5 & EA & E1). apply lift_inv in EA. destruct EA as [EA ->].
        apply bind_inv in E1. destruct E1 as (l & s5 & EL & E1). injection E1 as <- <-. destruct I as [->|I]; [left; unfold has_field in FX; rewrite FX in EA; injection EA as <-; reflexivity|right; exact (IH I _ _ EL)]. }
      assert (NB : (str_eqb x (u "contract") || str_eqb x (u "name"))%bool = false).
      { apply Bool.not_true_is_false. intros T. assert (existsb (fun a => match a with Ident s => (str_eqb s (u "contract") || str_eqb s (u "name"))%bool | _ => false end) names = true); [|congruence].
        apply existsb_exists. exists (Ident x). auto. }
      apply Bool.orb_false_elim in NB. destruct NB as [N1 N2]. apply str_eqb_neq in N1, N2. auto.
    - destruct ts as [|t ts]; [discriminate E|]. exists t, ts. split; [exact E0|]. split; [intros y FY; rewrite (proj2 (attr_id_inv _ _ _) FY) in E; injection E as <-; apply (add_to_In str_eqb y); intros z Q; apply str_eqb_eq, Q|].
      apply clean_if in ET; [|exact H3]. destruct ET as [B _]. apply Bool.orb_false_elim in B. destruct B as [B _]. intros x Ix Kx. assert (T : existsb (is_kind "Tuple") (t :: ts) = true); [|congruence].
      apply existsb_exists. exists x. split; [exact Ix|]. destruct (kind_cases x _ Kx) as (lx & fx & ->); [discriminate|]. reflexivity.
  Qed.
  Lemma check_alias n v x s s' : check_node P n s = (Ok tt, s') -> li_success s' = true -> kind_of n = "Assign" -> has_field n "value" v -> kind_of v = "Name" -> has_field v "id" (Ident x) ->
    x <> u "Hash" /\ x <> u "Variable" /\ x <> u "LogEvent".
  Proof.
    intros E H K FV KV FI. destruct (check_pre P n s s' E H) as (s1 & E1 & H1 & ->). destruct (kind_cases n _ K) as (ln & fs & ->); [discriminate|]. unfold pre in E1. cbn [String.eqb Ascii.eqb Bool.eqb] in E1. clear E H.
    unfold pre_assign in E1. unfold has_field in FV. rewrite FV in E1. apply bind_inv in E1. destruct E1 as (v' & s2 & E0 & E). apply lift_inv in E0. destruct E0 as [E0 ->]. injection E0 as <-.
    destruct (kind_cases v _ KV) as (lv & fv & ->); [discriminate|]. change (is_kind "Name" (Node "Name" lv fv)) with true in E. cbn iota in E. apply bind_inv in E. destruct E as (q0 & s2 & E0 & E).
    rewrite (proj2 (attr_id_inv _ _ _) FI) in E0. apply bind_inv in E0. destruct E0 as (x' & s3 & E0 & E2). injection E0 as <- <-.
    apply clean_if in E2; [|eapply gr_success; [|exact H1]; eapply mono_step; [|exact E]; mono]. destruct E2 as [B _].
    apply Bool.orb_false_elim in B. destruct B as [B B3]. apply Bool.orb_false_elim in B. destruct B as [B1 B2]. apply str_eqb_neq in B1, B2, B3. auto.
  Qed.
End Assign.
