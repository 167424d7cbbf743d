(** * C60, C74: what the parser says about compiled contracts *)
From Verif Require Import Model.Base Model.State Model.Dec Model.Time Model.Value Model.Encoder Model.Hdf5 Model.Runtime Model.Ast Model.Linter Model.Compiler.
From Verif Require Import Spec.LintSpec Spec.CompSpec Proofs.BaseFacts Proofs.DriverFacts Proofs.LintFacts Proofs.CompFacts Proofs.WalkFacts Properties.LintProps Properties.CompProps.
From Coq Require Import Lia.
Local Open Scope string_scope.
Local Open Scope list_scope.

Lemma F2_filter {A B} (Q : A -> B -> Prop) f g l l' : (forall a b, Q a b -> f a = g b) -> Forall2 Q l l' -> Forall2 Q (filter f l) (filter g l').
Proof. intros E H. induction H as [|a b l l' Hab _ IH]; cbn [filter]; [constructor|]. rewrite (E a b Hab). destruct (g b); [constructor; assumption|exact IH]. Qed.
Lemma filter_filter {A} (f g : A -> bool) l : (forall a, f a = true -> g a = true) -> filter f (filter g l) = filter f l.
Proof.
  intros H. induction l as [|a l IH]; [reflexivity|]. cbn [filter]. destruct (g a) eqn:G; cbn [filter]; [rewrite IH; reflexivity|]. destruct (f a) eqn:Fa; [rewrite (H a Fa) in G; discriminate|exact IH].
Qed.
Lemma compiled_attr m R k ln fs n' f v : ~ In k ["Name"; "Constant"; "FunctionDef"; "Assign"] -> compiled m R (Node k ln fs) n' -> has_field (Node k ln fs) f v -> exists v', has_field n' f v' /\ compiled m R v v'.
Proof.
  intros NK C F. inversion C as [| | | | | | | | | | | |k0 ln0 fs0 fs' NK' H]; subst; try (exfalso; apply NK; cbn; auto; fail). unfold has_field, attr in *. clear - H F.
  induction H as [|[a1 a2] [b1 b2] l l' [A1 A2] _ IH]; [discriminate F|]. cbn [fst snd] in *. subst b1. cbn [field] in *. destruct (f =? a1); [injection F as ->; eauto|exact (IH F)].
Qed.
Lemma compiled_no_attr m R k ln fs n' f : ~ In k ["Name"; "Constant"; "FunctionDef"; "Assign"] -> compiled m R (Node k ln fs) n' -> attr f (Node k ln fs) = Err EAttribute -> attr f n' = Err EAttribute.
Proof.
  intros NK C F. inversion C as [| | | | | | | | | | | |k0 ln0 fs0 fs' NK' H]; subst; try (exfalso; apply NK; cbn; auto; fail). unfold attr in *. clear - H F.
  induction H as [|[a1 a2] [b1 b2] l l' [A1 A2] _ IH]; [reflexivity|]. cbn [fst snd] in *. subst b1. cbn [field] in *. destruct (f =? a1); [discriminate F|exact (IH F)].
Qed.
Lemma startswith_self x y : startswith (x ++ y) x = true. Proof. apply startswith_app. Qed.
Section Parser.
  Variables (m : pystr) (P : pyenv) (t : ast) (s : comp) (t' : ast) (s' : comp).
  Hypothesis W1 : whole (py_ord P).
  Hypothesis W2 : whole (py_ord_types P).
  Hypothesis HS : python_source t.
  Hypothesis HA : arguments_ok t.
  Hypothesis HM : kind_of t = "Module".
  Hypothesis HF : fresh s.
  Hypothesis HP : parse m P true t s = (Ok t', s').
  Lemma is_module : is_node t = true. Proof. destruct t; try discriminate HM. reflexivity. Qed.
  Lemma keeps R y z : renaming t R -> types_kept t -> In y TYPES -> startswith (u y) z = true -> R z = z.
  Proof. intros RN K I S. apply RN; intros H; [rewrite (K z y (or_introl H) I) in S|rewrite (K z y (or_intror H) I) in S]; discriminate S. Qed.
  Lemma annotation_compiled R a a' y : renaming t R -> python_tree a -> kind_of a = "arg" -> compiled m R a a' -> In y TYPES -> annotated a (u y) -> exists y', annotation a' = Ok y' /\ (types_kept t -> y' = u y).
  Proof.
    intros RN HT K C IY (x & FX & AX). destruct (kind_cases a _ K) as (ln & fs & ->); [discriminate|]. assert (NA : ~ In "arg" ["Name"; "Constant"; "FunctionDef"; "Assign"]) by (cbn; intuition discriminate). destruct (compiled_attr m R _ _ _ _ _ _ NA C FX) as (x' & FX' & CX).
    assert (IX : is_node x = true -> In x (nodes (Node "arg" ln fs))).
    { intros N. rewrite nodes_node. right. unfold has_field, attr in FX. assert (I : exists g, In (g, x) fs). { clear - FX. induction fs as [|[g v] r IH]; [discriminate FX|]. cbn [field] in FX. destruct ("annotation" =? g); [injection FX as ->; exists g; left; reflexivity|destruct (IH FX) as (g' & I); exists g'; right; exact I]. }
      destruct I as (g & I). apply in_flat_map. exists (g, x). split; [exact I|]. cbn [snd]. destruct x; try discriminate N. rewrite nodes_node. left. reflexivity. }
    unfold annotation. unfold has_field in FX'. rewrite FX'. cbn [bindr]. destruct AX as [FI|(v & p & q & FV & FP & FQ & EY)].
    - assert (N : is_node x = true) by (destruct x; try discriminate FI; reflexivity). destruct (HT x (IX N)) as (SN & _ & _ & _ & _ & SI). destruct (SN (SI _ FI)) as (ln1 & y1 & c & ->). injection FI as ->.
      inversion CX as [| | | |ln0 x0 ctx| | | | | | | |k0 ln0 fs0 fs' NK H]; subst; [|exfalso; apply NK; cbn; auto]. exists (R (u y)). split; [reflexivity|]. intros TK. apply (keeps R y (u y) RN TK IY). rewrite <- (app_nil_r (u y)) at 1. apply startswith_self.
    - assert (N : is_node x = true) by (destruct x; try discriminate FV; reflexivity). destruct (HT x (IX N)) as (SN & SC & SF & SA & _ & SI). destruct x as [k lx fx| | | |]; try discriminate N.
      assert (NK : ~ In k ["Name"; "Constant"; "FunctionDef"; "Assign"]).
      { cbn [kind_of] in *. intros [<-|[<-|[<-|[<-|[]]]]].
        - destruct (SN eq_refl) as (l1 & x1 & c1 & E). injection E as -> ->. discriminate FV.
        - destruct (SC eq_refl) as (l1 & c1 & k1 & E & _). injection E as -> ->. injection FV as <-. discriminate FP.
        - destruct (SF eq_refl) as (l1 & x1 & a1 & b1 & d1 & r1 & t1 & E & _). injection E as -> ->. discriminate FV.
        - destruct (SA eq_refl) as (l1 & ts1 & v1 & t1 & E & _). injection E as -> ->. discriminate FQ. }
      destruct (compiled_attr m R k lx fx x' "value" v NK CX FV) as (v' & FV' & CV). destruct (compiled_attr m R k lx fx x' "attr" (Ident q) NK CX FQ) as (q' & FQ' & CQ). inversion CQ; subst.
      assert (NI : attr "id" x' = Err EAttribute).
      { apply (compiled_no_attr m R k lx fx x' "id" NK CX). unfold attr. destruct (field "id" fx) as [w|] eqn:E; [|reflexivity]. exfalso. apply NK. left. symmetry. apply (SI w). unfold has_field, attr. rewrite E. reflexivity. }
      assert (IV : In v (nodes (Node "arg" ln fs))).
      { apply (nodes_trans _ _ _ (IX eq_refl)). rewrite nodes_node. right. unfold has_field, attr in FV. assert (I : exists g, In (g, v) fx). { clear - FV. induction fx as [|[g w] r IH]; [discriminate FV|]. cbn [field] in FV. destruct ("value" =? g); [injection FV as ->; exists g; left; reflexivity|destruct (IH FV) as (g' & I); exists g'; right; exact I]. }
        destruct I as (g & I). apply in_flat_map. exists (g, v). split; [exact I|]. cbn [snd]. destruct v; try discriminate FP. rewrite nodes_node. left. reflexivity. }
      destruct (HT v IV) as (SN' & _ & _ & _ & _ & SI'). destruct (SN' (SI' _ FP)) as (l1 & x1 & c1 & ->). injection FP as ->.
      inversion CV as [| | | |ln0 x0 ctx| | | | | | | |k0 ln0 fs0 fs' NK' H]; subst; [|exfalso; apply NK'; cbn; auto].
      unfold attr_id at 1. rewrite NI. cbn [bindr]. unfold has_field in FV', FQ'. rewrite FV'. cbn [bindr]. unfold attr_id. rewrite FQ'. cbn [bindr attr name_of field ident].
      eexists. split; [reflexivity|]. intros TK. rewrite EY. f_equal. apply (keeps R y p RN TK IY). rewrite EY. apply startswith_self.
  Qed.
  Definition describes_arg (a : ast) (i : argument_info) : Prop := has_field a "arg" (ar_name i) /\ exists y, In y TYPES /\ annotated a (u y) /\ (types_kept t -> ar_type i = u y).
  Definition describes (n : ast) (me : method) : Prop := has_field n "name" (Ident (me_name me)) /\ exists l, has_args n l /\ Forall2 describes_arg l (me_args me).
  Lemma arguments_listed R l l' : renaming t R -> Forall2 (compiled m R) l l' -> (forall x, In x l -> python_tree x /\ kind_of x = "arg" /\ (exists y, has_field x "arg" (Ident y)) /\ exists y, In y TYPES /\ annotated x (u y)) ->
    exists il, seqr arg_info l' = Ok il /\ Forall2 describes_arg l il.
  Proof.
    intros RN H. induction H as [|a a' l l' Ca _ IH]; intros Q; [exists []; split; [reflexivity|constructor]|].
    destruct IH as (il & E & Fl); [intros x I; apply Q; right; exact I|]. destruct (Q a (or_introl eq_refl)) as (HT & K & (z & FZ) & y & IY & AY).
    destruct (annotation_compiled R a a' y RN HT K Ca IY AY) as (y' & EA & TY). exists (mkArg (Ident z) y' :: il). split.
    - cbn [seqr]. unfold arg_info at 1. rewrite EA. cbn [bindr]. pose proof (proj1 (compiled_field m R a a' z Ca) FZ) as FZ'. unfold has_field in FZ'. rewrite FZ'. cbn [bindr]. rewrite E. reflexivity.
    - constructor; [|exact Fl]. split; [exact FZ|]. exists y. auto.
  Qed.
  Lemma methods_listed : exists l, methods_for_contract t' = Ok l /\ Forall2 describes (filter public (walk t)) l.
  Proof.
    destruct (parse_compiled m P t s t' s' HS HF HP) as (AC & R & RN & C). pose proof (walk_compiled m R t t' (so_shape _ HS) is_module C) as W.
    assert (W' : Forall2 (fun n n' => python_tree n /\ compiled m R n n') (filter (is_kind "FunctionDef") (walk t)) (filter (is_kind "FunctionDef") (walk t'))).
    { rewrite <- (filter_filter (is_kind "FunctionDef") deed (walk t)), <- (filter_filter (is_kind "FunctionDef") deed (walk t')) by (intros a E; unfold deed; rewrite E; reflexivity).
      apply F2_filter; [|exact W]. intros a b [_ Cab]. destruct Cab; reflexivity. }
    unfold methods_for_contract. assert (IN : forall n, In n (filter (is_kind "FunctionDef") (walk t)) -> In n (nodes t) /\ kind_of n = "FunctionDef").
    { intros n I. apply filter_In in I. destruct I as [I K]. split; [exact (walk_in t n is_module I)|]. destruct n as [k ln fs| | | |]; try discriminate K. unfold is_kind in K. destruct (String.eqb_spec "FunctionDef" k) as [<-|]; [reflexivity|discriminate K]. }
    rewrite <- (filter_filter public (is_kind "FunctionDef") (walk t)).
    2: { intros a E. unfold public in E. apply Bool.andb_true_iff in E. destruct E as [E _]. pose proof (named_decorator_kind _ _ E) as K. destruct (kind_cases a _ K) as (ln & fs & ->); [discriminate|]. reflexivity. }
    revert W' IN. generalize (filter (is_kind "FunctionDef") (walk t')) (filter (is_kind "FunctionDef") (walk t)). intros l' l W' IN.
    induction W' as [|n n' l l' [HT Cn] _ IH]; [exists []; split; [reflexivity|constructor]|].
    destruct IH as (ms & E & Fm); [intros x I; apply IN; right; exact I|]. destruct (IN n (or_introl eq_refl)) as [I K]. destruct (HA n I K) as (a & al & FA & KA & FL & AL).
    assert (HG : has_args n al) by (exists a; auto).
    cbn [seqr filter]. destruct (seqr _ l') as [ml|]; [|discriminate E]. cbn [bindr] in E. injection E as E.
    assert (SKIP : forall x, attr_id "name" n' = Ok x -> startswith x (u "__") = true -> public n = false -> exists l0 : list method,
      (do l1 <- (do y <- (do name <- attr_id "name" n'; if startswith name (u "__") then Ok [] else do args <- attr "args" n'; do l1 <- attrs "args" args; do kw <- seqr arg_info l1; Ok [mkMethod name kw]); do ys <- Ok ml; Ok (y :: ys)); Ok (List.concat l1)) = Ok l0 /\
      Forall2 describes (if public n then n :: filter public l else filter public l) l0).
    { intros x EX SX PX. rewrite EX, PX. cbn [bindr]. rewrite SX. cbn [bindr List.concat]. exists ms. rewrite E. split; [reflexivity|exact Fm]. }
    inversion Cn as [| | | |ln0 x ctx|ln0 z k0|ln0 c k0 NF|ln0 x a0 b r tc a' b' r' CA CB CR|ln0 x a0 b d r tc a' b' r' FD CA CB CR|ln0 x a0 b ld ctx r tc a' b' r' CA CB CR|
      ln0 lv f0 args kws ts tc c x f' args' kws' ts' OA TG CF CA CK CT|ln0 ts w tc ts' w' NO CT CV|k0 ln0 fs0 fs' NK H]; subst; try discriminate K.
    - apply (SKIP (u "__" ++ x)); [reflexivity|apply startswith_app|reflexivity].
    - apply (SKIP (u "____")); [reflexivity|reflexivity|]. unfold public, exported. unfold has_field in FD. cbn [named_decorator def_node field String.eqb Ascii.eqb Bool.eqb existsb]. unfold attr_id at 1. rewrite FD. reflexivity.
    - injection FA as ->. destruct (startswith x (u "__")) eqn:SX; [apply (SKIP x); [reflexivity|exact SX|]; unfold public; cbn [attr_id]; unfold attr_id; cbn [attr def_node field String.eqb Ascii.eqb Bool.eqb bindr ident]; rewrite SX; apply Bool.andb_false_r|].
      clear SKIP. assert (PX : public (def_node ln0 x a b [name_of ld (u "export") ctx] r tc) = true). { unfold public. unfold attr_id; cbn [attr def_node field String.eqb Ascii.eqb Bool.eqb bindr ident]. rewrite SX. reflexivity. }
      rewrite PX. assert (KA' : forall a1, has_field (def_node ln0 x a b [name_of ld (u "export") ctx] r tc) "args" a1 -> kind_of a1 = "arguments") by (intros a1 F1; injection F1 as <-; exact KA).
      destruct (compiled_args m R _ _ al K KA' Cn HG) as (al' & (a2 & FA' & FL') & CL). injection FA' as <-.
      destruct (arguments_listed R al al' RN CL) as (il & EI & FI).
      { intros y Iy. destruct (AL y Iy) as (KY & NY). split; [|split; [exact KY|split; [exact NY|]]].
        - assert (IA : In y (nodes (def_node ln0 x a b [name_of ld (u "export") ctx] r tc))).
          { destruct (kind_cases a _ KA) as (la & fa & ->); [discriminate|]. unfold def_node. rewrite nodes_node. right. apply in_flat_map. exists ("args", Node "arguments" la fa). split; [cbn; auto|]. cbn [snd]. rewrite nodes_node. right.
            unfold has_field, attr in FL. assert (I0 : exists g, In (g, Items al) fa). { clear - FL. induction fa as [|[g w] q IH]; [discriminate FL|]. cbn [field] in FL. destruct ("args" =? g); [injection FL as ->; exists g; left; reflexivity|destruct (IH FL) as (g' & I); exists g'; right; exact I]. }
            destruct I0 as (g & I0). apply in_flat_map. exists (g, Items al). split; [exact I0|]. cbn [snd]. rewrite nodes_items. apply in_flat_map. exists y. split; [exact Iy|]. destruct (kind_cases y _ KY) as (ly & fy & ->); [discriminate|]. rewrite nodes_node. left. reflexivity. }
          intros q Iq. apply HT. exact (nodes_trans _ _ _ IA Iq).
        - apply (accepted_args P t (so_imports _ HS) (so_lines _ HS) AC _ al W1 W2 I K HG y Iy). reflexivity. }
      exists (mkMethod x il :: List.concat ml). split; [|constructor; [|exact Fm]].
      + unfold attr_id; cbn [attr def_node field String.eqb Ascii.eqb Bool.eqb bindr ident]. rewrite SX. unfold attrs. unfold has_field in FL'. rewrite FL'. cbn [bindr items]. rewrite EI. reflexivity.
      + split; [reflexivity|]. exists al. split; [exact HG|exact FI].
    - cbn [kind_of] in K. subst k0. exfalso. apply NK. cbn. auto.
  Qed.
End Parser.
(** ** C60 methods_for_contract lists exactly the public functions

    In the order of ast.walk, in which every node of the tree comes.  Missing for the full property: exported functions whose
    name starts with "__" are not listed, and of the arguments only those that are not keyword-only, position-only or
    starred (below). *)
Theorem C60_partial m P t s t' s' : whole (py_ord P) -> whole (py_ord_types P) -> python_source t -> arguments_ok t -> flat t -> kind_of t = "Module" -> fresh s -> parse m P true t s = (Ok t', s') ->
  exists l, methods_for_contract t' = Ok l /\ Forall2 (describes t) (filter public (walk t)) l /\ forall n, In n (walk t) <-> In n (nodes t).
Proof.
  intros W1 W2 HS HA FL HM HF HP. destruct (methods_listed m P t s t' s' W1 W2 HS HA HM HF HP) as (l & E & Q). exists l. split; [exact E|]. split; [exact Q|]. intros n. apply walk_nodes; [exact FL|clear - HM; destruct t; try discriminate HM; reflexivity].
Qed.
Lemma sample_flat : flat sample.
Proof. intros k ln fs f l l' I F J. cbn in I. repeat (destruct I as [I|I]; [injection I as <- <- <-; cbn in F; repeat (destruct F as [F|F]; [try discriminate F; injection F as <- <-; cbn in J; repeat (destruct J as [J|J]; [discriminate J|]); exact J|]); exact F|]). exact I. Qed.
Lemma sample_arguments : arguments_ok sample.
Proof.
  intros n I K. cbn in I. repeat (destruct I as [<-|I]; [first [discriminate K|eexists; eexists; split; [reflexivity|]; split; [reflexivity|]; split; [reflexivity|]; intros x J; cbn in J; repeat (destruct J as [<-|J]; [split; [reflexivity|eexists; reflexivity]|]); destruct J]|]). destruct I.
Qed.
Example C60_sample : arguments_ok sample /\ flat sample /\ kind_of sample = "Module" /\ methods_for_contract sample' = Ok [mkMethod (u "f") [mkArg (Ident (u "a")) (u "int")]].
Proof. split; [exact sample_arguments|]. split; [exact sample_flat|]. split; [reflexivity|]. vm_compute. reflexivity. Qed.
(** @export def __x(): pass *)
Definition hidden : ast := module [def_at 2 "__x" none_args [pass_at 3] (export_at 1) Absent].
Definition hidden' : ast := match fst (parse (u "con_x") python true hidden comp0) with Ok t => t | Err _ => Absent end.
(** @export def f(a: int, *, k): pass *)
Definition kwonly : ast := module [def_at 2 "f" (args_of [] [arg_at 2 "a" (name_at 2 "int")] Absent [arg_at 2 "k" Absent]) [pass_at 3] (export_at 1) Absent].
Definition kwonly' : ast := match fst (parse (u "con_x") python true kwonly comp0) with Ok t => t | Err _ => Absent end.
Theorem C60_refuted :
  (accepted python hidden /\ fst (parse (u "con_x") python true hidden comp0) = Ok hidden' /\ (exists n, In n (nodes hidden) /\ exported n = true /\ has_field n "name" (Ident (u "__x"))) /\ methods_for_contract hidden' = Ok []) /\
  (accepted python kwonly /\ fst (parse (u "con_x") python true kwonly comp0) = Ok kwonly' /\ (exists n a, In n (nodes kwonly) /\ exported n = true /\ argument_of n a /\ has_field a "arg" (Ident (u "k"))) /\
   methods_for_contract kwonly' = Ok [mkMethod (u "f") [mkArg (Ident (u "a")) (u "int")]]).
Proof.
  split; (split; [apply fine_ok; vm_compute; reflexivity|]; split; [vm_compute; reflexivity|]; split; [|vm_compute; reflexivity]).
  - exists (def_at 2 "__x" none_args [pass_at 3] (export_at 1) Absent). split; [cbn; auto|]. split; [vm_compute; reflexivity|reflexivity].
  - exists (def_at 2 "f" (args_of [] [arg_at 2 "a" (name_at 2 "int")] Absent [arg_at 2 "k" Absent]) [pass_at 3] (export_at 1) Absent), (arg_at 2 "k" Absent). split; [cbn; auto|]. split; [vm_compute; reflexivity|].
    split; [|reflexivity]. eexists. split; [reflexivity|]. left. exists "kwonlyargs", [arg_at 2 "k" Absent]. split; [auto|]. split; [reflexivity|left; reflexivity].
Qed.

(** ** C74 variables_for_contract lists exactly the declared variables and hashes *)
Lemma assigns_deeds l : assigns_before l = assigns_before (filter deed l).
Proof.
  induction l as [|n l IH]; [reflexivity|]. cbn [filter assigns_before]. destruct (is_kind "FunctionDef" n) eqn:E1; [unfold deed; rewrite E1; cbn; rewrite E1; reflexivity|].
  destruct (is_kind "Assign" n) eqn:E2; unfold deed; rewrite E1, E2; cbn [orb assigns_before]; [rewrite E1, E2, IH; reflexivity|exact IH].
Qed.
Lemma assigns_split before rest : (forall n, In n before -> kind_of n <> "FunctionDef") -> (rest = [] \/ exists n r, rest = n :: r /\ kind_of n = "FunctionDef") -> assigns_before (before ++ rest) = filter (is_kind "Assign") before.
Proof.
  intros H HR. induction before as [|n l IH]; cbn [app filter assigns_before].
  - destruct HR as [->|(n & r & -> & K)]; [reflexivity|]. destruct (kind_cases n _ K) as (ln & fs & ->); [discriminate|]. reflexivity.
  - assert (E : is_kind "FunctionDef" n = false). { destruct n as [k ln fs| | | |]; try reflexivity. unfold is_kind. destruct (String.eqb_spec "FunctionDef" k) as [<-|]; [|reflexivity]. exfalso. apply (H (Node "FunctionDef" ln fs)); [left; reflexivity|reflexivity]. }
    rewrite E, IH by (intros x I; apply H; right; exact I). reflexivity.
Qed.
Lemma assigns_pair (Q : ast -> ast -> Prop) l l' : (forall n n' : ast, Q n n' -> is_kind "FunctionDef" n' = is_kind "FunctionDef" n /\ is_kind "Assign" n' = is_kind "Assign" n) -> Forall2 Q l l' -> Forall2 Q (assigns_before l) (assigns_before l').
Proof.
  intros H F. induction F as [|n n' l l' Hn _ IH]; cbn [assigns_before]; [constructor|]. destruct (H n n' Hn) as [-> ->]. destruct (is_kind "FunctionDef" n); [constructor|]. destruct (is_kind "Assign" n); [constructor; assumption|exact IH].
Qed.
Lemma lstrip_private x : startswith x (u "_") = false -> lstrip_ (u "__" ++ x) = x.
Proof.
  intros H. destruct x as [|c x]; [reflexivity|]. change (u "__") with [95%N; 95%N]. change (u "_") with [95%N] in H. cbn [app lstrip_]. change (ch "_") with 95%N. rewrite !N.eqb_refl.
  cbn [startswith] in H. rewrite Bool.andb_true_r in H. destruct (N.eqb_spec c 95) as [->|]; [rewrite N.eqb_refl in H; discriminate H|reflexivity].
Qed.
Section Variables.
  Variables (m : pystr) (P : pyenv) (t : ast) (s : comp) (t' : ast) (s' : comp).
  Hypothesis HS : python_source t.
  Hypothesis HM : kind_of t = "Module".
  Hypothesis HF : fresh s.
  Hypothesis HP : parse m P true t s = (Ok t', s').
  Hypothesis OWN : forall c, c = "Variable" \/ c = "Hash" -> ~ private_name t (u c) /\ ~ orm_name t (u c).
  Definition row (n : ast) : result (list (bool * pystr)) :=
    do v <- attr "value" n;
    if is_kind "Call" v then
      do f <- attr "func" v;
      do id <- attr_id "id" f;
      if (str_eqb id (u "Variable") || str_eqb id (u "Hash"))%bool then
        do ts <- attrs "targets" n;
        match ts with
        | [] => Err EIndex
        | t :: _ => do x <- attr_id "id" t; Ok [(str_eqb id (u "Hash"), lstrip_ x)]
        end
      else Ok []
    else Ok [].
  Lemma row_compiled R n n' : renaming t R -> In n (nodes t) -> kind_of n = "Assign" -> compiled m R n n' ->
    (forall v f, has_field n "value" v -> kind_of v = "Call" -> has_field v "func" f -> kind_of f = "Name") ->
    exists r, row n' = Ok r /\ forall b x, In (b, x) r <-> declares (if b then "Hash" else "Variable") n x.
  Proof.
    intros RN I K C CN. destruct (parse_compiled m P t s t' s' HS HF HP) as (AC & _). destruct (so_shape _ HS n I) as (_ & _ & _ & SA & _). destruct (SA K) as (ln & ts & v & tc & -> & CM).
    assert (IV : is_node v = true -> In v (nodes t)). { intros N. apply (nodes_trans _ _ _ I). unfold assign_node. rewrite nodes_node. right. apply in_flat_map. exists ("value", v). split; [cbn; auto|]. cbn [snd]. destruct v; try discriminate N. rewrite nodes_node. left. reflexivity. }
    assert (RI : forall z c, c = "Variable" \/ c = "Hash" -> R z = u c -> z = u c).
    { intros z c Hc E. destruct (RN z) as [R1 R2]. destruct (pystr_eq_dec (R z) z) as [Q|Q]; [congruence|]. assert (NN : ~ (~ (private_name t z \/ orm_name t z))) by (intros N; apply Q, R2; tauto).
      exfalso. apply NN. intros H. rewrite (R1 H) in E. destruct Hc as [->| ->]; discriminate E. }
    assert (NONE : (forall c kws, ~ orm_assignment (assign_node ln ts v tc) c kws) -> forall (b : bool) (x : pystr), In (b, x) [] <-> declares (if b then "Hash" else "Variable") (assign_node ln ts v tc) x).
    { intros NO b x. split; [intros []|]. intros ((kws & OA) & _). destruct (NO _ _ OA). }
    inversion C as [| | | | | | | | | |ln0 lv f args kws ts0 tc0 c x f' args' kws' ts' OA TG CF CA CK CT|ln0 ts0 w tc0 ts' w' NO CT CV|k0 ln0 fs0 fs' NK H]; subst.
    - destruct OA as (KO & (cl & ICL & ->) & v1 & f1 & FV & KV & FF & KF & FI & FK). injection FV as <-. injection FF as <-.
      assert (FN : has_field f' "id" (Ident (R (u cl)))). { inversion CF; subst; try discriminate KF; [injection FI as ->; reflexivity|]. cbn [kind_of] in KF. subst. exfalso. match goal with H : ~ In _ _ |- _ => apply H; cbn; auto end. }
      unfold row. cbn [assign_node attr field String.eqb Ascii.eqb Bool.eqb bindr the_call is_kind]. unfold attr_id at 1. unfold has_field in FN. rewrite FN. cbn [bindr ident].
      destruct TG as (t0 & tr & FT & FX). injection FT as ->. apply F2_cons in CT. destruct CT as (t1 & tr' & -> & CT0 & _).
      assert (IT : In t0 (nodes t)). { apply (nodes_trans _ _ _ I). unfold assign_node. rewrite nodes_node. right. apply in_flat_map. exists ("targets", Items (t0 :: tr)). split; [cbn; auto|]. cbn [snd]. rewrite nodes_items. cbn [flat_map]. apply in_or_app. left. destruct t0; try discriminate FX. rewrite nodes_node. left. reflexivity. }
      assert (OX : orm_name t x). { exists (assign_node ln (t0 :: tr) (the_call lv f args (Items kws)) tc), (u cl), kws. split; [exact I|]. split; [split; [reflexivity|split; [exists cl; split; [exact ICL|reflexivity]|exists (the_call lv f args (Items kws)), f; repeat (split; [first [assumption|reflexivity]|]); reflexivity]]|]. unfold first_target. exists t0, tr. split; [reflexivity|exact FX]. }
      assert (X1 : attr_id "id" t1 = Ok (u "__" ++ x)).
      { destruct (so_shape _ HS t0 IT) as (SN & _ & _ & _ & _ & SI). destruct (SN (SI _ FX)) as (l1 & y & c1 & ->). injection FX as ->. inversion CT0; subst; [|exfalso; match goal with H : ~ In _ _ |- _ => apply H; cbn; auto end].
        unfold attr_id. cbn [attr name_of field String.eqb Ascii.eqb Bool.eqb bindr ident]. rewrite (proj1 (RN x) (or_intror OX)). reflexivity. }
      assert (D : forall (c : string) (y : pystr), declares c (assign_node ln (t0 :: tr) (the_call lv f args (Items kws)) tc) y <-> u c = u cl /\ y = x).
      { intros c y. split.
        - intros ((kws1 & _ & _ & v2 & f2 & FV2 & _ & FF2 & _ & FI2 & _) & t2 & r2 & FT2 & FY). injection FV2 as <-. injection FF2 as <-. injection FT2 as <- <-. unfold has_field in *. rewrite FI in FI2. rewrite FX in FY. injection FY as ->. injection FI2 as E. split; [exact (eq_sym E)|reflexivity].
        - intros (E & ->). split; [|exists t0, tr; split; [reflexivity|exact FX]]. exists kws. split; [reflexivity|]. rewrite E. split; [exists cl; split; [exact ICL|reflexivity]|]. exists (the_call lv f args (Items kws)), f. repeat (split; [first [assumption|reflexivity]|]). reflexivity. }
      destruct (str_eqb (R (u cl)) (u "Variable")) eqn:EV; [|destruct (str_eqb (R (u cl)) (u "Hash")) eqn:EH].
      + apply str_eqb_eq in EV. apply RI in EV; [|auto]. cbn [orb]. unfold attrs. match goal with |- context [attr "targets" ?z] => change (attr "targets" z) with (Ok (Items (t1 :: tr'))) end. cbn [bindr items]. rewrite X1. cbn [bindr]. rewrite lstrip_private by exact (orm_not_system P t x HS AC OX).
        eexists. split; [reflexivity|]. rewrite EV. destruct (OWN "Variable" (or_introl eq_refl)) as [O1 O2]. rewrite (proj2 (RN (u "Variable")) O1 O2). intros b y. split.
        * intros [E|[]]. injection E as <- <-. apply D. split; [exact (eq_sym EV)|reflexivity].
        * intros H. apply D in H. destruct H as (E & ->). destruct b; [rewrite EV in E; discriminate E|]. left. reflexivity.
      + apply str_eqb_eq in EH. apply RI in EH; [|auto]. cbn [orb]. unfold attrs. match goal with |- context [attr "targets" ?z] => change (attr "targets" z) with (Ok (Items (t1 :: tr'))) end. cbn [bindr items]. rewrite X1. cbn [bindr]. rewrite lstrip_private by exact (orm_not_system P t x HS AC OX).
        eexists. split; [reflexivity|]. intros b y. split.
        * intros [E|[]]. injection E as <- <-. apply D. split; [exact (eq_sym EH)|reflexivity].
        * intros H. apply D in H. destruct H as (E & ->). destruct b; [left; reflexivity|]. rewrite EH in E. discriminate E.
      + exists []. split; [reflexivity|]. intros b y. split; [intros []|]. intros H. apply D in H. destruct H as (E & _). exfalso.
        destruct (OWN (if b then "Hash" else "Variable")) as [O1 O2]; [destruct b; auto|]. destruct b; rewrite <- E in *; rewrite (proj2 (RN _) O1 O2) in *; [discriminate EH|discriminate EV].
    - unfold row. cbn [assign_node attr field String.eqb Ascii.eqb Bool.eqb bindr]. destruct (is_kind "Call" w') eqn:KW; [|exists []; split; [reflexivity|exact (NONE NO)]].
      destruct w' as [k lw fw| | | |]; try discriminate KW. unfold is_kind in KW. destruct (String.eqb_spec "Call" k) as [<-|]; [|discriminate KW]. clear KW.
      inversion CV as [| | | | |ln1 x1 k1| | | | | | |k1 ln1 fs1 fs2 NK H]; subst; [exists []; split; [reflexivity|exact (NONE NO)]|].
      destruct (so_shape _ HS _ (IV eq_refl)) as (_ & _ & _ & _ & SC & _). destruct (SC eq_refl) as (ln2 & f2 & args2 & kws2 & E). injection E as -> ->.
      pose proof (CN (the_call ln2 f2 args2 (Items kws2)) f2 eq_refl eq_refl eq_refl) as KF. apply F2_cons in H. destruct H as ([b1 w1] & l1 & -> & [A1 A2] & H). cbn [fst snd] in *. subst b1. cbn [field String.eqb Ascii.eqb Bool.eqb bindr].
      destruct (kind_cases f2 _ KF) as (lf & ff & ->); [discriminate|]. inversion A2; subst; [|exfalso; match goal with H : ~ In _ _ |- _ => apply H; cbn; auto end].
      unfold attr_id. cbn [attr name_of field String.eqb Ascii.eqb Bool.eqb bindr ident].
      assert (NE : forall c, c = "Variable" \/ c = "Hash" -> str_eqb (R x) (u c) = false).
      { intros c Hc. destruct (str_eqb (R x) (u c)) eqn:E; [|reflexivity]. exfalso. apply str_eqb_eq in E. apply (RI x c Hc) in E. subst x. apply (NO (u c) kws2). split; [reflexivity|]. split; [exists c; split; [destruct Hc as [->| ->]; cbn; auto|reflexivity]|].
        exists (the_call ln2 (name_of lf (u c) ctx) args2 (Items kws2)), (name_of lf (u c) ctx). repeat (split; [reflexivity|]). reflexivity. }
      rewrite (NE "Variable"), (NE "Hash") by auto. exists []. split; [reflexivity|exact (NONE NO)].
    - exfalso. apply NK. cbn. auto.
  Qed.
  Lemma variables_listed before rest : walk t = before ++ rest -> (forall n, In n before -> kind_of n <> "FunctionDef") -> (rest = [] \/ exists n r, rest = n :: r /\ kind_of n = "FunctionDef") ->
    (forall n v f, In n before -> kind_of n = "Assign" -> has_field n "value" v -> kind_of v = "Call" -> has_field v "func" f -> kind_of f = "Name") ->
    exists vs hs, variables_for_contract t' = Ok (vs, hs) /\
    (forall x, In x vs <-> exists n, In n before /\ declares "Variable" n x) /\ (forall x, In x hs <-> exists n, In n before /\ declares "Hash" n x).
  Proof.
    intros WK NB HR CN. destruct (parse_compiled m P t s t' s' HS HF HP) as (AC & R & RN & C). assert (KN : is_node t = true) by (clear - HM; destruct t; try discriminate HM; reflexivity).
    pose proof (walk_compiled m R t t' (so_shape _ HS) KN C) as W. apply assigns_pair in W; [|intros n n' [_ Cn]; destruct Cn; split; reflexivity]. rewrite <- !assigns_deeds in W.
    rewrite WK in W. rewrite (assigns_split before rest NB HR) in W.
    assert (Q : exists l, seqr row (assigns_before (walk t')) = Ok l /\ forall b x, In (b, x) (List.concat l) <-> exists n, In n (filter (is_kind "Assign") before) /\ declares (if b then "Hash" else "Variable") n x).
    { assert (IN : forall n, In n (filter (is_kind "Assign") before) -> In n before /\ In n (nodes t) /\ kind_of n = "Assign").
      { intros n I. apply filter_In in I. destruct I as [I K]. split; [exact I|]. split; [apply (walk_in t n KN); rewrite WK; apply in_or_app; left; exact I|]. destruct n as [k ln fs| | | |]; try discriminate K. unfold is_kind in K. destruct (String.eqb_spec "Assign" k) as [<-|]; [reflexivity|discriminate K]. }
      revert W IN. generalize (assigns_before (walk t')) (filter (is_kind "Assign") before). intros l' l W IN. induction W as [|n n' l l' [_ Cn] _ IH]; [exists []; split; [reflexivity|]; intros b x; split; [intros []|intros (n & [] & _)]|].
      destruct IH as (ls & E & H); [intros x I; apply IN; right; exact I|]. destruct (IN n (or_introl eq_refl)) as (Ib & It & K). destruct (row_compiled R n n' RN It K Cn) as (r & Er & Hr); [intros v f; exact (CN n v f Ib K)|].
      exists (r :: ls). cbn [seqr]. rewrite Er, E. split; [reflexivity|]. intros b x. cbn [List.concat]. rewrite in_app_iff, Hr, H. split.
      - intros [D|(n0 & I0 & D)]; [exists n; split; [left; reflexivity|exact D]|exists n0; split; [right; exact I0|exact D]].
      - intros (n0 & [<-|I0] & D); [left; exact D|right; eauto]. }
    destruct Q as (l & E & H). unfold variables_for_contract. fold row. rewrite E. cbn [bindr].
    assert (DF : forall c n x, In n before /\ declares c n x <-> In n (filter (is_kind "Assign") before) /\ declares c n x).
    { intros c n x. rewrite filter_In. split; [|tauto]. intros [I D]. split; [|exact D]. split; [exact I|]. destruct D as ((kws & K & _) & _). destruct (kind_cases n _ K) as (ln & fs & ->); [discriminate|reflexivity]. }
    eexists. eexists. split; [reflexivity|]. split; intros x; rewrite in_map_iff.
    - split.
      + intros ((b & y) & <- & I). apply filter_In in I. destruct I as [I B]. destruct b; [discriminate B|]. apply H in I. destruct I as (n & I & D). exists n. apply DF. auto.
      + intros (n & D). apply DF in D. exists (false, x). split; [reflexivity|]. apply filter_In. split; [|reflexivity]. apply H. eauto.
    - split.
      + intros ((b & y) & <- & I). apply filter_In in I. destruct I as [I B]. destruct b; [|discriminate B]. apply H in I. destruct I as (n & I & D). exists n. apply DF. auto.
      + intros (n & D). apply DF in D. exists (true, x). split; [reflexivity|]. apply filter_In. split; [|reflexivity]. apply H. eauto.
  Qed.
End Variables.
(** For code that has no function or variable called Variable or Hash, and whose first function comes, in the order of
    ast.walk, after [before]: the variables and hashes declared in [before].  Missing: those declared after the first
    function, and code that assigns the result of a method call or of any called expression that is not a name (below). *)
Theorem C74_before_functions_partial m P t s t' s' before rest : python_source t -> kind_of t = "Module" -> fresh s -> parse m P true t s = (Ok t', s') ->
  (forall c, c = "Variable" \/ c = "Hash" -> ~ private_name t (u c) /\ ~ orm_name t (u c)) ->
  walk t = before ++ rest -> (forall n, In n before -> kind_of n <> "FunctionDef") -> (rest = [] \/ exists n r, rest = n :: r /\ kind_of n = "FunctionDef") ->
  (forall n v f, In n before -> kind_of n = "Assign" -> has_field n "value" v -> kind_of v = "Call" -> has_field v "func" f -> kind_of f = "Name") ->
  exists vs hs, variables_for_contract t' = Ok (vs, hs) /\
    (forall x, In x vs <-> exists n, In n before /\ declares "Variable" n x) /\ (forall x, In x hs <-> exists n, In n before /\ declares "Hash" n x).
Proof. intros HS HM HF HP OWN. exact (variables_listed m P t s t' s' HS HM HF HP OWN before rest). Qed.
Example C74_sample : variables_for_contract sample' = Ok ([u "v"], []) /\ exists before rest, walk sample = before ++ rest /\ (forall n, In n before -> kind_of n <> "FunctionDef") /\
  (exists n r, rest = n :: r /\ kind_of n = "FunctionDef") /\ exists n, In n before /\ declares "Variable" n (u "v").
Proof.
  split; [vm_compute; reflexivity|]. exists (firstn 2 (walk sample)), (skipn 2 (walk sample)). split; [symmetry; apply firstn_skipn|]. split; [intros n I; vm_compute in I; destruct I as [<-|[<-|[]]]; discriminate|].
  split; [do 2 eexists; split; [vm_compute; reflexivity|reflexivity]|]. exists (assign_at 1 (stored_at 1 "v") (call_at 1 (name_at 1 "Variable") [] [])). split; [vm_compute; auto|].
  split; [exists []; split; [reflexivity|]; split; [exists "Variable"; cbn; auto|]; exists (call_at 1 (name_at 1 "Variable") [] []), (name_at 1 "Variable"); repeat (split; [reflexivity|]); reflexivity|]. exists (stored_at 1 "v"), []. split; reflexivity.
Qed.
(** @export def f(): pass; v = Variable() *)
Definition late_decl : ast := module [def_at 2 "f" none_args [pass_at 3] (export_at 1) Absent; assign_at 4 (stored_at 4 "v") (call_at 4 (name_at 4 "Variable") [] [])].
Definition late_decl' : ast := match fst (parse (u "con_x") python true late_decl comp0) with Ok t => t | Err _ => Absent end.
(** x = datetime.now(); @export def f(): pass *)
Definition method_call : ast := module [assign_at 1 (stored_at 1 "x") (call_at 1 (Node "Attribute" (Some 1%Z) [("value", name_at 1 "datetime"); ("attr", Ident (u "now")); ("ctx", Node "Load" None [])]) [] []); def_at 3 "f" none_args [pass_at 4] (export_at 2) Absent].
Definition method_call' : ast := match fst (parse (u "con_x") python true method_call comp0) with Ok t => t | Err _ => Absent end.
Theorem C74_refuted :
  (accepted python late_decl /\ fst (parse (u "con_x") python true late_decl comp0) = Ok late_decl' /\ orm_name late_decl (u "v") /\ variables_for_contract late_decl' = Ok ([], [])) /\
  (accepted python method_call /\ fst (parse (u "con_x") python true method_call comp0) = Ok method_call' /\ variables_for_contract method_call' = Err EAttribute).
Proof.
  split; (split; [apply fine_ok; vm_compute; reflexivity|]; split; [vm_compute; reflexivity|]).
  - split; [|vm_compute; reflexivity]. exists (assign_at 4 (stored_at 4 "v") (call_at 4 (name_at 4 "Variable") [] [])), (u "Variable"), []. split; [vm_compute; auto 20|].
    split; [split; [reflexivity|]; split; [exists "Variable"; cbn; auto|]; exists (call_at 4 (name_at 4 "Variable") [] []), (name_at 4 "Variable"); repeat (split; [reflexivity|]); reflexivity|]. exists (stored_at 4 "v"), []. split; reflexivity.
  - vm_compute. reflexivity.
Qed.
