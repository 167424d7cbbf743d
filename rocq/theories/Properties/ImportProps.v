(** * C102: what an import statement of a contract runs *)
From Coq Require Import Lia.
From Verif Require Import Model.Base Model.State Model.Ast Model.Linter Model.Imports Spec.LintSpec Spec.ImportSpec.
From Verif Require Import Proofs.BaseFacts Proofs.LintFacts Properties.LintProps.
Local Open Scope string_scope.
Local Open Scope list_scope.

Lemma name_eqb_iff a b : name_eqb a b = true <-> a = b.
Proof.
  revert b. induction a as [|x a IH]; intros [|y b]; cbn [name_eqb]; try (split; congruence || discriminate).
  rewrite Bool.andb_true_iff, IH, str_eqb_eq. split; [intros [-> ->]; reflexivity|intros [= -> ->]; auto].
Qed.
Lemma name_eqb_refl a : name_eqb a a = true.
Proof. apply name_eqb_iff. reflexivity. Qed.
Lemma loaded_enter m n o w : loaded m (enter n o w) = if name_eqb m n then Some o else loaded m w.
Proof. reflexivity. Qed.
Lemma loaded_forget m n w : loaded m (forget n w) = if name_eqb n m then None else loaded m w.
Proof.
  unfold loaded, forget. cbn [w_mods]. induction (w_mods w) as [|[k o] l IH]; [destruct (name_eqb n m); reflexivity|].
  cbn [filter fst lookup]. destruct (name_eqb n k) eqn:E; cbn [negb]; [|cbn [lookup]]; rewrite IH.
  - apply name_eqb_iff in E. subst k. destruct (name_eqb m n) eqn:F; [|reflexivity]. apply name_eqb_iff in F. subst. rewrite name_eqb_refl. reflexivity.
  - destruct (name_eqb m k) eqn:F; [|reflexivity]. apply name_eqb_iff in F. subst. rewrite E. reflexivity.
Qed.

(** ** Plain names: no Python module runs, and none is loaded *)
Definition calm (w : world) (x : result unit * world) : Prop :=
  python_ran (snd x) = python_ran w /\ (forall m b, loaded m (snd x) = Some (Python b) -> loaded m w = Some (Python b)) /\
  (fst x = Ok tt \/ fst x = Err EImport \/ fst x = Err ERecursion).
Lemma calm_here w r : r = Ok tt \/ r = Err EImport \/ r = Err ERecursion -> calm w (r, w).
Proof. intros H. repeat split; auto. Qed.
Lemma calm_list f l : (forall n w, In n l -> calm w (f n w)) -> forall w, calm w (each_in_order f l w).
Proof.
  induction l as [|n l IH]; intros H w; cbn [each_in_order]; [apply calm_here; auto|].
  pose proof (H n w (or_introl eq_refl)) as C. destruct (f n w) as [[[]|e] w1]; [|exact C].
  destruct C as (C1 & C2 & _). destruct (IH (fun m w' I => H m w' (or_intror I)) w1) as (D1 & D2 & D3). cbn [snd fst] in *.
  split; [congruence|]. split; [auto|exact D3].
Qed.
Lemma calm_load I : imports_plain I -> forall fuel n w,
  (plain n -> calm w (statement I fuel true n w)) /\ (plain n -> i_contract I n <> None -> calm w (load I fuel true n w)).
Proof.
  intros IP. induction fuel as [|k IH]; intros n w; [split; intros; apply calm_here; auto|].
  split.
  - intros [x ->]. cbn [statement negb]. destruct (loaded [x] w) as [[|b]|] eqn:L; [apply calm_here; auto|apply calm_here; auto|].
    cbn iota. destruct (i_contract I [x]) eqn:E; [|apply calm_here; auto]. apply IH; [exists x; reflexivity|congruence].
  - intros [x ->] S. cbn [load]. destruct (loaded [x] w) as [o|] eqn:L; [apply calm_here; auto|].
    destruct (i_contract I [x]) as [l|] eqn:E; [|congruence]. unfold run_body.
    pose proof (calm_list (statement I k true) l (fun n w' J => proj1 (IH n w') (IP _ _ _ E J)) (enter [x] Contract w)) as (C1 & C2 & C3).
    destruct (each_in_order _ l _) as [[[]|e] w1]; cbn [fst snd] in *.
    + split; [exact C1|]. split; [|auto]. intros m b M. apply C2 in M. rewrite loaded_enter in M. destruct (name_eqb m [x]); [discriminate|exact M].
    + split; [exact C1|]. split; [|destruct C3 as [C3|[C3|C3]]; [discriminate|auto|auto]].
      intros m b M. cbn [snd] in M. rewrite loaded_forget in M. destruct (name_eqb [x] m); [discriminate|]. apply C2 in M.
      rewrite loaded_enter in M. destruct (name_eqb m [x]); [discriminate|exact M].
Qed.
(** A restricted import of a plain name runs no Python module, if no contract imports dotted names (missing: those) *)
Theorem C102_plain_imports_partial I fuel n w r w' : imports_plain I -> plain n -> statement I fuel true n w = (r, w') ->
  python_ran w' = python_ran w /\ (forall m b, loaded m w' = Some (Python b) -> loaded m w = Some (Python b)) /\
  (r = Ok tt \/ r = Err EImport \/ r = Err ERecursion).
Proof. intros IP HN E. pose proof (proj1 (calm_load I IP fuel n w) HN) as C. rewrite E in C. exact C. Qed.

(** ** Any name: what is bound is a contract *)
Section Binds.
  Variable I : installation.
  Hypothesis CP : contracts_plain I.
  Hypothesis DE : decent I.
  Definition good (w : world) (x : result unit * world) : Prop := keeps w (snd x) /\ (contracts_loaded_plain w -> contracts_loaded_plain (snd x)).
  Lemma good_here w r : good w (r, w).
  Proof. split; intros; [intros n o E; exact E|assumption]. Qed.
  Lemma good_trans w w1 r1 x : good w (r1, w1) -> good w1 x -> good w x.
  Proof. intros [A1 A2] [B1 B2]. split; [intros n o E; auto|auto]. Qed.
  Lemma good_list f l : (forall n w, good w (f n w)) -> forall w, good w (each_in_order f l w).
  Proof.
    intros H. induction l as [|n l IH]; intros w; cbn [each_in_order]; [apply good_here|].
    pose proof (H n w) as G. destruct (f n w) as [[[]|e] w1]; [|exact G]. exact (good_trans _ _ _ _ G (IH w1)).
  Qed.
  Lemma good_body n o body w : loaded n w = None -> (o = Contract -> plain n) -> good (enter n o w) (body (enter n o w)) -> good w (run_body n o body w).
  Proof.
    intros L HP [K C]. unfold run_body. destruct (body (enter n o w)) as [[[]|e] w1]; cbn [snd] in *.
    - split; cbn [snd].
      + intros m p E. apply K. rewrite loaded_enter. destruct (name_eqb m n) eqn:F; [|exact E]. apply name_eqb_iff in F. subst. congruence.
      + intros P m E. apply C; [|exact E]. intros q Q. rewrite loaded_enter in Q. destruct (name_eqb q n) eqn:F; [|exact (P q Q)].
        apply name_eqb_iff in F. subst. apply HP. congruence.
    - split; cbn [snd].
      + intros m p E. rewrite loaded_forget. destruct (name_eqb n m) eqn:F; [apply name_eqb_iff in F; subst; congruence|].
        apply K. rewrite loaded_enter. destruct (name_eqb m n) eqn:G; [|exact E]. apply name_eqb_iff in G. subst. congruence.
      + intros P m E. rewrite loaded_forget in E. destruct (name_eqb n m); [discriminate|]. apply C; [|exact E].
        intros q Q. rewrite loaded_enter in Q. destruct (name_eqb q n) eqn:F; [|exact (P q Q)]. apply name_eqb_iff in F. subst. apply HP. congruence.
  Qed.
  Lemma good_import fuel : forall r n w, good w (load I fuel r n w) /\ good w (statement I fuel r n w).
  Proof.
    induction fuel as [|k IH]; intros r n w; [split; apply good_here|].
    assert (GP : forall p, good w (match p with [] => (Ok tt, w) | _ => load I k r p w end)) by (intros []; [apply good_here|apply IH]).
    split.
    - cbn [load]. destruct (loaded n w) as [o|] eqn:L; [apply good_here|]. destruct n as [|x p]; [apply good_here|].
      specialize (GP p). destruct (match p with [] => _ | _ => _ end) as [[[]|e] w1]; [|exact GP]. refine (good_trans _ _ _ _ GP _).
      destruct (loaded (x :: p) w1) as [o|] eqn:L1; [apply good_here|].
      destruct (match p with [] => true | _ => _ end); [|apply good_here].
      destruct (i_contract I (x :: p)) as [l|] eqn:E.
      + apply good_body; [exact L1|intros _; exact (CP _ _ E)|]. apply good_list. intros. apply IH.
      + destruct (i_python I (x :: p)) as [[b body]|] eqn:F; [|apply good_here].
        apply good_body; [exact L1|discriminate|]. destruct (DE _ _ _ F (enter (x :: p) (Python b) w1)) as [D1 D2].
        split; [exact D1|]. intros P m M. apply P. apply D2. exact M.
    - cbn [statement]. destruct r; cbn [negb]; [|apply IH].
      destruct (loaded n w) as [[|b]|] eqn:L; [apply good_here|apply good_here|]. destruct n as [|x p]; [apply good_here|].
      specialize (GP p). destruct (match p with [] => _ | _ => _ end) as [[[]|e] w1]; [|exact GP]. refine (good_trans _ _ _ _ GP _).
      destruct (_ && _)%bool; [apply IH|apply good_here].
  Qed.
End Binds.
(** Whatever the name, a restricted import succeeds for contracts only, and leaves the contract in sys.modules *)
Theorem C102_binds_contracts I fuel n w w' : contracts_plain I -> decent I -> contracts_loaded_plain w ->
  statement I fuel true n w = (Ok tt, w') ->
  plain n /\ loaded n w' = Some Contract /\ (loaded n w = Some Contract \/ i_contract I n <> None).
Proof.
  intros CP DE LP. destruct fuel as [|k]; [discriminate|]. cbn [statement negb].
  destruct (loaded n w) as [[|b]|] eqn:L; [intros [= <-]; auto|discriminate|]. destruct n as [|x p]; [discriminate|].
  destruct (match p with [] => _ | _ => _ end) as [[[]|e] w1] eqn:E; [|discriminate].
  destruct (i_contract I (x :: p)) as [l|] eqn:C; [|rewrite Bool.andb_false_r; discriminate].
  destruct (CP _ _ C) as [y Y]. injection Y as -> ->. injection E as <-. cbn [andb].
  destruct k as [|k]; [discriminate|]. cbn [load]. rewrite L, C. unfold run_body.
  pose proof (good_list (statement I k true) l (fun n w => proj2 (good_import I CP DE k true n w)) (enter [y] Contract w)) as [G _].
  destruct (each_in_order _ l _) as [[[]|e] w2]; [|discriminate]. intros [= <-]. split; [exists y; reflexivity|].
  split; [|right; discriminate]. apply G. rewrite loaded_enter, name_eqb_refl. reflexivity.
Qed.

(** ** Dotted names *)
(** import m, at the top level of a contract; the same under "if now:" *)
Definition import_of (m : pystr) : ast := Node "Import" (Some 2%Z) [("names", Items [Node "alias" (Some 2%Z) [("name", Ident m); ("asname", Absent)]])].
Definition with_export (s : ast) : ast := module [s; def_at 9 "f" none_args [pass_at 10] (export_at 8) Absent].
Definition importing (m : pystr) : ast := with_export (import_of m).
Definition importing_if (m : pystr) : ast := with_export (Node "If" (Some 1%Z) [("test", name_at 1 "now"); ("body", Items [import_of m]); ("orelse", Items [])]).
(** Python's lists: module names without dots; neither "export" nor "now" is a builtin *)
Definition pythons (P : pyenv) : Prop :=
  (forall m, In m (py_modules P) -> ~ In (ch ".") m) /\ ~ In (u "export") (py_builtins P) /\ ~ In (u "now") (py_builtins P) /\ whole (py_ord P) /\ whole (py_ord_types P).
Lemma whole_nil {A} (f : list A -> list A) : whole f -> f [] = [].
Proof. intros W. destruct (f []) as [|x l] eqn:E; [reflexivity|]. exfalso. apply (proj1 (W [] x)). rewrite E. left. reflexivity. Qed.
Lemma whole_one {A} (f : list A -> list A) x : whole f -> forall y, In y (f [x]) -> y = x.
Proof. intros W y Y. apply (proj1 (W _ _)) in Y. destruct Y as [<-|[]]. reflexivity. Qed.
Lemma not_mem s l : ~ In s l -> str_mem s l = false.
Proof. intros H. destruct (str_mem s l) eqn:E; [|reflexivity]. exfalso. apply H. unfold str_mem in E. apply existsb_exists in E. destruct E as (y & Y & E). apply str_eqb_eq in E. subst. exact Y. Qed.
Lemma dotted_has_dot x p : p <> [] -> In (ch ".") (dotted (x :: p)).
Proof. destruct p; [congruence|]. intros _. cbn [dotted]. apply in_or_app. right. left. reflexivity. Qed.
Lemma accepts_dotted P n x p : pythons P -> n = x :: p -> p <> [] -> accepted P (importing (dotted n)) /\ accepted P (importing_if (dotted n)).
Proof.
  intros (HM & HE & HN & W1 & W2) -> NP. pose proof (dotted_has_dot x p NP) as D.
  assert (M : str_mem (dotted (x :: p)) (py_modules P) = false) by (apply not_mem; intros I; exact (HM _ I D)).
  revert M. generalize (dotted (x :: p)). clear D NP x p. intros m M.
  apply not_mem in HE. apply not_mem in HN. apply whole_nil in W1 as O1.
  destruct P as [bs ms o1 o2]. cbn [py_builtins py_modules py_ord py_ord_types] in *.
  assert (X : illegal_builtin (mkPy bs ms o1 o2) (u "export") = false) by (unfold illegal_builtin; cbn [py_builtins]; rewrite HE; reflexivity).
  assert (Y : illegal_builtin (mkPy bs ms o1 o2) (u "now") = false) by (unfold illegal_builtin; cbn [py_builtins]; rewrite HN; reflexivity).
  let e := eval vm_compute in (u "export") in change (u "export") with e in X.
  let e := eval vm_compute in (u "now") in change (u "now") with e in Y.
  assert (F : forall fs, exists s', final_checks (mkPy bs ms o1 o2) (mkLint [] fs true true false [] [] [(None, 9%Z)] []) = (Ok tt, s') /\ li_success s' = true).
  { intros fs. exists (mkLint [] fs true true false [] [] [(None, 9%Z)] []). split; [|reflexivity]. unfold final_checks. cbn [py_ord py_ord_types].
    unfold bind at 1, gets at 1. cbn [li_args li_types li_returns li_export]. rewrite O1, (whole_nil o2 W2). unfold bind, ret. cbn [foreach ret].
    pose proof (whole_one o2 (None, 9%Z) W2) as O3. induction (o2 [(None, 9%Z)]) as [|y l IH]; [reflexivity|].
    rewrite (O3 y (or_introl eq_refl)). cbn [foreach fst snd check_return_types]. apply IH. intros z Z. apply O3. right. exact Z. }
  assert (A : forall t fs, collect_function_defs t lint0 = (Ok tt, set_functions fs lint0) ->
    visit (mkPy bs ms o1 o2) t (set_functions fs lint0) = (Ok tt, mkLint [] fs true true false [] [] [(None, 9%Z)] []) ->
    accepted (mkPy bs ms o1 o2) t).
  { intros t fs C V. apply accepts_accepted. unfold accepts, lint_check. unfold bind at 1, modify at 1. unfold reset.
    unfold bind at 1. rewrite C. unfold bind at 1. rewrite V. destruct (F fs) as (s' & E & S). unfold bind at 1. rewrite E.
    unfold bind, gets, ret. cbn [fst]. rewrite S. reflexivity. }
  split; eapply (A _ [_; _]).
  - cbv -[split_all List.last]. reflexivity.
  - cbv -[illegal_builtin str_mem split_all List.last]. rewrite M. cbv -[illegal_builtin split_all List.last]. rewrite X. reflexivity.
  - cbv -[split_all List.last]. reflexivity.
  - cbv -[illegal_builtin str_mem split_all List.last]. rewrite M. cbv -[illegal_builtin split_all List.last]. rewrite X, Y. reflexivity.
Qed.
(** An accepted contract can run any Python module that is not loaded yet: "import a.x" runs the body of a, whatever it does,
    before it is refused.  An exception of that body, SystemExit included, takes the place of the ImportError. *)
Theorem C102_runs_python_refuted P I a x : pythons P ->
  accepted P (importing (dotted [x; a])) /\
  forall fuel w b body, i_python I [a] = Some (b, body) -> i_contract I [a] = None -> i_contract I [x; a] = None ->
  loaded [a] w = None -> loaded [x; a] w = None ->
  statement I (S (S fuel)) true [x; a] w =
    match body (enter [a] (Python b) w) with
    | (Ok _, w1) => (Err EImport, w1)
    | (Err e, w1) => (Err e, forget [a] w1)
    end.
Proof.
  intros HP. split; [apply (accepts_dotted P [x; a] x [a]); auto; discriminate|].
  intros fuel w b body HB HC HX L1 L2. cbn [statement negb]. rewrite L2. cbn [load]. rewrite L1, HC, HB. unfold run_body.
  destruct (body _) as [[[]|e] w1]; [|reflexivity]. rewrite HX, Bool.andb_false_r. reflexivity.
Qed.
(** ... and import Python modules for itself where imports are not restricted, the top-level code of the called contract
    (C66_top_level_refuted); a condition keeps the import from failing when the contract is submitted, under restricted imports. *)
Theorem C102_top_level_refuted P I a x : pythons P ->
  accepted P (importing_if (dotted [x; a])) /\
  forall fuel w b, i_python I [a] = Some (true, fun w => (Ok tt, w)) -> i_python I [x; a] = Some (b, fun w => (Ok tt, w)) ->
  i_contract I [a] = None -> i_contract I [x; a] = None -> loaded [a] w = None -> loaded [x; a] w = None ->
  exists w', statement I (S (S (S fuel))) false [x; a] w = (Ok tt, w') /\
    loaded [a] w' = Some (Python true) /\ loaded [x; a] w' = Some (Python b) /\ python_ran w' = [x; a] :: [a] :: python_ran w.
Proof.
  intros HP. split; [apply (accepts_dotted P [x; a] x [a]); auto; discriminate|].
  intros fuel w b H1 H2 C1 C2 L1 L2. exists (enter [x; a] (Python b) (enter [a] (Python true) w)).
  assert (N : name_eqb [x; a] [a] = false) by (cbn; apply Bool.andb_false_r).
  assert (N' : name_eqb [a] [x; a] = false) by (cbn; apply Bool.andb_false_r).
  split; [|repeat split].
  - cbn [statement load negb]. rewrite L2, L1, C1, H1. unfold run_body. rewrite loaded_enter, N, L2. unfold package. rewrite loaded_enter, name_eqb_refl, C2, H2. reflexivity.
  - rewrite !loaded_enter, N', name_eqb_refl. reflexivity.
  - rewrite loaded_enter, name_eqb_refl. reflexivity.
Qed.
(** A contract con_a that imports con_b; Python has a package whose submodule ends the process *)
Definition exits : installation := mkInst
  (fun n => if name_eqb n [u "lib2to3"] then Some (true, fun w => (Ok tt, w))
            else if name_eqb n [u "main"; u "lib2to3"] then Some (false, fun w => (Err EBase, w)) else None)
  (fun n => if name_eqb n [u "con_a"] then Some [[u "con_b"]] else if name_eqb n [u "con_b"] then Some [] else None).
Example C102_example : contracts_plain exits /\ imports_plain exits /\ decent exits /\ contracts_loaded_plain (mkWorld [] []) /\ pythons python /\
  (exists w', statement exits 9 true [u "con_a"] (mkWorld [] []) = (Ok tt, w') /\ python_ran w' = [] /\ loaded [u "con_b"] w' = Some Contract) /\
  fst (statement exits 9 true [u "x"; u "main"; u "lib2to3"] (mkWorld [] [])) = Err EBase.
Proof.
  assert (CP : contracts_plain exits).
  { intros n l. cbn [exits i_contract]. destruct (name_eqb n [u "con_a"]) eqn:E; [apply name_eqb_iff in E; intros _; exists (u "con_a"); exact E|].
    destruct (name_eqb n [u "con_b"]) eqn:F; [apply name_eqb_iff in F; intros _; exists (u "con_b"); exact F|discriminate]. }
  split; [exact CP|]. split.
  { intros n l m. cbn [exits i_contract]. destruct (name_eqb n [u "con_a"]); [intros [= <-] [<-|[]]; exists (u "con_b"); reflexivity|].
    destruct (name_eqb n [u "con_b"]); [intros [= <-] []|discriminate]. }
  split.
  { intros n b body. cbn [exits i_python]. destruct (name_eqb n [u "lib2to3"]); [intros [= <- <-] w; split; [intros m o E; exact E|auto]|].
    destruct (name_eqb n [u "main"; u "lib2to3"]); [intros [= <- <-] w; split; [intros m o E; exact E|auto]|discriminate]. }
  split; [intros n E; discriminate E|]. split.
  { split; [|split; [|split; [|split; intros l x; reflexivity]]].
    - intros m [<-|[<-|[<-|[]]]]; cbn; intuition discriminate.
    - cbn. intuition discriminate.
    - cbn. intuition discriminate. }
  split; [|vm_compute; reflexivity].
  exists (snd (statement exits 9 true [u "con_a"] (mkWorld [] []))). vm_compute. auto.
Qed.
