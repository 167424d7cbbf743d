(** * C32, C53 - C57: what the linter accepts *)
From Verif Require Import Model.Base Model.State Model.Dec Model.Time Model.Value Model.Encoder Model.Hdf5 Model.Runtime Model.Ast Model.Linter Model.Compiler.
From Verif Require Import Spec.LintSpec Proofs.BaseFacts Proofs.DriverFacts Proofs.LintFacts.
From Coq Require Import Lia Permutation Sorted.
Local Open Scope string_scope.
Local Open Scope list_scope.

(** [t] is accepted, by a linter in any state *)
Definition accepted (P : pyenv) (t : ast) : Prop := exists s s', lint_check P t s = (Ok None, s').

Section Accepted.
  Variables (P : pyenv) (t : ast).
  Hypothesis HI : imports_ok t.
  Hypothesis HL : lines_ok t.
  Hypothesis HA : accepted P t.
  Lemma acc : exists sv s', accepting P t sv s'.
  Proof. destruct HA as (s & s' & E). apply lint_inv in E. destruct E as (sv & A). eauto. Qed.
  Lemma acc_from m : In m (visited t) -> kind_of m <> "ImportFrom".
  Proof.
    intros I K. destruct acc as (sv & s' & A). destruct (accepting_node P t sv s' m A I) as (s1 & s2 & E & H & _). apply check_kind in E; [|exact H].
    destruct (kind_cases m _ K) as (ln & fs & ->); [discriminate|]. discriminate E.
  Qed.
  Lemma acc_visited n : In n (nodes t) -> kind_of n <> "alias" -> In n (visited t).
  Proof. intros I K. destruct (not_visited t n HI I) as [V|[A|(m & V & M)]]; [exact V|contradiction|destruct (acc_from m V M)]. Qed.
  (** each node but the aliases was checked, with success *)
  Lemma acc_node sv s' n : accepting P t sv s' -> In n (nodes t) -> kind_of n <> "alias" -> exists s1 s2, check_node P n s1 = (Ok tt, s2) /\ li_success s2 = true /\ grow s2 sv.
  Proof. intros A I K. exact (accepting_node P t sv s' n A (acc_visited n I K)). Qed.
  Lemma usable_spec x : illegal_builtin P x = false -> In x (py_builtins P) -> exists y, In y USABLE /\ x = u y.
  Proof.
    unfold illegal_builtin. intros E I. rewrite (proj2 (str_mem_spec _ _) I) in E. cbn [andb] in E. apply Bool.negb_false_iff, str_mem_spec in E. unfold ALLOWED_BUILTINS in E. apply in_map_iff in E. destruct E as (y & <- & E).
    exists y. split; [|reflexivity]. unfold USABLE. apply (in_or_app (removelast USABLE) ["float"]). left. exact E.
  Qed.
  Lemma accepted_clean : clean (py_builtins P) (py_modules P) t.
  Proof.
    destruct acc as (sv & s' & A). constructor.
    - intros n I J. destruct (string_dec (kind_of n) "alias") as [KA|KA]; [rewrite KA in J; cbn in J; intuition discriminate|].
      destruct (acc_node sv s' n A I KA) as (s1 & s2 & E & H & _). apply check_kind in E; [|exact H].
      assert (Q : kind_of n <> "") by (intros Q; rewrite Q in J; cbn in J; intuition discriminate).
      apply (kind_in_false _ _ E Q). clear - J. cbn in *. intuition.
    - intros n x I N. assert (KA : kind_of n <> "alias") by (destruct N as [[K _]|[K _]]; rewrite K; discriminate).
      destruct (acc_node sv s' n A I KA) as (s1 & s2 & E & H & _). destruct N as [[K F]|[K F]].
      + destruct (check_name P n x s1 s2 E H K F) as (X & Y & Z & _). apply str_eqb_neq in Z. auto.
      + destruct (check_attribute P n x s1 s2 E H K F) as (X & Y & Z). apply str_eqb_neq in Z. auto.
    - intros n x I K F IB. assert (KA : kind_of n <> "alias") by (rewrite K; discriminate). destruct (acc_node sv s' n A I KA) as (s1 & s2 & E & H & _).
      destruct (check_name P n x s1 s2 E H K F) as (_ & _ & _ & B). destruct (illegal_builtin P x) eqn:IL; [|apply usable_spec; assumption].
      cbn [andb] in B. apply Bool.negb_false_iff, str_eqb_eq in B. exists "float". split; [apply (in_or_app (removelast USABLE) ["float"]); right; left; reflexivity|exact B].
    - intros n f I K F KF IB FF. assert (KA : kind_of n <> "alias") by (rewrite K; discriminate). destruct (acc_node sv s' n A I KA) as (s1 & s2 & E & H & _).
      pose proof (check_call P n f _ s1 s2 E H K F KF FF) as IL. unfold illegal_builtin in IL. rewrite (proj2 (str_mem_spec _ _) IB) in IL. discriminate IL.
    - intros n l a x I K F Ia Fa J. assert (KA : kind_of n <> "alias") by (rewrite K; discriminate). destruct (acc_node sv s' n A I KA) as (s1 & s2 & E & H & _).
      pose proof (check_import P n l a x s1 s2 E H K F Ia Fa) as M. rewrite (proj2 (str_mem_spec _ _) J) in M. discriminate M.
    - intros n ds I [K F]. assert (KA : kind_of n <> "alias") by (rewrite K; discriminate). destruct (acc_node sv s' n A I KA) as (s1 & s2 & E & H & _).
      destruct (check_function P n s1 s2 E H K (HL n I K)) as [_ (ds' & a & l & FD & D & _)]. unfold has_field in F, FD. rewrite F in FD. injection FD as <-.
      destruct D as [-> _|d -> FD _ _|d -> FD _ _ _]; [left; reflexivity|right; exists d; auto|right; exists d; auto].
    - rewrite (filter_visited constructor t); [|intros n K; unfold constructor; destruct (named_decorator "construct" n) eqn:Q; [apply named_decorator_kind in Q; congruence|reflexivity]|exact HI|exact acc_from].
      destruct A as [[f EV] EF HS HV]. destruct (foreach_flags P _ _ _ EV HV) as [_ C]; [intros n I; apply HL, visited_nodes, I|]. change (li_ctor (set_functions f lint0)) with false in C. destruct (li_ctor sv); lia.
    - destruct A as [[f EV] EF HS HV]. destruct (foreach_flags P _ _ _ EV HV) as [C _]; [intros n I; apply HL, visited_nodes, I|]. apply final_inv in EF; [|exact HS]. destruct EF as [X _]. rewrite X in C.
      change (li_export (set_functions f lint0)) with false in C. rewrite Bool.orb_false_r in C. symmetry in C. apply existsb_exists in C. destruct C as (n & I & C). exists n. split; [apply visited_nodes, I|exact C].
  Qed.
  Lemma accepted_body n : In n (nodes t) -> kind_of n = "FunctionDef" -> exists body, has_field n "body" (Items body) /\ forall m, In m body -> kind_of m <> "Import" /\ kind_of m <> "ImportFrom" /\ kind_of m <> "FunctionDef".
  Proof.
    intros I K. destruct acc as (sv & s' & A). assert (KA : kind_of n <> "alias") by (rewrite K; discriminate). destruct (acc_node sv s' n A I KA) as (s1 & s2 & E & H & _).
    destruct (check_function P n s1 s2 E H K (HL n I K)) as [B _]. exact B.
  Qed.
  Lemma accepted_args n l : whole (py_ord P) -> whole (py_ord_types P) -> In n (nodes t) -> kind_of n = "FunctionDef" -> has_args n l -> forall m, In m l ->
    (forall x, has_field m "arg" (Ident x) -> forall d c kws, In d (nodes t) -> orm_assignment d c kws -> ~ first_target d x) /\
    (exported n = true -> exists y, In y TYPES /\ annotated m (u y)).
  Proof.
    intros W1 W2 I K (a & FA & FL) m M. destruct acc as (sv & s' & A). assert (KA : kind_of n <> "alias") by (rewrite K; discriminate). destruct (acc_node sv s' n A I KA) as (s1 & s2 & E & H & G).
    destruct (check_function P n s1 s2 E H K (HL n I K)) as [_ (ds & a' & l' & FD & D & FA' & FL' & AR)]. unfold has_field in FA, FL, FA', FL'. rewrite FA in FA'. injection FA' as <-. rewrite FL in FL'. injection FL' as <-.
    destruct (AR m M) as (x & z & FX & IX & TX). pose proof (ac_final _ _ _ _ A) as EF. apply final_inv in EF; [|exact (ac_success _ _ _ _ A)]. destruct EF as (_ & O & T & _).
    split.
    - intros y FY d c kws Id (Kd & (oc & Ioc & ->) & v & f & FV & KV & FF & KF & FC & FK) FT. unfold has_field in FX, FY. rewrite FX in FY. injection FY as <-.
      assert (KA' : kind_of d <> "alias") by (rewrite Kd; discriminate). destruct (acc_node sv s' d A Id KA') as (s3 & s4 & E' & H' & G').
      destruct (check_assign P d v f (u oc) s3 s4 E' H' Kd FV KV FF) as [_ (t0 & ts & FT' & OR)]; [rewrite KF; discriminate|exact FC|apply in_map; exact Ioc|].
      destruct FT as (t1 & ts1 & F1 & F2). unfold has_field in FT', F1. rewrite F1 in FT'. injection FT' as <- <-.
      apply (O (x, z)); [apply W1, (gr_args _ _ G), IX|]. apply (gr_orm _ _ G'), (proj1 OR), F2.
    - intros EX. unfold exported in EX. rewrite (named_decorator_spec _ n ds FD K) in EX.
      destruct D as [-> _|d -> FD' _ _|d -> FD' _ _ _]; [discriminate EX| |].
      + destruct (TX d eq_refl FD') as (ty & TY & IT). destruct (T (ty, z)) as (q & Q & IQ); [apply W2, (gr_types _ _ G), IT|]. cbn [fst] in Q. subst ty.
        unfold ALLOWED_ANNOTATION_TYPES in IQ. apply in_map_iff in IQ. destruct IQ as (y & <- & IQ). exists y. split; [exact IQ|].
        destruct TY as [[_ Q]|(p & AN & Q)]; [discriminate Q|]. injection Q as Q. unfold annotation in AN. destruct (attr "annotation" m) as [w|] eqn:EW; [|discriminate AN]. cbn [bindr] in AN. exists w. split; [exact EW|].
        rewrite Q. destruct (attr_id "id" w) as [i|e] eqn:EI.
        * left. injection AN as <-. apply attr_id_inv, EI.
        * right. destruct e; try discriminate AN. destruct (attr "value" w) as [v|] eqn:EV; [|discriminate AN]. cbn [bindr] in AN. destruct (attr_id "id" v) as [p1|] eqn:E1; [|discriminate AN]. cbn [bindr] in AN.
          destruct (attr_id "attr" w) as [p2|] eqn:E2; [|discriminate AN]. cbn [bindr] in AN. injection AN as <-. exists v, p1, p2. apply attr_id_inv in E1, E2. auto.
      + cbn [existsb] in EX. rewrite (proj2 (attr_id_inv _ _ _) FD') in EX. discriminate EX.
  Qed.
  Lemma accepted_orm d c kws k x : In d (nodes t) -> orm_assignment d c kws -> c <> u "ForeignVariable" -> c <> u "ForeignHash" -> In k kws -> has_field k "arg" (Ident x) -> x <> u "contract" /\ x <> u "name".
  Proof.
    intros I (Kd & (oc & Ioc & ->) & v & f & FV & KV & FF & KF & FC & FK) N1 N2 Ik Fk. destruct acc as (sv & s' & A). assert (KA' : kind_of d <> "alias") by (rewrite Kd; discriminate). destruct (acc_node sv s' d A I KA') as (s3 & s4 & E' & H' & G').
    destruct (check_assign P d v f (u oc) s3 s4 E' H' Kd FV KV FF) as [B _]; [rewrite KF; discriminate|exact FC|apply in_map; exact Ioc|].
    apply (B kws k x); auto. cbn in Ioc. destruct Ioc as [<-|[<-|[<-|[<-|[<-|[]]]]]]; auto; congruence.
  Qed.
  Lemma accepted_targets d c kws : In d (nodes t) -> orm_assignment d c kws -> exists x xs, has_field d "targets" (Items (x :: xs)) /\ forall y, In y (x :: xs) -> kind_of y <> "Tuple".
  Proof.
    intros I (Kd & (oc & Ioc & ->) & v & f & FV & KV & FF & KF & FC & FK). destruct acc as (sv & s' & A). assert (KA' : kind_of d <> "alias") by (rewrite Kd; discriminate). destruct (acc_node sv s' d A I KA') as (s3 & s4 & E' & H' & G').
    destruct (check_assign P d v f (u oc) s3 s4 E' H' Kd FV KV FF) as [_ (x & xs & B & _ & C)]; [rewrite KF; discriminate|exact FC|apply in_map; exact Ioc|]. eauto.
  Qed.
  Lemma accepted_alias d v x : In d (nodes t) -> kind_of d = "Assign" -> has_field d "value" v -> kind_of v = "Name" -> has_field v "id" (Ident x) -> x <> u "Hash" /\ x <> u "Variable" /\ x <> u "LogEvent".
  Proof.
    intros I Kd FV KV FI. destruct acc as (sv & s' & A). assert (KA' : kind_of d <> "alias") by (rewrite Kd; discriminate). destruct (acc_node sv s' d A I KA') as (s3 & s4 & E' & H' & G').
    exact (check_alias P d v x s3 s4 E' H' Kd FV KV FI).
  Qed.
End Accepted.

(** ** Trees to try it on *)
Definition accepts (P : pyenv) (t : ast) : bool := match fst (lint_check P t lint0) with Ok None => true | _ => false end.
Lemma accepts_accepted P t : accepts P t = true -> accepted P t.
Proof. unfold accepts. intros E. exists lint0, (snd (lint_check P t lint0)). destruct (lint_check P t lint0) as [[[l|]|e] s]; try discriminate E. reflexivity. Qed.
Definition python : pyenv := mkPy (map u ["print"; "open"; "float"; "int"; "len"; "eval"; "type"]) (map u ["os"; "sys"; "math"]) (fun l => l) (fun l => l).
Definition name_at (z : Z) (x : string) : ast := Node "Name" (Some z) [("id", Ident (u x)); ("ctx", Node "Load" None [])].
Definition stored_at (z : Z) (x : string) : ast := Node "Name" (Some z) [("id", Ident (u x)); ("ctx", Node "Store" None [])].
Definition arg_at (z : Z) (x : string) (an : ast) : ast := Node "arg" (Some z) [("arg", Ident (u x)); ("annotation", an); ("type_comment", Absent)].
Definition args_of (pos l : list ast) (var : ast) (kwonly : list ast) : ast :=
  Node "arguments" None [("posonlyargs", Items pos); ("args", Items l); ("vararg", var); ("kwonlyargs", Items kwonly); ("kw_defaults", Items (map (fun _ => Absent) kwonly)); ("kwarg", Absent); ("defaults", Items [])].
Definition def_at (z : Z) (x : string) (args : ast) (body decos : list ast) (returns : ast) : ast :=
  Node "FunctionDef" (Some z) [("name", Ident (u x)); ("args", args); ("body", Items body); ("decorator_list", Items decos); ("returns", returns); ("type_comment", Absent)].
Definition module (body : list ast) : ast := Node "Module" None [("body", Items body); ("type_ignores", Items [])].
Definition int_at (z : Z) (v : Z) : ast := Node "Constant" (Some z) [("value", Const (CInt v)); ("kind", Absent)].
Definition pass_at (z : Z) : ast := Node "Pass" (Some z) [].
Definition call_at (z : Z) (f : ast) (args kws : list ast) : ast := Node "Call" (Some z) [("func", f); ("args", Items args); ("keywords", Items kws)].
Definition assign_at (z : Z) (x : ast) (v : ast) : ast := Node "Assign" (Some z) [("targets", Items [x]); ("value", v); ("type_comment", Absent)].
Definition import_at (z : Z) (m : string) : ast := Node "Import" (Some z) [("names", Items [Node "alias" (Some z) [("name", Ident (u m)); ("asname", Absent)]])].
Definition none_args : ast := args_of [] [] Absent [].
Definition export_at (z : Z) : list ast := [name_at z "export"].
(** balances = Hash(); import con_token; @construct def seed(): pass; @export def transfer(amount: float): con_token.pay; def helper(x): return *)
Definition token : ast := module [assign_at 1 (stored_at 1 "balances") (call_at 1 (name_at 1 "Hash") [] []); import_at 2 "con_token";
  def_at 4 "seed" none_args [pass_at 5] [name_at 3 "construct"] Absent;
  def_at 7 "transfer" (args_of [] [arg_at 7 "amount" (name_at 7 "float")] Absent []) [Node "Expr" (Some 8%Z) [("value", Node "Attribute" (Some 8%Z) [("value", name_at 8 "con_token"); ("attr", Ident (u "pay")); ("ctx", Node "Load" None [])])]] (export_at 6) Absent;
  def_at 9 "helper" (args_of [] [arg_at 9 "x" Absent] Absent []) [Node "Return" (Some 10%Z) [("value", Absent)]] [] Absent].
Definition imports_okb (t : ast) : bool := forallb (fun n => if is_kind "Import" n then forallb (fun m => is_kind "alias" m) (tl (nodes n)) else true) (nodes t).
Lemma imports_okb_ok t : imports_okb t = true -> imports_ok t.
Proof.
  intros E n m I K J. unfold imports_okb in E. rewrite forallb_forall in E. specialize (E n I). destruct (kind_cases n _ K) as (ln & fs & ->); [discriminate|]. change (is_kind "Import" (Node "Import" ln fs)) with true in E. cbn iota in E.
  rewrite forallb_forall in E. rewrite nodes_node in *. destruct J as [<-|J]; [left; reflexivity|right]. cbn [tl] in E. specialize (E m J). destruct m; try discriminate E. unfold is_kind in E. cbn [kind_of]. apply String.eqb_eq in E. auto.
Qed.
Definition lines_okb (t : ast) : bool := forallb (fun n => if is_kind "FunctionDef" n then match lineno n with Ok _ => true | _ => false end else true) (nodes t).
Lemma lines_okb_ok t : lines_okb t = true -> lines_ok t.
Proof.
  intros E n I K. unfold lines_okb in E. rewrite forallb_forall in E. specialize (E n I). destruct (kind_cases n _ K) as (ln & fs & ->); [discriminate|]. change (is_kind "FunctionDef" (Node "FunctionDef" ln fs)) with true in E. cbn iota in E.
  destruct (lineno (Node "FunctionDef" ln fs)) eqn:L; [eauto|discriminate E].
Qed.
Definition fine (t : ast) : bool := (accepts python t && imports_okb t && lines_okb t)%bool.
Lemma fine_ok t : fine t = true -> accepted python t /\ imports_ok t /\ lines_ok t.
Proof. unfold fine. intros E. apply andb_prop in E. destruct E as [E E3]. apply andb_prop in E. destruct E as [E1 E2]. auto using accepts_accepted, imports_okb_ok, lines_okb_ok. Qed.

(** ** C53 Lint rejects every forbidden construct anywhere.

    [clean] (Spec.LintSpec): at any depth, no node of a forbidden kind, no system names, no other builtins than the
    usable ones, no call of float, no import of a standard module by its full name, decorators, one constructor at most
    and one export at least.  Missing: "try ... except*" (below), the identifiers that are not names or attributes (a
    def may be called __export: see C58), and imports of submodules (below). *)
Theorem C53_clean_partial P t : imports_ok t -> lines_ok t -> accepted P t -> clean (py_builtins P) (py_modules P) t.
Proof. exact (fun HI HL HA => accepted_clean P t HI HL HA). Qed.
Example C53_token : accepted python token /\ imports_ok token /\ lines_ok token.
Proof. apply fine_ok. vm_compute. reflexivity. Qed.
(** such trees are rejected, wherever the construct is *)
Theorem C53_rejected P t n s : imports_ok t -> lines_ok t -> In n (nodes t) -> In (kind_of n) FORBIDDEN -> fst (lint_check P t s) <> Ok None.
Proof.
  intros HI HL I K E. assert (A : accepted P t). { exists s, (snd (lint_check P t s)). destruct (lint_check P t s) as [r s']. cbn [fst snd] in *. subst r. reflexivity. }
  exact (cl_kinds _ _ _ (C53_clean_partial P t HI HL A) n I K).
Qed.
(** try: pass / except* Exception: pass *)
Definition try_star : ast := Node "TryStar" (Some 3%Z) [("body", Items [pass_at 4]);
  ("handlers", Items [Node "ExceptHandler" (Some 5%Z) [("type", name_at 5 "Exception"); ("name", Absent); ("body", Items [pass_at 6])]]); ("orelse", Items []); ("finalbody", Items [])].
Definition trying : ast := module [def_at 2 "f" none_args [try_star] (export_at 1) Absent].
Theorem C53_except_star_refuted : exists t n, accepted python t /\ In n (nodes t) /\ kind_of n = "TryStar".
Proof. exists trying, try_star. split; [apply (fine_ok trying); vm_compute; reflexivity|]. split; [vm_compute; auto 20|reflexivity]. Qed.
(** import os.path: only whole names are looked up *)
Definition submodule : ast := module [import_at 1 "os.path"; def_at 3 "f" none_args [pass_at 4] (export_at 2) Absent].
Theorem C53_submodule_refuted : exists t n l a, accepted python t /\ In (u "os") (py_modules python) /\ In n (nodes t) /\ kind_of n = "Import" /\ has_field n "names" (Items l) /\ In a l /\ has_field a "name" (Ident (u "os.path")).
Proof.
  exists submodule, (import_at 1 "os.path"), [Node "alias" (Some 1%Z) [("name", Ident (u "os.path")); ("asname", Absent)]], (Node "alias" (Some 1%Z) [("name", Ident (u "os.path")); ("asname", Absent)]).
  split; [apply (fine_ok submodule); vm_compute; reflexivity|]. split; [left; reflexivity|]. split; [cbn; auto|]. split; [reflexivity|]. split; [reflexivity|]. split; [left; reflexivity|reflexivity].
Qed.

(** ** C54 The linter is an allow-list: it is not.  The list of allowed kinds exists (ALLOWED_AST_TYPES) and nothing uses it. *)
Definition if_exp : ast := Node "IfExp" (Some 3%Z) [("test", int_at 3 1); ("body", int_at 3 2); ("orelse", int_at 3 3)].
Definition conditional : ast := module [def_at 2 "f" none_args [Node "Return" (Some 3%Z) [("value", if_exp)]] (export_at 1) Absent].
Theorem C54_refuted : exists t n, accepted python t /\ In n (nodes t) /\ ~ In (kind_of n) ALLOWED_AST_TYPES.
Proof.
  exists conditional, if_exp. split; [apply (fine_ok conditional); vm_compute; reflexivity|]. split; [vm_compute; auto 20|]. intros I. cbn in I. repeat (destruct I as [I|I]; [discriminate I|]). destruct I.
Qed.
(** It is a list of what is not allowed; these are not there. *)
Theorem C54_deny_list_partial P t n : imports_ok t -> lines_ok t -> accepted P t -> In n (nodes t) -> ~ In (kind_of n) FORBIDDEN.
Proof. intros HI HL HA. apply (cl_kinds _ _ _ (C53_clean_partial P t HI HL HA)). Qed.

(** ** C55 Lint findings do not depend on history *)
(** earlier checks with the same linter, whatever they gave *)
Fixpoint history (P : pyenv) (ts : list ast) (s : lint) : lint := match ts with [] => s | t :: r => history P r (snd (lint_check P t s)) end.
Definition by_line (a b : violation) : Prop := (vi_line a <= vi_line b)%Z.
Lemma insert_perm v l : Permutation (insert_viol v l) (v :: l).
Proof. induction l as [|w r IH]; [reflexivity|]. cbn [insert_viol]. destruct Z.ltb; [reflexivity|]. etransitivity; [apply perm_skip, IH|apply perm_swap]. Qed.
Lemma insert_sorted v l : StronglySorted by_line l -> StronglySorted by_line (insert_viol v l).
Proof.
  intros H. induction H as [|w r H IH F]; [repeat constructor|]. cbn [insert_viol]. destruct (Z.ltb_spec (vi_line v) (vi_line w)) as [L|L].
  - constructor; [constructor; assumption|]. constructor; [unfold by_line; lia|]. eapply Forall_impl; [|exact F]. intros x X. unfold by_line in *. lia.
  - constructor; [exact IH|]. rewrite Forall_forall in *. intros x X. apply (Permutation_in _ (insert_perm v r)) in X. destruct X as [<-|X]; [exact L|apply F, X].
Qed.
Lemma sort_spec l acc : StronglySorted by_line acc -> StronglySorted by_line (fold_left (fun acc v => insert_viol v acc) l acc) /\ Permutation (l ++ acc) (fold_left (fun acc v => insert_viol v acc) l acc).
Proof.
  revert acc. induction l as [|v l IH]; intros acc H; [split; [exact H|reflexivity]|]. cbn [fold_left app]. destruct (IH (insert_viol v acc) (insert_sorted v acc H)) as [A B]. split; [exact A|].
  rewrite <- B. rewrite (insert_perm v acc). apply Permutation_middle.
Qed.
Theorem C55 P t ts ts' s s2 : lint_check P t (history P ts s) = lint_check P t (history P ts' s2) /\
  forall l s', lint_check P t (history P ts s) = (Ok (Some l), s') -> StronglySorted by_line l /\ Permutation (li_viol s') l.
Proof.
  split; [reflexivity|]. intros l s' E. unfold lint_check in E. apply bind_inv in E. destruct E as (q0 & s3 & E0 & E). apply bind_inv in E. destruct E as (q1 & s4 & E1 & E). apply bind_inv in E. destruct E as (q2 & s5 & E2 & E).
  apply bind_inv in E. destruct E as (q3 & s6 & E3 & E). apply bind_inv in E. destruct E as (s7 & s8 & E4 & E). injection E4 as <- <-. destruct (li_success s6); [discriminate E|]. injection E as <- <-.
  destruct (sort_spec (li_viol s6) [] (SSorted_nil _)) as [A B]. rewrite app_nil_r in B. split; [exact A|exact B].
Qed.
(** two findings, found in the other order *)
Definition two_faults : ast := module [def_at 5 "f" none_args [Node "Expr" (Some 6%Z) [("value", name_at 6 "rt")]] (export_at 4) Absent; Node "Expr" (Some 2%Z) [("value", name_at 2 "x_")]].
Example C55_sorted : exists s, lint_check python two_faults (history python [token; trying] lint0) = (Ok (Some [mkViol 2 1; mkViol 6 13]), s) /\ li_viol s = [mkViol 6 13; mkViol 2 1].
Proof. eexists. split; [vm_compute; reflexivity|reflexivity]. Qed.

(** ** C56 No nested imports or functions: not directly in the body of a function *)
Theorem C56_direct_partial P t n : imports_ok t -> lines_ok t -> accepted P t -> In n (nodes t) -> kind_of n = "FunctionDef" ->
  exists body, has_field n "body" (Items body) /\ forall m, In m body -> kind_of m <> "Import" /\ kind_of m <> "ImportFrom" /\ kind_of m <> "FunctionDef".
Proof. intros HI HL HA. apply (accepted_body P t HI HL HA). Qed.
(** def f(): if 1: import con_x; def g(): pass *)
Definition inner : ast := def_at 5 "g" none_args [pass_at 6] [] Absent.
Definition nested : ast := def_at 2 "f" none_args [Node "If" (Some 3%Z) [("test", int_at 3 1); ("body", Items [import_at 4 "con_x"; inner]); ("orelse", Items [])]] (export_at 1) Absent.
Theorem C56_refuted : exists t n, accepted python t /\ In n (nodes t) /\ kind_of n = "FunctionDef" /\ (exists m, In m (nodes n) /\ kind_of m = "Import") /\ (exists m, In m (nodes n) /\ m <> n /\ kind_of m = "FunctionDef").
Proof.
  exists (module [nested]), nested. split; [apply (fine_ok (module [nested])); vm_compute; reflexivity|]. split; [vm_compute; auto|]. split; [reflexivity|].
  split; [exists (import_at 4 "con_x"); split; [vm_compute; auto 20|reflexivity]|exists inner; split; [vm_compute; auto 30|split; [discriminate|reflexivity]]].
Qed.

(** ** C57 Exports are annotated, returns are not: the arguments that may be given by position or by name *)
Theorem C57_args_partial P t n l : imports_ok t -> lines_ok t -> whole (py_ord P) -> whole (py_ord_types P) -> accepted P t -> In n (nodes t) -> exported n = true -> has_args n l ->
  forall m, In m l -> exists y, In y TYPES /\ annotated m (u y).
Proof.
  intros HI HL W1 W2 HA I EX HG m M. apply (accepted_args P t HI HL HA n l W1 W2 I (named_decorator_kind _ _ EX) HG m M). exact EX.
Qed.
Example C57_token : exists n m, In n (nodes token) /\ exported n = true /\ has_args n [m] /\ annotated m (u "float").
Proof.
  exists (nth 3 (match token with Node _ _ ((_, Items l) :: _) => l | _ => [] end) Absent), (arg_at 7 "amount" (name_at 7 "float")).
  split; [vm_compute; auto 60|]. split; [vm_compute; reflexivity|]. split; [eexists; split; reflexivity|]. eexists. split; [reflexivity|]. left. reflexivity.
Qed.
(** @export def f(a: int, *rest, k) -> str: pass *)
Definition loose_def : ast := def_at 2 "f" (args_of [arg_at 2 "p" Absent] [arg_at 2 "a" (name_at 2 "int")] (arg_at 2 "rest" Absent) [arg_at 2 "k" Absent]) [pass_at 3] (export_at 1) (name_at 2 "str").
Theorem C57_refuted : exists t n r, accepted python t /\ In n (nodes t) /\ exported n = true /\ has_field n "returns" r /\ kind_of r = "Name" /\
  forall x, In x ["p"; "k"; "rest"] -> exists m, argument_of n m /\ has_field m "arg" (Ident (u x)) /\ has_field m "annotation" Absent.
Proof.
  exists (module [loose_def]), loose_def, (name_at 2 "str"). split; [apply (fine_ok (module [loose_def])); vm_compute; reflexivity|]. split; [vm_compute; auto|]. split; [vm_compute; reflexivity|]. split; [reflexivity|]. split; [reflexivity|].
  intros x [<-|[<-|[<-|[]]]].
  - exists (arg_at 2 "p" Absent). split; [|split; reflexivity]. eexists. split; [reflexivity|]. left. exists "posonlyargs", [arg_at 2 "p" Absent]. split; [auto|]. split; [reflexivity|left; reflexivity].
  - exists (arg_at 2 "k" Absent). split; [|split; reflexivity]. eexists. split; [reflexivity|]. left. exists "kwonlyargs", [arg_at 2 "k" Absent]. split; [auto|]. split; [reflexivity|left; reflexivity].
  - exists (arg_at 2 "rest" Absent). split; [|split; reflexivity]. eexists. split; [reflexivity|]. right. split; [left; reflexivity|reflexivity].
Qed.
(** ...and a return annotation on a function without arguments is an UnboundLocalError *)
Theorem C57_no_args_refuted : fst (lint_check python (module [def_at 2 "f" none_args [pass_at 3] (export_at 1) (name_at 2 "str")]) lint0) = Err EUnboundLocal.
Proof. vm_compute. reflexivity. Qed.

(** ** C32 A contract can only write its own storage: what the linter does about it *)
(** An assignment that declares a variable, hash or event cannot say whose it is. *)
Theorem C32_declared_partial P t d c kws k x : imports_ok t -> lines_ok t -> accepted P t -> In d (nodes t) -> orm_assignment d c kws -> c <> u "ForeignVariable" -> c <> u "ForeignHash" ->
  In k kws -> has_field k "arg" (Ident x) -> x <> u "contract" /\ x <> u "name".
Proof. intros HI HL HA. apply (accepted_orm P t HI HA). Qed.
(** Hash(contract='currency', name='balances')['me'] = 1000 *)
Definition str_at (z : Z) (s : string) : ast := Node "Constant" (Some z) [("value", Const (CStr (u s))); ("kind", Absent)].
Definition keyword_at (z : Z) (a : string) (v : ast) : ast := Node "keyword" (Some z) [("arg", Ident (u a)); ("value", v)].
Definition other_hash : ast := call_at 3 (name_at 3 "Hash") [] [keyword_at 3 "contract" (str_at 3 "currency"); keyword_at 3 "name" (str_at 3 "balances")].
Definition thief : ast := module [def_at 2 "f" none_args
  [assign_at 3 (Node "Subscript" (Some 3%Z) [("value", other_hash); ("slice", str_at 3 "me"); ("ctx", Node "Store" None [])]) (int_at 3 1000)] (export_at 1) Absent].
